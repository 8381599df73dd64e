(** * Lemmas: which event makes which return code *)
From Verif Require Import Base BaseProofs HeapProofs Util UtilProofs Claim Base64 SpecB64
  Base64EncProofs Base64EncApi Base64DecProofs Base64Api Jsmn Env Encode Decode SpecJson SpecJwa ClaimProofs UnescapeProofs
  EncodeProofs SignProofs EncodeTotal SpecEnc JsonProofs PropEncode DecodeProofs DecodeInv JsmnProofs ParseProofs
  PropClaim ReadProofs ValidateProofs JsmnJson JsmnSize PropVerify PropValidate PropLeak PropJson DecodeTotal.
From Coq Require Import ZifyBool ZifyNat ZifyN.
Ltac Zify.zify_post_hook ::= Z.div_mod_to_equations.
Local Opaque L8W8JWT_MAX_KEY_SIZE.

(** ** Allocations made between two states *)
(** One of the allocations requested between [w] and [w'] failed. *)
Definition lacks_memory (w w' : world) : Prop :=
  exists i, (w_next w <= i < w_next w')%nat /\ w_alloc w i = false.
Definition fwd (w w' : world) : Prop := w_alloc w' = w_alloc w /\ (w_next w <= w_next w')%nat.
Definition served (w w' : world) : Prop := fwd w w' /\ ~ lacks_memory w w'.
Definition starved (w w' : world) : Prop := fwd w w' /\ lacks_memory w w'.

Lemma fwd_trans a b c : fwd a b -> fwd b c -> fwd a c.
Proof. intros (E1 & L1) (E2 & L2). split; [congruence|lia]. Qed.
Lemma lacks_split a b c : fwd a b -> fwd b c -> (lacks_memory a c <-> lacks_memory a b \/ lacks_memory b c).
Proof.
  intros (E1 & L1) (E2 & L2). split.
  - intros (i & Hi & H). destruct (Nat.lt_ge_cases i (w_next b)); [left|right]; exists i; (split; [lia|congruence]).
  - intros [(i & Hi & H)|(i & Hi & H)]; exists i; (split; [lia|congruence]).
Qed.
Lemma served_refl w : served w w.
Proof. split; [split; auto|]. intros (i & Hi & _). lia. Qed.
Lemma served_trans a b c : served a b -> served b c -> served a c.
Proof. intros (F1 & N1) (F2 & N2). split; [eapply fwd_trans; eauto|]. rewrite (lacks_split a b c) by auto. tauto. Qed.
Lemma served_starved a b c : served a b -> starved b c -> starved a c.
Proof. intros (F1 & N1) (F2 & N2). split; [eapply fwd_trans; eauto|]. rewrite (lacks_split a b c) by auto. tauto. Qed.
Lemma starved_fwd a b c : starved a b -> fwd b c -> starved a c.
Proof. intros (F1 & N1) F2. split; [eapply fwd_trans; eauto|]. rewrite (lacks_split a b c) by auto. tauto. Qed.
Lemma served_fwd w w' : served w w' -> fwd w w'.
Proof. intros [H _]. exact H. Qed.
Lemma starved_served a b c : starved a b -> served b c -> starved a c.
Proof. intros H1 H2. eapply starved_fwd; [exact H1|apply served_fwd; exact H2]. Qed.
Lemma served_same w w' : w_alloc w' = w_alloc w -> w_next w' = w_next w -> served w w'.
Proof. intros E1 E2. split; [split; [exact E1|lia]|]. intros (i & Hi & _). lia. Qed.
Lemma served_ok w : w_alloc w (w_next w) = true -> served w (w_ok w).
Proof.
  intros E. split; [split; cbn; auto|]. intros (i & Hi & H). cbn [w_ok w_next] in Hi.
  replace i with (w_next w) in H by lia. congruence.
Qed.
Lemma starved_no w : w_alloc w (w_next w) = false -> starved w (w_no w).
Proof. intros E. split; [split; cbn; auto|]. exists (w_next w). split; [cbn [w_no w_next]; lia|exact E]. Qed.

Lemma free_served q w u w' : free q w = Ret u w' -> served w w'.
Proof.
  destruct q as [|[id|] m]; cbn [free]; intros H; [injection H as _ <-; apply served_refl| |discriminate].
  apply free_id_inv in H as [_ ->]. apply served_same; reflexivity.
Qed.
Lemma zeroize_same q n w u w' : zeroize q n w = Ret u w' -> w' = w.
Proof.
  unfold zeroize. destruct q as [|b m]; [destruct (n =? 0)%N; congruence|].
  destruct (negb _); [discriminate|]. destruct (match b with Some id => w_live w id | None => true end); congruence.
Qed.
Lemma free_each_served cs : forall n w u w', free_each cs n w = Ret u w' -> served w w'.
Proof.
  induction cs as [|c cs IH]; intros n w u w' H; cbn [free_each] in H; destruct (n =? 0)%N.
  - injection H as _ <-. apply served_refl.
  - discriminate.
  - injection H as _ <-. apply served_refl.
  - minvas H as u1 w1 H1. apply zeroize_same in H1 as ->. minvas H as u2 w2 H2. apply zeroize_same in H2 as ->.
    minvas H as u3 w3 H3. apply free_served in H3. minvas H as u4 w4 H4. apply free_served in H4.
    apply IH in H. eapply served_trans; [exact H3|]. eapply served_trans; eauto.
Qed.
Lemma free_buffer_served p b w u w' : free_claims_buffer p b w = Ret u w' -> served w w'.
Proof.
  destruct b as [b|]; cbn [free_claims_buffer l8w8jwt_free_claims].
  - intros H. minvas H as u1 w1 H1. apply free_each_served in H1. apply free_id_inv in H as [_ ->].
    eapply served_trans; [exact H1|]. apply served_same; reflexivity.
  - destruct (p_cb_init_clears p); [|discriminate]. intros H. injection H as _ <-. apply served_refl.
Qed.
Lemma give_served nn s w o w' : give_or_free nn s w = Ret o w' -> served w w'.
Proof.
  unfold give_or_free. destruct nn; [intros H; injection H as _ <-; apply served_refl|].
  intros H. minvas H as u w1 H1. apply free_served in H1. injection H as _ <-. exact H1.
Qed.

(** ** Base64 *)
Definition undecodable (t : bytes) : Prop := forall o tail, ~ b64_decodes t o tail.
Lemma b64_code t rest w r w' :
  wf w -> l8w8jwt_base64_decode true (Ptr None (t ++ rest)) (N.of_nat (length t)) true true w = Ret r w' ->
  wf w' /\ ((b_rc r = L8W8JWT_SUCCESS /\ served w w')
            \/ (b_rc r = L8W8JWT_OUT_OF_MEM /\ starved w w')
            \/ (b_rc r = L8W8JWT_INVALID_ARG /\ served w w' /\ undecodable t)).
Proof.
  intros Hwf H. destruct t as [|c t0] eqn:Et.
  { cbn [length N.of_nat] in H. rewrite decode_zero in H. injection H as <- <-. split; [exact Hwf|]. right. right.
    split; [reflexivity|]. split; [apply served_refl|]. intros o tail (C & _). apply C. reflexivity. }
  rewrite <- Et in *. assert (Hl : (0 < length t)%nat) by (rewrite Et; cbn; lia). clear Et.
  rewrite base64_decode_fun in H by (auto; try rewrite app_length; lia). cbv zeta in H.
  rewrite Nat2N.id, firstn_app_exact, syms_strip in H.
  destruct (bad_count true (length (syms true t))) eqn:Eb.
  { injection H as <- <-. split; [exact Hwf|]. right. right. split; [reflexivity|]. split; [apply served_refl|].
    intros o tail (_ & C & _). congruence. }
  destruct (w_alloc w (w_next w)) eqn:Ea; cbn [negb] in H.
  2:{ injection H as <- <-. split; [apply wf_no, Hwf|]. right. left. split; [reflexivity|]. apply starved_no, Ea. }
  destruct (dec_all true (syms true t)) as [[o lf]|] eqn:Ed; injection H as <- <-.
  - split; [apply wf_ok, Hwf|]. left. split; [reflexivity|]. apply served_ok, Ea.
  - split; [apply wf_free, wf_ok, Hwf|]. right. right. split; [reflexivity|]. split.
    + eapply served_trans; [apply served_ok, Ea|]. apply served_same; reflexivity.
    + intros o tail (_ & _ & lf & C & _). congruence.
Qed.

(** ** Cutting the token *)
(** A part of the token [j] that is decoded. *)
Definition segment (dp : dec_params) (j t : bytes) : Prop :=
  (exists h pl s, parts3 j h pl s /\ (t = h \/ t = pl \/ t = s))
  \/ (exists h pl, parts2 j h pl /\ (t = h \/ (dp_alg dp = (-1)%Z /\ t = pl))).
Definition cut_code (dp : dec_params) (j : bytes) (rc : Z) : Prop :=
  (rc = 600%Z /\ no_dot j)
  \/ (rc = 700%Z /\ dp_alg dp <> (-1)%Z /\ exists h pl, parts2 j h pl)
  \/ (rc = 425%Z /\ exists t, segment dp j t /\ undecodable t).
Lemma segments_code p dp j w rc sg w' :
  wf w -> c_text p dp j -> l8w8jwt_decode_segments p dp w = Ret (rc, sg) w' ->
  (rc = 0%Z /\ served w w') \/ (rc = 300%Z /\ starved w w') \/ (served w w' /\ rc <> 0%Z /\ cut_code dp j rc).
Proof.
  intros Hwf ((b & rest & Ej) & Hz & Hl & Hs) H. unfold l8w8jwt_decode_segments in H.
  rewrite Ej in H. unfold mbind at 1 in H. cbn [deref lift] in H.
  destruct (first_dot j Hz) as [Hd|(h & s & -> & N1 & N2 & N3)].
  { unfold mbind at 1 in H. rewrite strchr_none in H by (auto; discriminate). cbn [lift] in H.
    injection H as <- _ <-. right. right. split; [apply served_refl|]. split; [discriminate|]. left. auto. }
  rewrite <- app_assoc in H. cbn [app] in H. unfold mbind at 1 in H. rewrite strchr_some in H by (auto; discriminate).
  cbn [lift] in H. minvas H as r1 w1 H1. apply b64_code in H1 as (W1 & H1); [|exact Hwf].
  assert (Hseg1 : segment dp (h ++ x2e :: s) h).
  { destruct (first_dot s N3) as [Hd|(pl & t & -> & P1 & P2 & P3)].
    - right. exists h, s. split; [|auto]. split; [reflexivity|auto].
    - left. exists h, pl, t. split; [|auto]. split; [reflexivity|auto]. }
  destruct H1 as [(E1 & S1)|[(E1 & S1)|(E1 & S1 & U1)]]; rewrite E1 in H.
  2:{ injection H as <- _ <-. right. left. split; [reflexivity|exact S1]. }
  2:{ injection H as <- _ <-. right. right. split; [exact S1|]. split; [discriminate|]. right. right. split; [reflexivity|]. eauto. }
  change (negb (L8W8JWT_SUCCESS =? L8W8JWT_SUCCESS)%Z) with false in H. cbv iota zeta in H.
  assert (Sk : forall a r, skipn (S (length a)) (a ++ x2e :: r) = r).
  { intros a r. change (a ++ x2e :: r) with (a ++ [x2e] ++ r). rewrite app_assoc.
    replace (S (length a)) with (length (a ++ [x2e])) by (rewrite app_length; cbn [length]; lia). apply skipn_app_exact. }
  rewrite Sk in H. rewrite app_length in Hl, Hs. cbn [length] in Hl, Hs.
  destruct (first_dot s N3) as [Hd|(pl & t & -> & P1 & P2 & P3)].
  - unfold mbind at 1 in H. rewrite strchr_none in H by (auto; discriminate). cbn [lift andb] in H.
    assert (Hp2 : parts2 (h ++ x2e :: s) h s) by (split; [reflexivity|auto]).
    destruct (Z.eqb_spec (dp_alg dp) (-1)) as [Ea|Ea]; cbn [negb] in H.
    2:{ injection H as <- _ <-. right. right. split; [exact S1|]. split; [discriminate|]. right. left. eauto. }
    rewrite to_size_small in H by lia.
    replace (Z.to_N (Z.of_N (dp_jwt_length dp) - Z.of_nat (S (length h)))) with (N.of_nat (length s)) in H by lia.
    minvas H as r2 w2 H2. apply b64_code in H2 as (W2 & H2); [|exact W1].
    destruct H2 as [(E2 & S2)|[(E2 & S2)|(E2 & S2 & U2)]]; rewrite E2 in H; cbn [negb Z.eqb] in H; injection H as <- _ <-.
    + left. split; [reflexivity|]. eapply served_trans; eauto.
    + right. left. split; [reflexivity|]. eapply served_starved; eauto.
    + right. right. split; [eapply served_trans; eauto|]. split; [discriminate|]. right. right. split; [reflexivity|].
      exists s. split; [right; eauto 6|exact U2].
  - rewrite <- app_assoc in H. cbn [app] in H. unfold mbind at 1 in H. rewrite strchr_some in H by (auto; discriminate).
    cbn [lift andb] in H. rewrite app_length in Hl, Hs. cbn [length] in Hl, Hs.
    assert (Hp3 : parts3 (h ++ x2e :: pl ++ x2e :: t) h pl t) by (split; [reflexivity|auto]).
    minvas H as r2 w2 H2. apply b64_code in H2 as (W2 & H2); [|exact W1].
    destruct H2 as [(E2 & S2)|[(E2 & S2)|(E2 & S2 & U2)]]; rewrite E2 in H.
    2:{ injection H as <- _ <-. right. left. split; [reflexivity|]. eapply served_starved; eauto. }
    2:{ injection H as <- _ <-. right. right. split; [eapply served_trans; eauto|]. split; [discriminate|]. right. right. split; [reflexivity|].
        exists pl. split; [left; eauto 8|exact U2]. }
    change (negb (L8W8JWT_SUCCESS =? L8W8JWT_SUCCESS)%Z) with false in H. cbv iota zeta in H.
    rewrite Sk, to_size_small in H by lia.
    replace (Z.to_N (Z.of_N (dp_jwt_length dp) - Z.of_nat (S (length h) + S (length pl)))) with (N.of_nat (length t)) in H by lia.
    minvas H as r3 w3 H3. apply b64_code in H3 as (W3 & H3); [|exact W2].
    destruct H3 as [(E3 & S3)|[(E3 & S3)|(E3 & S3 & U3)]]; rewrite E3 in H; cbn [negb Z.eqb] in H; injection H as <- _ <-.
    + left. split; [reflexivity|]. eapply served_trans; [exact S1|]. eapply served_trans; eauto.
    + right. left. split; [reflexivity|]. eapply served_starved; [exact S1|]. eapply served_starved; eauto.
    + right. right. split; [eapply served_trans; [exact S1|]; eapply served_trans; eauto|]. split; [discriminate|].
      right. right. split; [reflexivity|]. exists t. split; [left; eauto 8|exact U3].
Qed.

(** ** Verifying *)
Definition verify_code (p : platform) (e : env) (alg : Z) (k msg : bytes) (rc : Z) : Prop :=
  (rc = 420%Z /\ certificate k /\ e_x509_parse e (pem_text k) = None)
  \/ (rc = 420%Z /\ (3 <= alg <= 12)%Z /\ forall pk, ~ public_key_of e k pk)
  \/ (rc = 420%Z /\ (9 <= alg <= 12)%Z /\ exists pk, public_key_of e k pk /\ e_ecdsa_from_keypair e pk = false)
  \/ (rc = 410%Z /\ (3 <= alg <= 12)%Z /\ exists jw, supported alg jw /\ e_md e (j_hash jw) msg = None)
  \/ (rc = 450%Z /\ alg = 13%Z /\ length (hmac_key k) <> 64%nat)
  \/ (rc = 800%Z /\ alg = 13%Z /\ p_eddsa p = false).

Lemma pem_text_nul k : k <> [] -> pem_text k = hmac_key k ++ [x00].
Proof.
  intros Hne. unfold pem_text, hmac_key. destruct (exists_last Hne) as (k0 & z & ->). rewrite last_last.
  destruct (is_nul z) eqn:Ez; [|reflexivity]. apply is_nul_true in Ez. subst z. rewrite removelast_last. reflexivity.
Qed.

Section Exit.
Variables (p : platform) (e : env) (k : bytes) (n : N).
Hypothesis Hk : length k = N.to_nat n.
Hypothesis Hn : (0 < n <= 8192)%N.
Let key := k ++ repeat x00 (N.to_nat (L8W8JWT_MAX_KEY_SIZE - n)).

Lemma no_public_key kl crt :
  adjust_key_length key n = OK kl -> load_cert e key kl = OK (Some crt) ->
  public_key e crt key kl = OK None -> forall pk, ~ public_key_of e k pk.
Proof.
  intros Ha Hc H pk Hpk. apply (load_cert_inv e k n Hk Hn kl) in Hc; auto. unfold public_key in H.
  destruct Hc as [(C & E)|(C & E)].
  - destruct (e_x509_parse e (pem_text k)) as [x|]; [|discriminate]. cbn in E. inversion E; subst. discriminate.
  - inversion E; subst. apply ubind_inv in H as (s & Hs & H).
    apply (take_key_inv k n Hk Hn kl) in Hs; auto. subst s. destruct Hpk as [[C' _]|[_ K]]; [contradiction|congruence].
Qed.

Lemma ed_key_64 kl : adjust_key_length key n = OK kl -> length (hmac_key k) = 64%nat ->
  kl = 65%N /\ nth (N.to_nat 64) key x00 = x00 /\ firstn (N.to_nat 65) key = hmac_key k ++ [x00].
Proof.
  intros Ha L. assert (Hne : k <> []) by (intros E; rewrite E in Hk; simpl in Hk; lia).
  destruct (adjust_key_eq k n Hk Hn) as (kl' & Ha' & E & E1 & E2). fold key in Ha', E1, E2.
  rewrite Ha' in Ha. assert (EE : kl' = kl) by congruence. rewrite EE in *. clear EE kl'.
  assert (Hkl : kl = 65%N).
  { unfold hmac_key in L. rewrite E. destruct (is_nul (last k x01)).
    - rewrite removelast_len in L by exact Hne. lia.
    - lia. }
  split; [exact Hkl|]. rewrite Hkl in E2. cbn [N.leb N.compare Pos.compare Pos.compare_cont] in E2.
  apply take_inv in E2 as (Hle & E2). rewrite pem_text_nul in E2 by exact Hne. split; [|congruence].
  rewrite <- (firstn_skipn (N.to_nat 65) key), <- E2, <- app_assoc.
  rewrite app_nth2 by lia. rewrite L. reflexivity.
Qed.

Lemma verify_switch_exit alg crt kl msg hash sig slen rc :
  adjust_key_length key n = OK kl -> load_cert e key kl = OK (Some crt) ->
  verify_switch p e alg crt key kl msg hash sig slen = OK (VExit rc) -> verify_code p e alg k msg rc.
Proof.
  intros Ha Hc H. unfold verify_switch in H.
  assert (PK : forall pk, public_key e crt key kl = OK (Some pk) -> public_key_of e k pk)
    by (intros pk; apply (public_key_inv e k n Hk Hn kl); auto).
  assert (NPK : public_key e crt key kl = OK None -> forall pk, ~ public_key_of e k pk)
    by (apply no_public_key; auto).
  assert (R : (0 <= alg <= 13)%Z).
  { unfold dec_md_info_from_alg in H. destruct alg as [|a|a]; [lia| |discriminate].
    repeat (destruct a as [a|a|]; try discriminate; try lia). }
  assert (Ed : length (hmac_key k) = 64%nat -> kl = 65%N /\ nth (N.to_nat 64) key x00 = x00 /\ firstn (N.to_nat 65) key = hmac_key k ++ [x00])
    by (intros L; apply ed_key_64; auto).
  assert (Lk : length key = N.to_nat 8192) by (unfold key; pose proof (key_length k n Hk ltac:(lia)); lia).
  revert H. clear Hc Ha. revert R. unfold verify_code. intros R. apply (range_cases alg); [exact R|..]; clear R; intros H;
    cbn [dec_md_info_from_alg] in H.
  1,2,3: apply ubind_inv in H as (k0 & _ & H); destruct (e_hmac _ _ _ _) as [mac|]; [apply ubind_inv in H as (eqb & _ & H)|]; discriminate.
  1,2,3,4,5,6: apply ubind_inv in H as (o & Ho & H); destruct o as [pk|];
    [try (destruct (negb _); [discriminate|]); apply ubind_inv in H as (s & _ & H); discriminate
    |injection H as <-; right; left; split; [reflexivity|]; split; [lia|auto]].
  1,2,3,4: apply ubind_inv in H as (o & Ho & H); destruct o as [pk|];
    [|injection H as <-; right; left; split; [reflexivity|]; split; [lia|auto]];
    cbv zeta in H; destruct (negb (e_pk_ec e pk)); [discriminate|];
    destruct (e_ecdsa_from_keypair e pk) eqn:Ek; cbn [negb] in H;
    [apply ubind_inv in H as (r & _ & H); apply ubind_inv in H as (s & _ & H); discriminate
    |injection H as <-; right; right; left; split; [reflexivity|]; split; [lia|eauto]].
  destruct (p_eddsa p) eqn:Ep; cbn [negb] in H.
  2:{ injection H as <-. do 5 right. auto. }
  apply ubind_inv in H as (ok & Hok & H). do 4 right. left.
  destruct ok; cbn [negb] in H.
  2:{ injection H as <-. split; [reflexivity|]. split; [reflexivity|]. intros L. destruct (Ed L) as (-> & E64 & _).
      cbn [N.eqb Pos.eqb] in Hok. rewrite read_at_ok in Hok by lia. cbn [ubind] in Hok.
      rewrite E64 in Hok. discriminate. }
  apply ubind_inv in H as ([[r out] u] & Hx & H).
  destruct (Z.eqb_spec r 0) as [Er|Er]; cbn [negb] in H.
  { destruct out; [|discriminate]. apply ubind_inv in H as (s & _ & H). discriminate. }
  injection H as <-. split; [reflexivity|]. split; [reflexivity|]. intros L. destruct (Ed L) as (-> & _ & E65).
  rewrite hexstr2bin_cases in Hx by (rewrite ?repeat_length; lia). rewrite E65 in Hx.
  assert (Ew : without_final_nul (hmac_key k ++ [x00]) = hmac_key k)
    by (unfold without_final_nul; rewrite last_last, removelast_last; reflexivity).
  rewrite Ew, L in Hx. change (33 <? N.of_nat (64 / 2) + 1)%N with false in Hx. cbn [Nat.modulo Nat.divmod Nat.sub snd Nat.eqb negb] in Hx.
  destruct (hex_loop_ok p (hmac_key k) [] (repeat x00 33)) as (od & Hlo & _).
  { rewrite L, repeat_length. simpl. lia. }
  unfold cur_start in Hx. rewrite Hlo in Hx. cbn [ubind] in Hx. congruence.
Qed.
End Exit.

Lemma verify_body_exit p e dp b jwt h pl rest k sig slen rc :
  dp_jwt dp = Ptr b jwt -> three_parts jwt h pl rest ->
  caller_key (dp_verification_key dp) (dp_verification_key_length dp) k ->
  verify_body p e dp sig slen = OK (VExit rc) -> verify_code p e (dp_alg dp) k (h ++ lit "." ++ pl) rc.
Proof.
  intros Ej H3 Hck H. unfold verify_body in H.
  apply ubind_inv in H as (key & Hl & H). apply ubind_inv in H as (kl & Ha & H).
  apply ubind_inv in H as (o & Hc & H).
  set (n := dp_verification_key_length dp) in *.
  destruct (load_key_inv _ _ _ Hl) as (b' & m & Eq & Hm & Hn & Ek).
  destruct Hck as (b2 & m2 & Eq2 & Hm2 & Ek2). rewrite Eq in Eq2. inversion Eq2; subst b2 m2.
  rewrite <- Ek2 in Ek.
  assert (Hk : length k = N.to_nat n) by (rewrite Ek2, firstn_length; lia).
  assert (Hn0 : (0 < n)%N).
  { unfold adjust_key_length in Ha. destruct (N.eqb_spec n 0); [discriminate|lia]. }
  subst key. destruct o as [crt|].
  2:{ injection H as <-. left. apply (load_cert_inv e k n Hk (conj Hn0 Hn) kl) in Hc; auto.
      destruct Hc as [(C & E)|(_ & E)]; [|discriminate]. split; [reflexivity|]. split; [exact C|].
      destruct (e_x509_parse e (pem_text k)); [discriminate|reflexivity]. }
  rewrite Ej in H. cbn [deref ubind] in H. destruct (signing_input_cut _ _ _ _ H3) as (E1 & E2 & E3).
  rewrite E1 in H. cbn [ubind] in H. rewrite E2 in H. cbn [ubind] in H. rewrite E3 in H.
  destruct (verify_hash e (dp_alg dp) (h ++ lit "." ++ pl)) as [hash|] eqn:Eh.
  - eapply (verify_switch_exit p e k n Hk (conj Hn0 Hn)); eauto.
  - injection H as <-. do 3 right. left. split; [reflexivity|]. unfold verify_hash in Eh.
    destruct ((3 <=? dp_alg dp) && (dp_alg dp <=? 12))%Z eqn:R; [|discriminate]. split; [lia|].
    destruct (supported_exists (dp_alg dp)) as (jw & Hj); [lia|]. exists jw. split; [exact Hj|].
    assert (E : dec_md_info_from_alg (dp_alg dp) = Some (j_hash jw)).
    { destruct Hj as [Hin <-]. simpl in Hin. decompose [or] Hin; try contradiction; subst; reflexivity. }
    rewrite E in Eh. destruct (e_md e (j_hash jw) _); [discriminate|reflexivity].
Qed.

Lemma verify_served p e dp res q n w r w' : l8w8jwt_verify_signature p e dp res q n w = Ret r w' -> served w w'.
Proof.
  unfold l8w8jwt_verify_signature. destruct (_ || _ || _); [intros H; injection H as _ <-; apply served_refl|].
  cbv zeta. destruct (p_small_stack p); intros H.
  - minvas H as key w1 H1. rewrite calloc_eq in H1. destruct (w_alloc w (w_next w)) eqn:Ea; injection H1 as <- <-.
    + cbn [is_null] in H. minvas H as v w2 H2. minvas H2 as sig w3 H3. apply lift_inv in H3 as [_ ->].
      apply lift_inv in H2 as [_ ->]. minvas H as u w4 H4. apply zeroize_same in H4 as ->.
      minvas H as u2 w5 H5. apply free_served in H5. injection H as _ <-.
      eapply served_trans; [apply served_ok, Ea|exact H5].
    + cbn [is_null] in H. minvas H as v w2 H2. minvas H as u w4 H4. unfold zeroize in H4. discriminate.
  - minvas H as sig w1 H1. apply lift_inv in H1 as [_ ->]. minvas H as v w1 H1. apply lift_inv in H1 as [_ ->].
    injection H as _ <-. apply served_refl.
Qed.

(** ** Parsing *)
Lemma unescape_mem p ty k kl v vl w rc oc w' :
  l8w8jwt_unescape_claim p ty k kl v vl w = Ret (rc, oc) w' ->
  (oc <> None /\ served w w') \/ (oc = None /\ rc = 300%Z /\ starved w w').
Proof.
  intros H. unfold l8w8jwt_unescape_claim in H.
  minvas H as a w1 H1. rewrite calloc_eq in H1. minvas H as c w2 H2. rewrite calloc_eq in H2.
  assert (S1 : (is_null a = false /\ served w w1) \/ (is_null a = true /\ starved w w1)).
  { destruct (w_alloc w (w_next w)) eqn:Ea; injection H1 as <- <-; [left|right]; (split; [reflexivity|]);
      [apply served_ok, Ea|apply starved_no, Ea]. }
  assert (S2 : (is_null c = false /\ served w1 w2) \/ (is_null c = true /\ starved w1 w2)).
  { destruct (w_alloc w1 (w_next w1)) eqn:Ea; injection H2 as <- <-; [left|right]; (split; [reflexivity|]);
      [apply served_ok, Ea|apply starved_no, Ea]. }
  clear H1 H2.
  assert (Bad : starved w w2 -> (_ <- free a ;; _ <- free c ;; mret (L8W8JWT_OUT_OF_MEM, @None claim)) w2 = Ret (rc, oc) w' ->
    (oc <> None /\ served w w') \/ (oc = None /\ rc = 300%Z /\ starved w w')).
  { intros S H0. minvas H0 as u1 w3 F1. apply free_served in F1. minvas H0 as u2 w4 F2. apply free_served in F2.
    injection H0 as <- <- <-. right. split; [reflexivity|]. split; [reflexivity|].
    eapply starved_served; [exact S|]. eapply served_trans; eauto. }
  destruct S1 as [(N1 & S1)|(N1 & S1)].
  2:{ destruct a; [|discriminate]. apply Bad; [|exact H]. eapply starved_fwd; [exact S1|]. destruct S2 as [[_ [F _]]|[_ [F _]]]; exact F. }
  destruct a as [|kid kbuf]; [discriminate|].
  destruct S2 as [(N2 & S2)|(N2 & S2)].
  2:{ destruct c; [|discriminate]. apply Bad; [|exact H]. eapply served_starved; eauto. }
  destruct c as [|vid vbuf]; [discriminate|]. left.
  assert (S : served w w2) by (eapply served_trans; eauto). clear Bad.
  minvas H as ks w3 H3. apply lift_inv in H3 as [_ ->]. minvas H as c1 w3 H3. apply lift_inv in H3 as [_ ->].
  minvas H as c2 w3 H3. apply lift_inv in H3 as [_ ->]. cbv zeta in H. destruct (ty =? _)%Z.
  - minvas H as vs w3 H3. apply lift_inv in H3 as [_ ->]. minvas H as c3 w3 H3. apply lift_inv in H3 as [_ ->].
    minvas H as c4 w3 H3. apply lift_inv in H3 as [_ ->]. injection H as _ <- <-. split; [discriminate|exact S].
  - minvas H as vs w3 H3. apply lift_inv in H3 as [_ ->]. minvas H as c3 w3 H3. apply lift_inv in H3 as [_ ->].
    minvas H as c4 w3 H3. apply lift_inv in H3 as [_ ->]. injection H as _ <- <-. split; [discriminate|exact S].
Qed.

Lemma push_served {A} (b : chillbuff A) x w b' w' : cb_push b x w = Ret b' w' -> served w w'.
Proof. intros H. apply cb_push_inv in H as (-> & _). apply served_same; reflexivity. Qed.

Lemma claims_loop_mem fuel p e mem a r : forall i c w rc c' w',
  claims_loop fuel p e mem a r i c w = Ret (rc, c') w' ->
  ((rc = 0%Z \/ rc = 600%Z) /\ served w w') \/ (rc = 300%Z /\ starved w w').
Proof.
  induction fuel as [|f IH]; intros i c w rc c' w' H; [discriminate|]. cbn [claims_loop] in H.
  destruct (negb (i <? r)%Z). { injection H as <- _ <-. left. split; [auto|apply served_refl]. }
  minvas H as key w1 H1. apply lift_inv in H1 as [_ ->]. minvas H as value w1 H1. apply lift_inv in H1 as [_ ->].
  destruct (_ || _). { injection H as <- _ <-. left. split; [auto|apply served_refl]. }
  minvas H as ct w1 H1. apply lift_inv in H1 as [_ ->].
  destruct ct as [[type i']|]. 2:{ injection H as <- _ <-. left. split; [auto|apply served_refl]. }
  minvas H as km w1 H1. apply lift_inv in H1 as [_ ->]. minvas H as vm w1 H1. apply lift_inv in H1 as [_ ->].
  minvas H as [ur oc] w1 H1. apply unescape_mem in H1 as [(Hc & S1)|(-> & -> & S1)].
  2:{ injection H as <- _ <-. right. auto. }
  destruct oc as [x|]; [|contradiction]. minvas H as c1 w2 H2. apply push_served in H2.
  apply IH in H as [(Hr & S)|(Hr & S)]; [left|right]; (split; [exact Hr|]).
  - eapply served_trans; [exact S1|]. eapply served_trans; eauto.
  - eapply served_starved; [exact S1|]. eapply served_starved; eauto.
Qed.

Lemma push_all_code p es : forall fin c w rc c' w',
  push_all p es fin c w = Ret (rc, c') w' -> rc = fin \/ (rc = 300%Z /\ starved w w').
Proof.
  induction es as [|[[ty ks] vs] es IH]; intros fin c w rc c' w' H; cbn [push_all] in H.
  { injection H as <- _ _. auto. }
  assert (U : forall rc0 oc w1, unescape_fun p ty ks vs w = Ret (rc0, oc) w1 ->
    (oc <> None /\ served w w1) \/ (oc = None /\ rc0 = 300%Z /\ starved w w1)).
  { unfold unescape_fun. intros rc0 oc w1 E. destruct (w_alloc w (w_next w)) eqn:E1.
    - destruct (w_alloc w (S (w_next w))) eqn:E2; injection E as <- <- <-; [left|right].
      + split; [discriminate|]. eapply served_trans; [apply served_ok, E1|apply served_ok; exact E2].
      + split; [reflexivity|]. split; [reflexivity|]. eapply served_starved; [apply served_ok, E1|].
        eapply starved_served; [apply starved_no; exact E2|apply served_same; reflexivity].
    - destruct (w_alloc w (S (w_next w))) eqn:E2; injection E as <- <- <-; right; (split; [reflexivity|]; split; [reflexivity|]);
        (eapply starved_fwd; [apply starved_no, E1|split; cbn; [reflexivity|lia]]). }
  destruct (unescape_fun_ret p ty ks vs w) as (rc0 & oc & w1 & E & _). rewrite E in H.
  apply U in E as [(N & S)|(-> & -> & S)].
  - destruct oc as [x|]; [|contradiction].
    destruct (cb_push c [x] w1) as [c1 w2|] eqn:Ep; [|discriminate]. apply push_served in Ep.
    apply IH in H as [H|(H & S')]; [auto|]. right. split; [exact H|].
    eapply served_starved; [exact S|]. eapply served_starved; eauto.
  - injection H as <- _ <-. auto.
Qed.

Lemma parse_code p e c b mem len w rc c' w' :
  uses_jsmn e -> (32 <= p_size_bits p)%N -> l8w8jwt_parse_claims p e c (Ptr b mem) len w = Ret (rc, c') w' ->
  (rc = 0%Z /\ served w w') \/ (rc <> 0%Z /\ starved w w')
  \/ (rc <> 0%Z /\ served w w' /\ forall es, ~ reads e mem len es).
Proof.
  intros Hj Hp H. unfold l8w8jwt_parse_claims in H.
  minvas H as m w1 H1. apply lift_inv in H1 as [H1 ->]. cbn [deref] in H1. injection H1 as <-.
  minvas H as js w1 H1. apply lift_inv in H1 as [H1 ->]. apply take_inv in H1 as [Hn ->].
  destruct (Z.ltb_spec INT_MAX (Z.of_N len)); [discriminate|]. cbv zeta in H. rewrite !Hj in H.
  set (js := firstn (N.to_nat len) mem) in *. set (r := fst (jsmn_parse js None)) in *.
  assert (RD : forall es, reads e mem len es -> (r = 0%Z /\ es = [])
    \/ ((0 < r)%Z /\ exists t0 toks, jsmn_parse js (Some r) = (r, t0 :: toks) /\ t_type t0 = JObject
      /\ read_claims (S (Z.to_nat r)) e mem (token_array e r (t0 :: toks)) r 1 = OK (L8W8JWT_SUCCESS, es)))
    by (intros es Hr; exact Hr).
  destruct (Z.eqb_spec r 0) as [Er|Er]. { injection H as <- _ <-. left. split; [reflexivity|apply served_refl]. }
  destruct (Z.ltb_spec r 0) as [Lr|Lr].
  { injection H as <- _ <-. right. right. split; [discriminate|]. split; [apply served_refl|].
    intros es Hr. apply RD in Hr as [[? _]|[? _]]; lia. }
  minvas H as o w1 H1.
  assert (S1 : (o = None /\ starved w w1) \/ (exists blk, o = Some blk /\ served w w1)).
  { destruct (r <=? 64)%Z; [injection H1 as <- <-; right; eexists; split; [reflexivity|apply served_refl]|].
    minvas H1 as o' w2 H2. rewrite alloc_eq in H2. destruct (w_alloc w (w_next w)) eqn:Ea; injection H2 as <- <-; injection H1 as <- <-.
    - right. eexists. split; [reflexivity|apply served_ok, Ea].
    - left. split; [reflexivity|apply starved_no, Ea]. }
  clear H1. destruct S1 as [(-> & S1)|(blk & -> & S1)].
  { injection H as <- _ <-. right. left. split; [discriminate|exact S1]. }
  destruct (jsmn_parse js (Some r)) as [r2 toks] eqn:P.
  destruct (Z.ltb_spec r2 0) as [L2|L2].
  { injection H as <- _ <-. right. right. split; [discriminate|]. split; [exact S1|].
    intros es Hr. apply RD in Hr as [[? _]|(_ & t0 & tk & E & _)]; [lia|]. injection E as E _. lia. }
  minvas H as t0 w2 H2. apply lift_inv in H2 as [T0 ->].
  minvas H as [rc0 c0] w3 H3. minvas H as u w4 H4. injection H as -> -> ->.
  assert (S4 : served w3 w').
  { destruct blk as [id|]; [apply free_id_inv in H4 as [_ ->]; apply served_same; reflexivity|injection H4 as _ <-; apply served_refl]. }
  assert (S3 : ((rc = 0%Z \/ rc = 600%Z) /\ served w1 w3) \/ (rc = 300%Z /\ starved w1 w3)).
  { destruct (negb _); [injection H3 as <- _ <-; left; split; [auto|apply served_refl]|eapply claims_loop_mem; eauto]. }
  destruct S3 as [([->| ->] & S3)|(-> & S3)].
  - left. split; [reflexivity|]. eapply served_trans; [exact S1|]. eapply served_trans; eauto.
  - right. right. split; [discriminate|]. split; [eapply served_trans; [exact S1|]; eapply served_trans; eauto|].
    intros es Hr. apply RD in Hr as [[? _]|(_ & t1 & tk & E & Ty & R)]; [lia|]. injection E as E2 Et.
    assert (E2' : r2 = r) by exact E2. rewrite E2' in *. rewrite Et in *.
    unfold tok_at in T0. cbn [ta_cap ta_toks ta_junk] in T0.
    replace ((0 <? 0)%Z || ((if (r <=? 64)%Z then 64 else r) <=? 0)%Z) with false in T0
      by (destruct (Z.leb_spec r 64); lia).
    cbn [Z.to_nat nth] in T0. injection T0 as <-. rewrite Ty in H3. cbn [jtype_eqb negb] in H3.
    destruct (jsmn_tokens _ _ _ _ P ltac:(lia)) as [Hlen Htok].
    destruct (before_nul_firstn (N.to_nat len) mem) as (B1 & B2 & B3). fold js in B1, B2, B3.
    pose proof (claims_loop_eq p e mem _ (t1 :: tk) (if (r <=? 64)%Z then 64 else r)%Z r (e_tok_junk e) Hp ltac:(lia) Htok B3 ltac:(lia)
      (S (Z.to_nat r)) 1 c w1 _ _ ltac:(lia) R) as Ec.
    rewrite Ec in H3. apply push_all_code in H3 as [H3|(H3 & _)]; discriminate.
  - right. left. split; [discriminate|]. eapply served_starved; [exact S1|]. eapply starved_served; eauto.
Qed.
