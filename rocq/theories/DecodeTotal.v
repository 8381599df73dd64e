(** * Lemmas: when decoding is defined *)
From Verif Require Import Base BaseProofs HeapProofs Util UtilProofs Claim Base64 SpecB64
  Base64EncApi Base64DecProofs Base64Api Jsmn Env Encode Decode SpecJson SpecJwa ClaimProofs UnescapeProofs
  SignProofs DecodeProofs DecodeInv JsmnProofs ParseProofs PropClaim ReadProofs ValidateProofs JsmnJson EncodeTotal.
From Coq Require Import ZifyBool ZifyNat ZifyN Permutation.
Ltac Zify.zify_post_hook ::= Z.div_mod_to_equations.

(** ** The segments *)
(** The caller's text: NUL-terminated, and jwt_length is its length. *)
Definition c_text (p : platform) (dp : dec_params) (j : bytes) : Prop :=
  (exists b rest, dp_jwt dp = Ptr b (j ++ x00 :: rest)) /\ no_nul j
  /\ dp_jwt_length dp = N.of_nat (length j) /\ (N.of_nat (length j) < size_mod p)%N.

Lemma first_dot j : no_nul j ->
  (no_dot j) \/ exists h s, j = h ++ x2e :: s /\ no_dot h /\ no_nul h /\ no_nul s.
Proof.
  induction j as [|c j IH]; intros H; [left; intros []|]. apply no_nul_cons in H as [H1 H2].
  destruct (Byte.eqb c x2e) eqn:E.
  - apply byte_eqb_eq in E. subst c. right. exists [], j. repeat split; auto; intros [].
  - apply byte_eqb_neq in E. destruct (IH H2) as [H|(h & s & -> & N1 & N2 & N3)].
    + left. intros [K|K]; [congruence|exact (H K)].
    + right. exists (c :: h), s. repeat split; auto.
      * intros [K|K]; [congruence|exact (N1 K)].
      * apply no_nul_cons. auto.
Qed.

Lemma b64_total mem n w : wf w -> (n <= N.of_nat (length mem))%N ->
  exists r w', l8w8jwt_base64_decode true (Ptr None mem) n true true w = Ret r w' /\ wf w'.
Proof.
  intros Hwf Hn. destruct (decode_cases true None mem n w Hwf Hn) as (r & w' & H & W & _). eauto.
Qed.
Lemma to_size_small p z : (0 <= z < Z.of_N (size_mod p))%Z -> to_size p z = Z.to_N z.
Proof. intros H. unfold to_size. rewrite Z.mod_small; auto. Qed.

Lemma decode_segments_total p dp j w : wf w -> c_text p dp j ->
  exists rc sg w', l8w8jwt_decode_segments p dp w = Ret (rc, sg) w'.
Proof.
  intros Hwf ((b & rest & Ej) & Hz & Hl & Hs). unfold l8w8jwt_decode_segments.
  unfold mbind at 1. rewrite Ej. cbn [deref lift].
  destruct (first_dot j Hz) as [Hd|(h & s & -> & N1 & N2 & N3)].
  { unfold mbind at 1. rewrite strchr_none by (auto; discriminate). cbn [lift]. do 3 eexists. reflexivity. }
  rewrite <- app_assoc. cbn [app]. unfold mbind at 1. rewrite strchr_some by (auto; discriminate). cbn [lift].
  destruct (b64_total (h ++ x2e :: s ++ x00 :: rest) (N.of_nat (length h)) w Hwf) as (r1 & w1 & H1 & W1);
    [rewrite app_length; lia|].
  mstep H1. destruct (negb _); [do 3 eexists; reflexivity|].
  assert (Esk : skipn (S (length h)) (h ++ x2e :: s ++ x00 :: rest) = s ++ x00 :: rest).
  { change (h ++ x2e :: s ++ x00 :: rest) with (h ++ [x2e] ++ s ++ x00 :: rest). rewrite app_assoc.
    replace (S (length h)) with (length (h ++ [x2e])) by (rewrite app_length; cbn [length]; lia).
    apply skipn_app_exact. }
  rewrite Esk. rewrite app_length in Hl, Hs. cbn [length] in Hl, Hs.
  destruct (first_dot s N3) as [Hd|(pl & t & -> & P1 & P2 & P3)].
  - unfold mbind at 1. rewrite strchr_none by (auto; discriminate). cbn [lift].
    destruct (_ && _); [do 3 eexists; reflexivity|].
    rewrite to_size_small by lia.
    edestruct (b64_total (s ++ x00 :: rest)) as (r2 & w2 & H2 & W2); [exact W1| |mstep H2].
    + rewrite app_length. cbn [length]. lia.
    + destruct (negb _); do 3 eexists; reflexivity.
  - rewrite <- app_assoc. cbn [app]. unfold mbind at 1. rewrite strchr_some by (auto; discriminate). cbn [lift andb].
    rewrite app_length in Hl, Hs. cbn [length] in Hl, Hs.
    edestruct (b64_total (pl ++ x2e :: t ++ x00 :: rest) (N.of_nat (length pl))) as (r2 & w2 & H2 & W2);
      [exact W1|rewrite app_length; lia|].
    mstep H2. destruct (negb _); [do 3 eexists; reflexivity|].
    assert (Esk2 : skipn (S (length pl)) (pl ++ x2e :: t ++ x00 :: rest) = t ++ x00 :: rest).
    { change (pl ++ x2e :: t ++ x00 :: rest) with (pl ++ [x2e] ++ t ++ x00 :: rest). rewrite app_assoc.
      replace (S (length pl)) with (length (pl ++ [x2e])) by (rewrite app_length; cbn [length]; lia).
      apply skipn_app_exact. }
    rewrite Esk2, to_size_small by lia.
    edestruct (b64_total (t ++ x00 :: rest)) as (r3 & w3 & H3 & W3); [exact W2| |mstep H3].
    + rewrite app_length. cbn [length]. lia.
    + destruct (negb _); do 3 eexists; reflexivity.
Qed.

(** A decoded segment is followed by at least 13 bytes in its block. *)
Lemma b64_decodes_tail t o tail : b64_decodes t o tail -> (13 <= length tail)%nat.
Proof.
  intros (_ & Hb & lf & Hd & ->).
  pose proof (dgroups_len _ _ _ _ Hd) as H. rewrite app_length, repeat_length in H.
  assert (dec_r (length (syms true t)) <= 2)%nat.
  { unfold dec_r. destruct (_ mod 4)%nat as [|[|[|[|?]]]]; lia. }
  rewrite app_length, repeat_length. unfold dec_size. lia.
Qed.

(** ** Signature verification *)
(** What the caller must guarantee about the key, the signature [sig] and the bytes behind it. *)
Definition verifiable (e : env) (j : jwa) (k mem : bytes) : Prop :=
  match j_family j with
  | HS => (md_size (j_hash j) <= N.of_nat (length mem))%N
  | RS => True
  | PS => forall pk, public_key_of e k pk -> e_pk_rsa e pk = true /\ (e_rsa_len e pk <= N.of_nat (length mem))%N
  | ES _ _ _ => forall pk, public_key_of e k pk -> e_pk_ec e pk = true
  | ED => (64 <= length mem)%nat
  end.
(** The reasons for which verification is left with an error code. *)
Definition key_unusable (p : platform) (e : env) (j : jwa) (k msg : bytes) : Prop :=
  (certificate k /\ e_x509_parse e (pem_text k) = None)
  \/ match j_family j with
     | HS => False
     | RS | PS => (forall pk, ~ public_key_of e k pk) \/ e_md e (j_hash j) msg = None
     | ES _ _ _ => (forall pk, ~ public_key_of e k pk) \/ e_md e (j_hash j) msg = None
                   \/ exists pk, public_key_of e k pk /\ e_ecdsa_from_keypair e pk = false
     | ED => p_eddsa p = false \/ length (hmac_key k) <> 64%nat
     end.

Section Total.
Variables (p : platform) (e : env) (k : bytes) (n : N).
Hypothesis Hk : length k = N.to_nat n.
Hypothesis Hn : (0 < n <= 8192)%N.
Hypothesis Hlast : (n < 8192)%N \/ is_nul (last k x01) = true.
Let key := k ++ repeat x00 (N.to_nat (L8W8JWT_MAX_KEY_SIZE - n)).

Lemma key_parts : exists kl, adjust_key_length key n = OK kl /\ (0 < kl <= 8192)%N
  /\ kl = N.of_nat (length (pem_text k))
  /\ take key (kl - 1) = OK (hmac_key k) /\ take key kl = OK (pem_text k).
Proof.
  destruct (adjust_key_eq k n Hk Hn) as (kl & Ha & E & E1 & E2). fold key in Ha, E1, E2.
  exists kl. split; [exact Ha|].
  assert (Hkl : (0 < kl <= 8192)%N).
  { rewrite E. destruct (is_nul (last k x01)); [lia|]. destruct Hlast; [lia|discriminate]. }
  split; [exact Hkl|]. replace (kl <=? 8192)%N with true in E2 by lia. split; [|auto].
  unfold pem_text. rewrite E. destruct (is_nul (last k x01)); [lia|]. rewrite app_length. cbn [length]. lia.
Qed.
Lemma key_nul : exists m, strlen key = OK m.
Proof.
  assert (Hin : In x00 key).
  { unfold key. apply in_app_iff. destruct Hlast as [H|H].
    - right. unfold L8W8JWT_MAX_KEY_SIZE. replace (N.to_nat (8192 - n)) with (S (N.to_nat (8192 - n) - 1)) by lia.
      left. reflexivity.
    - left. assert (Hne : k <> []) by (intros E; rewrite E in Hk; simpl in Hk; lia).
      destruct (exists_last Hne) as (k0 & z & E). rewrite E in *. rewrite last_last in H.
      apply is_nul_true in H. subst z. apply in_app_iff. right. left. reflexivity. }
  clear - Hin. induction key as [|c s IH]; [destruct Hin|]. cbn [strlen]. destruct (is_nul c) eqn:E; [eauto|].
  destruct Hin as [->|Hin]; [discriminate|]. destruct (IH Hin) as (m & ->). cbn [ubind]. eauto.
Qed.
Lemma load_cert_ok kl : adjust_key_length key n = OK kl ->
  exists o, load_cert e key kl = OK o.
Proof.
  intros Ha. unfold load_cert, strstr_found. destruct key_nul as (m & ->). cbn [ubind].
  destruct (substrb _ _); [|eauto].
  destruct key_parts as (kl' & Ha' & _ & _ & _ & E). rewrite Ha' in Ha. inversion Ha; subst kl'.
  rewrite E. cbn [ubind]. eauto.
Qed.
Lemma public_key_ok kl crt : adjust_key_length key n = OK kl -> load_cert e key kl = OK (Some crt) ->
  exists o, public_key e crt key kl = OK o
    /\ match o with Some pk => public_key_of e k pk | None => forall pk, ~ public_key_of e k pk end.
Proof.
  intros Ha Hc. pose proof Hc as Hc'. apply (load_cert_inv e k n Hk Hn kl) in Hc'; auto. unfold public_key.
  destruct key_parts as (kl' & Ha' & _ & _ & _ & E). rewrite Ha' in Ha. inversion Ha; subst kl'.
  destruct crt as [pk|].
  - exists (Some pk). split; [reflexivity|]. destruct Hc' as [(C & E1)|(_ & E1)]; [|discriminate].
    left. split; [exact C|]. destruct (e_x509_parse e (pem_text k)); cbn in E1; congruence.
  - rewrite E. cbn [ubind]. eexists. split; [reflexivity|].
    destruct Hc' as [(C & E1)|(C & _)]; [destruct (e_x509_parse e (pem_text k)); discriminate|].
    destruct (e_parse_public_key e (pem_text k)) as [pk|] eqn:Ep; [right; auto|].
    intros pk [[C' _]|[_ K]]; [contradiction|congruence].
Qed.

Lemma verify_switch_total alg j crt kl msg hash mem slen :
  supported alg j -> adjust_key_length key n = OK kl -> load_cert e key kl = OK (Some crt) ->
  verify_hash e alg msg = Some hash -> (slen <= N.of_nat (length mem))%N -> verifiable e j k mem ->
  exists v, verify_switch p e alg crt key kl msg hash mem slen = OK v
    /\ forall r, v = VExit r -> key_unusable p e j k msg.
Proof.
  intros Hj Ha Hc Hh Hsl Hv. unfold verifiable in Hv.
  destruct key_parts as (kl' & Ha' & Hkl & Ekl & E1 & E2). rewrite Ha' in Ha. assert (Ek : kl' = kl) by congruence.
  rewrite Ek in *. clear Ha Ek kl'.
  destruct (public_key_ok kl crt Ha' Hc) as (o & Ho & Hpk).
  assert (G : forall (u : U verdict), match j_family j with
    | HS => u = (kk <-u take key (kl - 1) ;;
          match e_hmac e (j_hash j) kk msg with
          | None => OK (VFlag true)
          | Some mac => eq <-u memcmp_eq mem (fit 64 (fit (md_size (j_hash j)) mac)) (md_size (j_hash j)) ;; OK (VFlag (negb eq))
          end)
    | RS => u = (o <-u public_key e crt key kl ;;
          match o with
          | None => OK (VExit L8W8JWT_KEY_PARSE_FAILURE)
          | Some pk => s <-u take mem slen ;; OK (VFlag (negb (e_pk_verify e pk (j_hash j) hash s)))
          end)
    | PS => u = (o <-u public_key e crt key kl ;;
          match o with
          | None => OK (VExit L8W8JWT_KEY_PARSE_FAILURE)
          | Some pk => if negb (e_pk_rsa e pk) then KO NullDeref
              else s <-u take mem (e_rsa_len e pk) ;; OK (VFlag (negb (e_pss_verify e pk (j_hash j) hash s)))
          end)
    | ES _ _ _ => u = (o <-u public_key e crt key kl ;;
          match o with
          | None => OK (VExit L8W8JWT_KEY_PARSE_FAILURE)
          | Some pk =>
              let half := (slen / 2)%N in
              if negb (e_pk_ec e pk) then KO NullDeref
              else if negb (e_ecdsa_from_keypair e pk) then OK (VExit L8W8JWT_KEY_PARSE_FAILURE)
              else r <-u take mem half ;; s <-u take (skipn (N.to_nat half) mem) half ;;
                OK (VFlag (negb (e_ecdsa_verify e pk hash (mpi_read_binary r) (mpi_read_binary s))))
          end)
    | ED => u = (if negb (p_eddsa p) then OK (VExit L8W8JWT_UNSUPPORTED_ALG)
          else
            ok <-u (if (kl =? 64)%N then OK true
                    else if (kl =? 65)%N
                    then (b <-u read_at key 64 ;; OK (is_nul b)) else OK false) ;;
            if negb ok then OK (VExit L8W8JWT_WRONG_KEY_TYPE)
            else
              '(r, out, _) <-u l8w8jwt_hexstr2bin p (Ptr None key) kl
                                 (Ptr None (repeat x00 33)) 33 false ;;
              if negb (r =? 0)%Z then OK (VExit L8W8JWT_WRONG_KEY_TYPE)
              else
                match out with
                | None => KO UninitUse
                | Some pub => s <-u take mem 64 ;; OK (VFlag (negb (e_ed_verify e s msg (firstn 32 pub))))
                end)
    end -> exists v, u = OK v /\ forall r, v = VExit r -> key_unusable p e j k msg).
  { intros u. unfold key_unusable. destruct (j_family j) as [| | |c bt wd|].
    - intros ->. rewrite E1. cbn [ubind]. destruct (e_hmac _ _ _ _) as [mac|]; [|eexists; split; [reflexivity|discriminate]].
      unfold memcmp_eq. rewrite take_ok by exact Hv. cbn [ubind].
      rewrite take_ok by (rewrite fit_length; destruct (j_hash j); simpl; lia). cbn [ubind].
      eexists. split; [reflexivity|discriminate].
    - intros ->. rewrite Ho. cbn [ubind]. destruct o as [pk|].
      + rewrite take_ok by exact Hsl. cbn [ubind]. eexists. split; [reflexivity|discriminate].
      + eexists. split; [reflexivity|auto].
    - intros ->. rewrite Ho. cbn [ubind]. destruct o as [pk|].
      + destruct (Hv pk Hpk) as [-> Hl]. cbn [negb]. rewrite take_ok by exact Hl. cbn [ubind].
        eexists. split; [reflexivity|discriminate].
      + eexists. split; [reflexivity|auto].
    - intros ->. rewrite Ho. cbn [ubind]. destruct o as [pk|].
      + rewrite (Hv pk Hpk). cbn [negb]. cbv zeta. destruct (e_ecdsa_from_keypair e pk) eqn:Ek; cbn [negb].
        * rewrite take_ok by lia. cbn [ubind]. rewrite take_ok by (rewrite skipn_length; lia). cbn [ubind].
          eexists. split; [reflexivity|discriminate].
        * eexists. split; [reflexivity|]. right. right. right. eauto.
      + eexists. split; [reflexivity|auto].
    - intros ->. destruct (p_eddsa p); cbn [negb]; [|eexists; split; [reflexivity|auto]].
      assert (Elen : length key = N.to_nat 8192).
      { unfold key. pose proof (key_length k n Hk ltac:(lia)). lia. }
      destruct (pem_text_hmac k n Hk Hn) as [Ep Lp].
      assert (Hok : exists ok, (if (kl =? 64)%N then OK true
                    else if (kl =? 65)%N then (b <-u read_at key 64 ;; OK (is_nul b)) else OK false) = OK ok
                    /\ (ok = true -> kl = 64%N \/ kl = 65%N)
                    /\ (ok = false -> kl <> 65%N)).
      { destruct (N.eqb_spec kl 64); [exists true; repeat split; auto; discriminate|]. destruct (N.eqb_spec kl 65) as [E65|]; [|exists false; repeat split; auto; discriminate].
        rewrite read_at_ok by lia. cbn [ubind]. eexists. split; [reflexivity|]. split; [auto|]. intros K. exfalso.
        unfold take in E2. replace (kl <=? N.of_nat (length key))%N with true in E2 by lia.
        assert (E3 : firstn (N.to_nat kl) key = pem_text k) by congruence.
        assert (E4 : nth (N.to_nat 64) key x00 = nth (N.to_nat 64) (pem_text k) x00).
        { rewrite <- E3. symmetry. rewrite <- (firstn_skipn (N.to_nat kl) key) at 2.
          rewrite app_nth1; [reflexivity|]. rewrite firstn_length. lia. }
        rewrite E4 in K. unfold pem_text in K, Lp, Ekl. unfold hmac_key in Lp.
        assert (Hne : k <> []) by (intros E0; rewrite E0 in Hk; simpl in Hk; lia).
        destruct (exists_last Hne) as (k0 & z & E0). rewrite E0, last_last in *. destruct (is_nul z) eqn:Ez.
        - rewrite app_length in Ekl. cbn [length] in Ekl.
          rewrite app_nth2 in K by lia. replace (N.to_nat 64 - length k0)%nat with 0%nat in K by lia. cbn [nth] in K. congruence.
        - rewrite !app_length in Ekl. cbn [length] in Ekl.
          rewrite app_nth2 in K by (rewrite app_length; cbn [length]; lia).
          replace (N.to_nat 64 - length (k0 ++ [z]))%nat with 0%nat in K by (rewrite app_length; cbn [length]; lia).
          discriminate. }
      destruct Hok as (ok & -> & Hok & Hnok). cbn [ubind].
      destruct ok; cbn [negb]; [|eexists; split; [reflexivity|intros _ _; right; right; specialize (Hnok eq_refl); lia]].
      rewrite hexstr2bin_cases by (rewrite ?repeat_length; specialize (Hok eq_refl); lia).
      assert (Et : firstn (N.to_nat kl) key = pem_text k).
      { unfold take in E2. replace (kl <=? N.of_nat (length key))%N with true in E2 by lia. congruence. }
      rewrite Et, Ep.
      destruct (Nat.eqb_spec (length (hmac_key k) mod 2) 0) as [Ev|Ev]; cbn [negb];
        [|cbn [ubind]; eexists; split; [reflexivity|]; intros _ _; right; right; intros K; rewrite K in Ev; apply Ev; reflexivity].
      assert (L64 : length (hmac_key k) = 64%nat) by (specialize (Hok eq_refl); lia).
      rewrite L64. change (33 <? N.of_nat (64 / 2) + 1)%N with false. cbv iota.
      destruct (hex_loop_ok p (hmac_key k) [] (repeat x00 33)) as (od & Hlo & _).
      { rewrite L64, repeat_length. simpl. lia. }
      unfold cur_start. rewrite Hlo. cbn [ubind negb Z.eqb].
      rewrite take_ok by lia. cbn [ubind]. eexists. split; [reflexivity|discriminate]. }
  apply G. clear G. unfold verify_switch. pose proof Hj as [Hin <-]. simpl in Hin. clear - Hin.
  decompose [or] Hin; try contradiction; subst; reflexivity.
Qed.
End Total.

Lemma verify_body_total p e dp j b jwt h pl rest k mem slen :
  dp_jwt dp = Ptr b jwt -> three_parts jwt h pl rest ->
  supported (dp_alg dp) j -> caller_key (dp_verification_key dp) (dp_verification_key_length dp) k ->
  key_ok (dp_verification_key dp) (dp_verification_key_length dp) ->
  (slen <= N.of_nat (length mem))%N -> verifiable e j k mem ->
  exists v, verify_body p e dp mem slen = OK v
    /\ forall r, v = VExit r -> key_unusable p e j k (h ++ lit "." ++ pl).
Proof.
  intros Ej H3 Hj Hck (Hn & k' & Hck' & Hl) Hs Hv. unfold verify_body.
  destruct Hck as (kb & m & Eq & Hm & Ek). destruct Hck' as (kb' & m' & Eq' & Hm' & Ek').
  rewrite Eq in Eq'. assert (Em : m' = m) by congruence. subst m'.
  assert (Ekk : k' = k) by congruence. rewrite Ekk in *. clear k' Ek' Ekk Hm' Eq'.
  set (n := dp_verification_key_length dp) in *.
  assert (Hk : length k = N.to_nat n) by (rewrite Ek, firstn_length; lia).
  rewrite Eq, load_key_ok by lia. rewrite <- Ek. cbn [ubind].
  destruct (key_parts k n Hk Hn Hl) as (kl & Ha & _). rewrite Ha. cbn [ubind].
  destruct (load_cert_ok e k n Hk Hn Hl kl Ha) as (crt & Hc). rewrite Hc. cbn [ubind].
  destruct crt as [crt|].
  2:{ eexists. split; [reflexivity|]. intros _ _. left. apply (load_cert_inv e k n Hk Hn kl) in Hc; auto.
      destruct Hc as [(C & E)|(_ & E)]; [|discriminate]. split; [exact C|].
      destruct (e_x509_parse e (pem_text k)); [discriminate|reflexivity]. }
  rewrite Ej. cbn [deref ubind]. destruct (signing_input_cut _ _ _ _ H3) as (-> & S2 & S3). cbn [ubind].
  rewrite S2. cbn [ubind]. rewrite S3.
  destruct (verify_hash e (dp_alg dp) (h ++ lit "." ++ pl)) as [hash|] eqn:Eh.
  2:{ eexists. split; [reflexivity|]. intros _ _. right. unfold verify_hash in Eh.
      clear - Hj Eh. destruct Hj as [Hin E0]. rewrite <- E0 in Eh. clear E0. simpl in Hin.
      decompose [or] Hin; try contradiction; subst; cbn [j_id j_family j_hash Z.leb Z.compare Pos.compare Pos.compare_cont andb
        dec_md_info_from_alg] in *; try discriminate Eh;
      match type of Eh with context [e_md e ?x ?y] => destruct (e_md e x y); [discriminate|auto] end. }
  eapply verify_switch_total; eauto.
Qed.

Lemma verify_body_other p e dp b jwt h pl rest k mem slen :
  dp_jwt dp = Ptr b jwt -> three_parts jwt h pl rest -> (dp_alg dp < 0 \/ 13 < dp_alg dp)%Z ->
  caller_key (dp_verification_key dp) (dp_verification_key_length dp) k ->
  key_ok (dp_verification_key dp) (dp_verification_key_length dp) ->
  exists v, verify_body p e dp mem slen = OK v.
Proof.
  intros Ej H3 Hj Hck (Hn & k' & Hck' & Hl). unfold verify_body.
  destruct Hck as (kb & m & Eq & Hm & Ek). destruct Hck' as (kb' & m' & Eq' & Hm' & Ek').
  rewrite Eq in Eq'. assert (Em : m' = m) by congruence. subst m'.
  assert (Ekk : k' = k) by congruence. rewrite Ekk in *. clear k' Ek' Ekk Hm' Eq'.
  set (n := dp_verification_key_length dp) in *.
  assert (Hk : length k = N.to_nat n) by (rewrite Ek, firstn_length; lia).
  rewrite Eq, load_key_ok by lia. rewrite <- Ek. cbn [ubind].
  destruct (key_parts k n Hk Hn Hl) as (kl & Ha & _). rewrite Ha. cbn [ubind].
  destruct (load_cert_ok e k n Hk Hn Hl kl Ha) as (crt & Hc). rewrite Hc. cbn [ubind].
  destruct crt as [crt|]; [|eauto].
  rewrite Ej. cbn [deref ubind]. destruct (signing_input_cut _ _ _ _ H3) as (-> & S2 & S3). cbn [ubind].
  rewrite S2. cbn [ubind]. rewrite S3. destruct (verify_hash _ _ _) as [hash|]; [|eauto].
  unfold verify_switch. assert (E : dec_md_info_from_alg (dp_alg dp) = None).
  { unfold dec_md_info_from_alg. destruct (dp_alg dp) as [|a|a]; [lia| |reflexivity].
    repeat (destruct a as [a|a|]; try reflexivity; try lia). }
  rewrite E. eauto.
Qed.

Lemma verify_signature_total p e dp res b mem n w :
  wf w -> buffers_ok p w ->
  (dp_alg dp <> (-1)%Z -> n <> 0%N -> exists v, verify_body p e dp mem n = OK v) ->
  exists rc res' w', l8w8jwt_verify_signature p e dp res (Ptr b mem) n w = Ret (rc, res') w'.
Proof.
  intros Hwf Hb Hv. unfold l8w8jwt_verify_signature. cbn [is_null].
  destruct (Z.eqb_spec (dp_alg dp) (-1)) as [Ea|Ea]; cbn [orb]; [do 3 eexists; reflexivity|].
  destruct (N.eqb_spec n 0) as [En|En]; [do 3 eexists; reflexivity|].
  destruct (Hv Ea En) as (v & Ev). cbv zeta. fold (verdict_result res).
  destruct (p_small_stack p) eqn:Es.
  - destruct Hb as [Hb|Hb]; [congruence|]. unfold mbind at 1. rewrite calloc_eq, Hb. cbn [is_null].
    unfold mbind at 1. unfold mbind at 1. cbn [deref lift]. rewrite Ev. cbn [lift].
    unfold mbind at 1. unfold zeroize. rewrite repeat_length.
    replace (negb _) with false by (symmetry; apply negb_false_iff, N.leb_le; lia).
    assert (L : w_live (w_ok w) (w_next w) = true) by (cbn; apply upd_live_same). rewrite L.
    unfold mbind at 1. cbn [free]. rewrite free_id_eq by exact L.
    destruct v; do 3 eexists; reflexivity.
  - unfold mbind at 1. cbn [deref lift]. unfold mbind at 1. rewrite Ev. cbn [lift].
    destruct v; do 3 eexists; reflexivity.
Qed.

(** ** Parsing *)
Lemma parse_claims_defined p e c b mem len w es :
  uses_jsmn e -> (32 <= p_size_bits p)%N -> (Z.of_N len <= INT_MAX)%Z -> (N.to_nat len <= length mem)%nat ->
  wf w -> reads e mem len es ->
  exists rc c' w', l8w8jwt_parse_claims p e c (Ptr b mem) len w = Ret (rc, c') w'.
Proof.
  intros Hj Hp Hm Ht Hwf Hr. unfold l8w8jwt_parse_claims. unfold mbind at 1. cbn [deref lift].
  unfold mbind at 1. rewrite take_ok by lia. cbn [lift].
  destruct (Z.ltb_spec INT_MAX (Z.of_N len)); [lia|]. cbv zeta. rewrite !Hj. unfold reads in Hr.
  set (js := firstn (N.to_nat len) mem) in *.
  destruct Hr as [[E ->]|(Hpos & t0 & toks & P & T0 & R)]; [rewrite E; eexists _, _, _; reflexivity|].
  set (r := fst (jsmn_parse js None)) in *.
  destruct (Z.eqb_spec r 0); [lia|]. destruct (Z.ltb_spec r 0); [lia|].
  destruct (jsmn_tokens _ _ _ _ P ltac:(lia)) as [Hlen Htok].
  destruct (before_nul_firstn (N.to_nat len) mem) as (B1 & B2 & B3). fold js in B1, B2, B3.
  assert (Hint : (Z.of_nat (length (before_nul js)) <= INT_MAX)%Z) by lia.
  assert (G : forall w1 blk, wf w1 -> (match blk with Some id => w_live w1 id = true | None => True end) ->
    exists rc c' w', (let '(r2, toks0) := jsmn_parse js (Some r) in
       if (r2 <? 0)%Z then mret (L8W8JWT_DECODE_FAILED_INVALID_TOKEN_FORMAT, c)
       else t1 <- lift (tok_at (TokArr toks0 (if (r <=? 64)%Z then 64 else r)%Z (e_tok_junk e)) 0) ;;
         '(rc, buffer) <- (if negb (jtype_eqb (t_type t1) JObject)
             then mret (L8W8JWT_DECODE_FAILED_INVALID_TOKEN_FORMAT, c)
             else claims_loop (S (Z.to_nat r2)) p e mem (TokArr toks0 (if (r <=? 64)%Z then 64 else r)%Z (e_tok_junk e)) r2 1 c) ;;
          _ <- (match blk with Some id => free_id id | None => mret tt end) ;;
          mret (rc, buffer)) w1 = Ret (rc, c') w').
  { intros w1 blk W1 L1. rewrite P. destruct (Z.ltb_spec r 0); [lia|].
    unfold tok_at. cbn [ta_cap ta_toks ta_junk].
    replace ((0 <? 0)%Z || ((if (r <=? 64)%Z then 64 else r) <=? 0)%Z) with false
      by (destruct (Z.leb_spec r 64); lia).
    unfold mbind at 1. cbn [lift nth Z.to_nat]. rewrite T0. cbn [jtype_eqb negb].
    pose proof (claims_loop_eq p e mem _ (t0 :: toks) (if (r <=? 64)%Z then 64 else r)%Z r (e_tok_junk e) Hp ltac:(lia) Htok B3 Hint
      (S (Z.to_nat r)) 1 c w1 _ _ ltac:(lia) R) as Ec.
    destruct (push_all_total p es L8W8JWT_SUCCESS c w1) as (rc & c' & w2 & Ep). rewrite Ep in Ec.
    unfold mbind at 1. rewrite Ec. destruct blk as [id|]; [|eexists _, _, _; reflexivity].
    destruct (claims_loop_inv _ _ _ _ _ _ _ _ _ _ _ _ W1 Ec) as (new & lost & (_ & _ & _ & _ & _ & _ & Hlv) & _).
    unfold mbind at 1. rewrite free_id_eq by (apply Hlv; auto). eexists _, _, _. reflexivity. }
  destruct (r <=? 64)%Z eqn:E64.
  - unfold mbind at 1. unfold mret at 1. apply (G w None); auto.
  - unfold mbind at 1. unfold mbind at 1. rewrite alloc_eq. destruct (w_alloc w (w_next w)).
    + cbn [option_map]. unfold mret at 1. apply (G (w_ok w) (Some (w_next w))).
      * eapply adds_wf; [apply adds_ok|exact Hwf].
      * cbn [w_ok w_live]. apply upd_live_same.
    + eexists _, _, _. reflexivity.
Qed.

(** The decoded text can be parsed: few enough tokens, or members that can be read one by one. *)
Definition parseable (e : env) (t : bytes) : Prop :=
  forall o tail, b64_decodes t o tail ->
    (Z.of_nat (length o) <= INT_MAX)%Z
    /\ ((fst (e_jsmn e o None) <= 62)%Z \/ exists es, reads e (o ++ tail) (N.of_nat (length o)) es).
Lemma parse_seg_total p e c t s w :
  uses_jsmn e -> (32 <= p_size_bits p)%N -> wf w -> seg_of t s -> parseable e t ->
  exists rc c' w', l8w8jwt_parse_claims p e c (s_ptr s) (s_len s) w = Ret (rc, c') w'.
Proof.
  intros Hj Hp Hwf (id & o & tail & Hd & ->) Ht. destruct (Ht o tail Hd) as [Hl Hc]. cbn [s_ptr s_len].
  pose proof (b64_decodes_tail _ _ _ Hd) as Htl. destruct Hc as [Hc|(es & Hc)].
  - apply parse_claims_total; auto; [lia|rewrite app_length; lia|].
    rewrite Nat2N.id, firstn_app_exact, <- Hj. exact Hc.
  - eapply parse_claims_defined; eauto; [lia|rewrite app_length; lia].
Qed.

(** ** Validation *)
Definition expectable (q : ptr) (n : N) : Prop := q = Null \/ exists s, given q n s.
Definition times_ok (e : env) (dp : dec_params) : Prop :=
  (dp_validate_exp dp = true -> (I64_MIN <= e_time e - Z.of_N (dp_exp_tolerance dp) <= I64_MAX)%Z)
  /\ (dp_validate_nbf dp = true -> (I64_MIN <= e_time e + Z.of_N (dp_nbf_tolerance dp) <= I64_MAX)%Z)
  /\ (dp_validate_iat dp = true -> (I64_MIN <= e_time e + Z.of_N (dp_iat_tolerance dp) <= I64_MAX)%Z).
(** Unless the build's char is unsigned, the C library's tolower is undefined on non-ASCII bytes. *)
Definition typ_ok (p : platform) (dp : dec_params) : Prop :=
  dp_validate_typ dp = Null
  \/ exists b s r, dp_validate_typ dp = Ptr b (s ++ x00 :: r) /\ no_nul s /\ Forall (plain p) s.
Definition requests_ok (p : platform) (e : env) (dp : dec_params) : Prop :=
  expectable (dp_validate_sub dp) (dp_validate_sub_length dp)
  /\ expectable (dp_validate_aud dp) (dp_validate_aud_length dp)
  /\ expectable (dp_validate_iss dp) (dp_validate_iss_length dp)
  /\ expectable (dp_validate_jti dp) (dp_validate_jti_length dp)
  /\ times_ok e dp /\ typ_ok p dp.

Lemma scan_digits_ok s r : forall acc, exists z, scan_digits (s ++ x00 :: r) acc = OK z.
Proof.
  induction s as [|c s IH]; intros acc; cbn [app scan_digits]; [eexists; reflexivity|]. destruct (is_digit c); eauto.
Qed.
Lemma strtoll_ok s r : exists z, strtoll (s ++ x00 :: r) = OK z.
Proof.
  induction s as [|c s IH]; [eexists; reflexivity|]. cbn [app strtoll]. destruct (is_space c); [exact IH|].
  destruct (Byte.eqb c x2d); [destruct (scan_digits_ok s r 0) as (z & ->); cbn [ubind]; eauto|].
  destruct (Byte.eqb c x2b); [destruct (scan_digits_ok s r 0) as (z & ->); cbn [ubind]; eauto|].
  destruct (scan_digits_ok (c :: s) r 0) as (z & E). cbn [app] in E. rewrite E. cbn [ubind]. eauto.
Qed.
Lemma string_check_ok b cs kvs name q n s :
  told cs kvs -> no_nul (lit name) -> String.length name = 3%nat -> given q n s ->
  exists f, string_check (CArr b cs) (N.of_nat (length cs)) name q n = OK f.
Proof.
  intros Ht Hn Hl Hg. unfold string_check. pose proof (get_claim_told b cs kvs name Ht Hn Hl) as G.
  destruct q as [|qb m]; [contradiction|]. cbn [given] in Hg.
  assert (Hvl : length_or_strlen n (Ptr qb m) = OK (N.of_nat (length s)) /\ exists rest, m = s ++ rest).
  { unfold length_or_strlen. destruct (N.eqb_spec n 0) as [->|En].
    - destruct Hg as (r & -> & Hs). cbn [deref ubind]. rewrite strlen_cstr by auto. eauto.
    - destruct Hg as [H1 ->]. split; [f_equal; rewrite firstn_length; lia|]. exists (skipn (N.to_nat n) m).
      symmetry. apply firstn_skipn. }
  destruct Hvl as (Ev & rest & ->).
  destruct (value_of (prefixb (lit name)) kvs) as [v|].
  - destruct G as (c & k & -> & (_ & _ & (vb & vr & Eval) & Evl) & Hv). cbn [ubind]. rewrite Ev. cbn [ubind].
    destruct (N.eqb_spec (c_value_length c) (N.of_nat (length s))) as [E|E]; cbn [negb]; [|eauto].
    rewrite Eval. cbn [deref ubind]. destruct (strncmp_eq v vr s rest Hv) as (z & -> & _); [lia|]. cbn [ubind]. eauto.
  - rewrite G. cbn [ubind]. rewrite Ev. cbn [ubind]. eauto.
Qed.
Lemma time_check_ok b cs kvs name now fails :
  told cs kvs -> no_nul (lit name) -> String.length name = 3%nat -> (I64_MIN <= now <= I64_MAX)%Z ->
  exists f, time_check (CArr b cs) (N.of_nat (length cs)) name now fails = OK f.
Proof.
  intros Ht Hn Hl Hr. unfold time_check. pose proof (get_claim_told b cs kvs name Ht Hn Hl) as G.
  destruct (value_of (prefixb (lit name)) kvs) as [v|]; [|rewrite G; cbn [ubind]; eauto].
  destruct G as (c & k & -> & (_ & _ & (vb & vr & Eval) & _) & Hv). cbn [ubind]. unfold i64.
  replace ((I64_MIN <=? now) && (now <=? I64_MAX))%Z with true by lia. cbn [ubind]. rewrite Eval. cbn [deref ubind].
  destruct (strtoll_ok v vr) as (z & ->). cbn [ubind]. eauto.
Qed.
(** The same for the typ claim of the token. *)
Definition typ_found (p : platform) (dp : dec_params) (kvs : list (bytes * bytes)) : Prop :=
  dp_validate_typ dp = Null \/ forall v, value_of (prefixb (lit "typ")) kvs = Some v -> Forall (plain p) v.
Lemma typ_check_ok p b cs kvs eb exp r n :
  told cs kvs -> no_nul exp -> Forall (plain p) exp ->
  (forall v, value_of (prefixb (lit "typ")) kvs = Some v -> Forall (plain p) v) ->
  exists f, typ_check p (CArr b cs) (N.of_nat (length cs)) (Ptr eb (exp ++ x00 :: r)) n = OK f.
Proof.
  intros Ht Hx Hs Hf. unfold typ_check.
  pose proof (get_claim_told b cs kvs "typ"%string Ht ltac:(vm_compute; intuition discriminate) eq_refl) as G.
  destruct (value_of (prefixb (lit "typ")) kvs) as [v|]; [|rewrite G; cbn [ubind]; eauto].
  destruct G as (c & k & -> & (_ & _ & (vb & vr & Eval) & _) & Hv). cbn [ubind]. rewrite Eval. cbn [l8w8jwt_strncmpic].
  destruct (strncmpic_loop_spec p v vr exp r n (-1)%Z Hv Hx (Hf v eq_refl) Hs) as [L1 L2].
  destruct (N.eqb_spec n 0) as [E|E]; [rewrite L1 by auto; cbn [ubind]; eauto|].
  destruct v as [|x v]; [destruct exp as [|y exp]|].
  - rewrite L1 by auto. cbn [ubind]. eauto.
  - destruct L2 as (z & -> & _); [lia|right; discriminate|]. cbn [ubind]. eauto.
  - destruct L2 as (z & -> & _); [lia|left; discriminate|]. cbn [ubind]. eauto.
Qed.

Lemma flag_if_ok b chk fl res : (b = true -> exists f, chk = OK f) -> exists r, flag_if b chk fl res = OK r.
Proof.
  unfold flag_if. intros H. destruct b; [|eauto]. destruct (H eq_refl) as (f & ->). cbn [ubind]. eauto.
Qed.
Lemma validate_claims_total p e dp b cs kvs res :
  told cs kvs -> requests_ok p e dp -> typ_found p dp kvs ->
  exists v, l8w8jwt_validate_claims p e dp (CArr b cs) (N.of_nat (length cs)) res = OK v.
Proof.
  intros Ht (R1 & R2 & R3 & R4 & (T1 & T2 & T3) & R5) Hf. unfold l8w8jwt_validate_claims. cbv zeta.
  assert (Str : forall name q n fl res, expectable q n -> no_nul (lit name) -> String.length name = 3%nat ->
    exists r, flag_if (negb (is_null q)) (string_check (CArr b cs) (N.of_nat (length cs)) name q n) fl res = OK r).
  { intros name q n fl rs Hq Hz Hl. apply flag_if_ok. intros Hb. destruct Hq as [->|(s & Hs)]; [discriminate|].
    eapply string_check_ok; eauto. }
  assert (Tim : forall name (on : bool) now fails fl res, (on = true -> (I64_MIN <= now <= I64_MAX)%Z) -> no_nul (lit name) ->
    String.length name = 3%nat ->
    exists r, flag_if on (time_check (CArr b cs) (N.of_nat (length cs)) name now fails) fl res = OK r).
  { intros name on now fails fl rs Ho Hz Hl. apply flag_if_ok. intros Hb. eapply time_check_ok; eauto. }
  edestruct (Str "sub"%string) as (r1 & ->); [exact R1|vm_compute; intuition discriminate|reflexivity|cbn [ubind]].
  edestruct (Str "aud"%string) as (r2 & ->); [exact R2|vm_compute; intuition discriminate|reflexivity|cbn [ubind]].
  edestruct (Str "iss"%string) as (r3 & ->); [exact R3|vm_compute; intuition discriminate|reflexivity|cbn [ubind]].
  edestruct (Str "jti"%string) as (r4 & ->); [exact R4|vm_compute; intuition discriminate|reflexivity|cbn [ubind]].
  edestruct (Tim "exp"%string) as (r5 & ->); [exact T1|vm_compute; intuition discriminate|reflexivity|cbn [ubind]].
  edestruct (Tim "nbf"%string) as (r6 & ->); [exact T2|vm_compute; intuition discriminate|reflexivity|cbn [ubind]].
  edestruct (Tim "iat"%string) as (r7 & ->); [exact T3|vm_compute; intuition discriminate|reflexivity|cbn [ubind]].
  apply flag_if_ok. intros Hb. destruct R5 as [R5|(eb & s & r & R5 & Hs & S1)]; [rewrite R5 in Hb; discriminate|].
  destruct Hf as [Hf|Hf]; [rewrite Hf in Hb; discriminate|]. rewrite R5. eapply typ_check_ok; eauto.
Qed.

(** ** The decode functions *)
Definition parts3 (j h pl s : bytes) : Prop := j = h ++ lit "." ++ pl ++ lit "." ++ s /\ no_dot h /\ no_dot pl.
Definition parts2 (j h pl : bytes) : Prop := j = h ++ lit "." ++ pl /\ no_dot h /\ no_dot pl.

Lemma prefix_in a : forall b j rest, a ++ b = j ++ x00 :: rest -> no_nul a ->
  exists s, j = a ++ s /\ b = s ++ x00 :: rest.
Proof.
  induction a as [|c a IH]; intros b j rest E Ha; [exists j; auto|]. apply no_nul_cons in Ha as [Hc Ha].
  destruct j as [|d j]; cbn [app] in E; [inversion E; congruence|]. injection E as -> E.
  destruct (IH _ _ _ E Ha) as (s & -> & ->). exists s. auto.
Qed.
Lemma no_nul_parts h pl : no_nul h -> no_nul pl -> no_nul (h ++ lit "." ++ pl ++ lit ".").
Proof.
  intros H1 H2 Hin. rewrite !in_app_iff in Hin. destruct Hin as [K|[K|[K|K]]]; auto; simpl in K;
    destruct K as [K|[]]; discriminate.
Qed.

(** What a successful split of the caller's text is. *)
Lemma segments_cut p dp j sg : c_text p dp j -> segments_ok p dp sg ->
  (exists b rest h pl s, dp_jwt dp = Ptr b (j ++ x00 :: rest) /\ parts3 j h pl s
     /\ three_parts (j ++ x00 :: rest) h pl (s ++ x00 :: rest)
     /\ seg_of h (sg_header sg) /\ seg_of pl (sg_payload sg) /\ seg_of s (sg_signature sg))
  \/ (dp_alg dp = (-1)%Z /\ sg_signature sg = seg0
      /\ exists h pl, parts2 j h pl /\ seg_of h (sg_header sg) /\ seg_of pl (sg_payload sg)).
Proof.
  intros ((b & rest & Ej) & Hz & Hl & Hs) (b' & jwt & Ej' & H). rewrite Ej in Ej'.
  assert (E0 : jwt = j ++ x00 :: rest) by congruence. subst jwt. clear Ej' b'.
  destruct H as [(h & pl & r & n & H3 & En & Hn & Sh & Sp & Ss)|(Ea & h & s & r & n & E & N1 & N2 & N3 & N4 & En & Hn & Sh & Sp & Ss)].
  - left. pose proof H3 as (E & N1 & N2 & N3 & N4).
    assert (E' : (h ++ lit "." ++ pl ++ lit ".") ++ r = j ++ x00 :: rest) by (rewrite E, <- !app_assoc; reflexivity).
    destruct (prefix_in _ _ _ _ E' (no_nul_parts _ _ N2 N4)) as (s & Ejs & Er).
    assert (Lj : length j = (length h + length pl + 2 + length s)%nat).
    { rewrite Ejs, !app_length. cbn [length lit]. change (length (lit ".")) with 1%nat. lia. }
    rewrite to_size_small in En by lia.
    replace (N.to_nat n) with (length s) in Ss by lia. rewrite Er, firstn_app_exact in Ss.
    exists b, rest, h, pl, s. split; [exact Ej|]. split.
    + split; [|auto]. rewrite Ejs, <- !app_assoc. reflexivity.
    + rewrite <- Er. auto.
  - right. split; [exact Ea|]. split; [exact Ss|]. exists h, s.
    assert (E' : (h ++ lit ".") ++ s ++ x00 :: r = j ++ x00 :: rest) by (rewrite E, <- !app_assoc; reflexivity).
    assert (Hz' : no_nul (h ++ lit ".")).
    { intros K. apply in_app_iff in K as [K|[K|[]]]; [auto|discriminate]. }
    destruct (prefix_in _ _ _ _ E' Hz') as (s' & Ejs & Er).
    assert (Es : s' = s /\ rest = r).
    { assert (Hz2 : no_nul s') by (intros K; apply Hz; rewrite Ejs; apply in_app_iff; auto).
      clear - Er N4 Hz2. revert s' Hz2 Er. induction s as [|c s IH]; intros s' Hz2 E.
      - destruct s' as [|d s']; [injection E; auto|]. apply no_nul_cons in Hz2 as [K _]. cbn [app] in E. injection E as E1 _. congruence.
      - apply no_nul_cons in N4 as [K N4]. destruct s' as [|d s']; cbn [app] in E; [injection E as E1 _; congruence|].
        apply no_nul_cons in Hz2 as [_ Hz2]. injection E as -> E. destruct (IH N4 s' Hz2 E) as [-> ->]. auto. }
    destruct Es as [-> ->].
    assert (Lj : length j = (length h + 1 + length s)%nat).
    { rewrite Ejs, !app_length. change (length (lit ".")) with 1%nat. lia. }
    rewrite to_size_small in En by lia.
    replace (N.to_nat n) with (length s) in Sp by lia. rewrite firstn_app_exact in Sp.
    split; [|auto]. split; [rewrite Ejs, <- app_assoc; reflexivity|auto].
Qed.

(** What must hold of the token text [j], beyond readable arguments. *)
Definition parts_parseable (e : env) (dp : dec_params) (j : bytes) : Prop :=
  (forall h pl s, parts3 j h pl s -> parseable e h /\ parseable e pl)
  /\ (dp_alg dp = (-1)%Z -> forall h pl, parts2 j h pl -> parseable e h /\ parseable e pl).
(** The typ claims of the text [t] are harmless to tolower. *)
Definition seg_typ_ok (p : platform) (e : env) (t : bytes) : Prop :=
  forall o tail es ty k v, b64_decodes t o tail -> reads e (o ++ tail) (N.of_nat (length o)) es -> In (ty, k, v) es ->
    prefixb (lit "typ") (unesc k) = true -> Forall (plain p) (claim_value_of ty v).
Definition parts_typ_ok (p : platform) (e : env) (dp : dec_params) (j : bytes) : Prop :=
  dp_validate_typ dp = Null
  \/ (forall h pl s, parts3 j h pl s -> seg_typ_ok p e h /\ seg_typ_ok p e pl)
     /\ (dp_alg dp = (-1)%Z -> forall h pl, parts2 j h pl -> seg_typ_ok p e h /\ seg_typ_ok p e pl).
Lemma value_of_In f kvs v : value_of f kvs = Some v -> exists k, In (k, v) kvs /\ f k = true.
Proof.
  induction kvs as [|[k x] kvs IH]; [discriminate|]. cbn [value_of]. destruct (f k) eqn:E.
  - intros H. inversion H; subst. exists k. split; [left; reflexivity|exact E].
  - intros H. destruct (IH H) as (k' & Hi & Hk). exists k'. split; [right; exact Hi|exact Hk].
Qed.
Lemma subseq_In {A} (a b : list A) x : subseq a b -> In x a -> In x b.
Proof. induction 1; intros Hi; [destruct Hi|destruct Hi as [->|Hi]; [left; reflexivity|right; auto]|right; auto]. Qed.
Definition signature_verifiable (e : env) (dp : dec_params) (j : bytes) : Prop :=
  forall h pl s jw k sig tail, parts3 j h pl s -> supported (dp_alg dp) jw ->
    caller_key (dp_verification_key dp) (dp_verification_key_length dp) k ->
    b64_decodes s sig tail -> verifiable e jw k (sig ++ tail).

Lemma decode_body_total p e dp j id w :
  wf w -> uses_jsmn e -> (32 <= p_size_bits p)%N -> buffers_ok p w -> c_text p dp j ->
  key_ok (dp_verification_key dp) (dp_verification_key_length dp) -> requests_ok p e dp ->
  parts_parseable e dp j -> parts_typ_ok p e dp j -> signature_verifiable e dp j ->
  exists st w', decode_body p e dp (CB id []) w = Ret st w'.
Proof.
  intros Hwf Hj Hp Hb Ht Hk Hr (Hp3 & Hp2) Hty Hsv. unfold decode_body.
  destruct (decode_segments_total p dp j w Hwf Ht) as (rc & sg & w1 & H1). mstep H1.
  destruct (Z.eqb_spec rc L8W8JWT_SUCCESS) as [Erc|Erc]; cbn [negb]; [|do 2 eexists; reflexivity].
  apply decode_segments_inv in H1 as (A1 & _ & Hok); [|exact Hwf].
  assert (W1 : wf w1) by (eapply adds_wf; eauto).
  assert (B1 : buffers_ok p w1).
  { destruct Hb as [Hb|Hb]; [left; exact Hb|right]. intros k. apply adds_later in A1 as (E & _). rewrite E. apply Hb. }
  assert (Hseg : (exists rc' res' w2, l8w8jwt_verify_signature p e dp L8W8JWT_VALID
                    (s_ptr (sg_signature sg)) (s_len (sg_signature sg)) w1 = Ret (rc', res') w2)
                 /\ exists h pl, seg_of h (sg_header sg) /\ seg_of pl (sg_payload sg) /\ parseable e h /\ parseable e pl
                       /\ (dp_validate_typ dp = Null \/ seg_typ_ok p e h /\ seg_typ_ok p e pl)).
  { destruct (segments_cut p dp j sg Ht (Hok Erc)) as [(b & rest & h & pl & s & Ej & P3 & T3 & Sh & Sp & Ss)|(Ea & Ss & h & pl & P2 & Sh & Sp)].
    - split; [|exists h, pl; destruct (Hp3 _ _ _ P3); do 4 (split; [assumption|]); destruct Hty as [Hty|[Hty _]]; [left; exact Hty|right; eapply Hty; eauto]].
      destruct Ss as (sid & sig & tail & Hd & ->). cbn [s_ptr s_len].
      apply verify_signature_total; auto. intros Ha _.
      pose proof Hk as (_ & k & Hck & _).
      destruct (Z_le_dec 0 (dp_alg dp)); [destruct (Z_le_dec (dp_alg dp) 13)|].
      + destruct (supported_exists (dp_alg dp)) as (jw & Hjw); [lia|].
        edestruct (verify_body_total p e dp jw b _ h pl _ k (sig ++ tail) (N.of_nat (length sig)) Ej T3 Hjw Hck Hk) as (v & Hv & _);
          [rewrite app_length; lia|eapply Hsv; eauto|]. eauto.
      + eapply verify_body_other; eauto. lia.
      + eapply verify_body_other; eauto. lia.
    - split; [|exists h, pl; destruct (Hp2 Ea _ _ P2); do 4 (split; [assumption|]); destruct Hty as [Hty|[_ Hty]]; [left; exact Hty|right; eapply Hty; eauto]]. rewrite Ss.
      unfold l8w8jwt_verify_signature. rewrite Ea. do 3 eexists. reflexivity. }
  destruct Hseg as ((rc2 & res2 & w2 & H2) & h & pl & Sh & Sp & Ph & Ppl & Hseg). mstep H2.
  destruct (negb _); [do 2 eexists; reflexivity|].
  apply verify_signature_inv in H2 as [Q2 _]; [|exact W1].
  assert (W2 : wf w2) by (eapply adds_wf; [apply adds_quiet; exact Q2|exact W1]).
  destruct (parse_seg_total p e (CB id []) h (sg_header sg) w2 Hj Hp W2 Sh Ph) as (rc3 & c1 & w3 & H3). mstep H3.
  destruct (Z.eqb_spec rc3 L8W8JWT_SUCCESS) as [->|E3]; cbn [negb]; [|do 2 eexists; reflexivity].
  pose proof H3 as H3'. apply parse_claims_inv in H3' as (hb & hm & n1 & l1 & Eh & _ & (_ & _ & _ & A3) & _); [|exact W2].
  assert (W3 : wf w3) by (eapply adds_wf; eauto).
  rewrite Eh in H3. apply parse_claims_reads in H3 as (es1 & Re1 & F1 & Hid1 & new1 & sub1 & E1 & U1 & K1 & _); auto.
  destruct (parse_seg_total p e c1 pl (sg_payload sg) w3 Hj Hp W3 Sp Ppl) as (rc4 & c2 & w4 & H4). mstep H4.
  destruct (Z.eqb_spec rc4 L8W8JWT_SUCCESS) as [->|E4]; cbn [negb]; [|do 2 eexists; reflexivity].
  pose proof H4 as H4'. apply parse_claims_inv in H4' as (pb & pm & n2 & l2 & Ep & _); [|exact W3].
  rewrite Ep in H4. apply parse_claims_reads in H4 as (es2 & Re2 & F2 & Hid2 & new2 & sub2 & E2 & U2 & K2 & _); auto.
  cbn [cb_elems app] in E1. rewrite E1 in E2. unfold cb_len. rewrite E2.
  destruct (validate_claims_total p e dp (Some (cb_id c2)) (new1 ++ new2) (map kv_of (sub1 ++ sub2)) res2) as (v & Hv); auto.
  { apply holds_told; [apply Forall2_app; assumption|]. apply Forall_app. split; eapply subseq_Forall; eauto. }
  { destruct Hseg as [Hseg|(Q1 & Q3)]; [left; exact Hseg|right]. intros v Hv.
    apply value_of_In in Hv as (k & Hi & Hk'). apply in_map_iff in Hi as ([[ty ks] vs] & E & Hi). cbn [kv_of] in E. inversion E; subst k v.
    destruct Sh as (i1 & o1 & t1 & D1 & S1). destruct Sp as (i2 & o2 & t2 & D2 & S2). rewrite S1 in Eh, Re1. rewrite S2 in Ep, Re2.
    cbn [s_ptr s_len] in *. inversion Eh; subst hm. inversion Ep; subst pm.
    apply in_app_iff in Hi as [Hi|Hi]; [apply (subseq_In _ _ _ U1) in Hi; eapply Q1; eauto|apply (subseq_In _ _ _ U2) in Hi; eapply Q3; eauto]. }
  unfold mbind at 1. rewrite Hv. cbn [lift]. do 2 eexists. reflexivity.
Qed.

Lemma free_seg_ok w0 w s l1 l2 : wf w0 -> seg_heap s -> adds w0 w (l1 ++ seg_blocks s ++ l2) ->
  exists w', free (s_ptr s) w = Ret tt w' /\ adds w0 w' (l1 ++ l2).
Proof.
  unfold seg_heap, seg_blocks. intros Hwf Hh A. destruct (s_ptr s) as [|[id|] mem]; cbn [free].
  - exists w. split; [reflexivity|exact A].
  - cbn [app] in A. destruct (adds_free w0 w l1 id l2 Hwf A) as [Hl A']. exists (w_free w id).
    split; [apply free_id_eq; exact Hl|exact A'].
  - contradiction.
Qed.
Lemma give_or_free_ok w0 w nn s l1 l2 : wf w0 -> seg_heap s -> adds w0 w (l1 ++ seg_blocks s ++ l2) ->
  exists w', give_or_free nn s w = Ret (if nn then Some s else None) w'
    /\ adds w0 w' (l1 ++ handed_seg (if nn then Some s else None) ++ l2).
Proof.
  intros Hwf Hh A. unfold give_or_free. destruct nn; [exists w; auto|].
  destruct (free_seg_ok w0 w s l1 l2 Hwf Hh A) as (w' & E & A'). unfold mbind. rewrite E. exists w'. auto.
Qed.

(** Once the body has run, nothing more can go wrong. *)
Lemma decode_finish p e dp cn ln w st w1 :
  wf w -> cn && negb ln = false -> l8w8jwt_validate_decoding_params p (Some dp) = L8W8JWT_SUCCESS ->
  w_alloc w (w_next w) = true -> decode_body p e dp (CB (w_next w) []) (w_ok w) = Ret st w1 ->
  exists w', l8w8jwt_decode p e (Some dp) true cn ln w
    = Ret (DecRes (ds_rc st) (Some (if (ds_rc st =? L8W8JWT_SUCCESS)%Z then ds_res st else NOT_VALID))
             (if (ds_rc st =? L8W8JWT_SUCCESS)%Z && cn && ln
              then Some (CArr (Some (cb_id (ds_claims st))) (cb_elems (ds_claims st)), cb_len (ds_claims st)) else None)) w'.
Proof.
  intros Hwf Hc Hv Ha H. unfold l8w8jwt_decode. rewrite Hc, Hv. cbn [Z.eqb negb]. change (negb (L8W8JWT_SUCCESS =? L8W8JWT_SUCCESS)%Z) with false.
  cbv iota. unfold mbind at 1. rewrite cb_init_eq, Ha. mstep H.
  pose proof (adds_ok w) as A0. assert (W0 : wf (w_ok w)) by (eapply adds_wf; eauto).
  apply decode_body_own in H as (new & lost & Hid & Hel & Hn & (S1 & S2 & S3) & A & _); [|exact W0].
  assert (A1 : adds w w1 ((w_next w :: nil) ++ seg_blocks (sg_header (ds_segs st)) ++
     (seg_blocks (sg_payload (ds_segs st)) ++ seg_blocks (sg_signature (ds_segs st)) ++ array_blocks new ++ lost))).
  { pose proof (adds_trans _ _ _ _ _ A0 A) as A'. unfold segs_blocks in A'.
    rewrite <- !app_assoc in A'. exact A'. }
  destruct (free_seg_ok w w1 _ _ _ Hwf S1 A1) as (w2 & F2 & A2). mstep F2.
  destruct (free_seg_ok w w2 _ _ _ Hwf S2 A2) as (w3 & F3 & A3). mstep F3.
  destruct (free_seg_ok w w3 _ _ _ Hwf S3 A3) as (w4 & F4 & A4). mstep F4.
  cbn [cb_id cb_elems] in Hid, Hel. cbn [app] in Hel, A4.
  destruct (free_claims_adds w w4 (w_next w) new lost Hwf Hn A4) as (w6 & E6 & _).
  destruct (negb cn || negb (ds_rc st =? L8W8JWT_SUCCESS)%Z).
  - unfold mbind at 1. cbn [free_claims_buffer]. unfold cb_len. rewrite Hid, Hel, E6. eexists. reflexivity.
  - unfold mbind at 1. unfold mret at 1. eexists. reflexivity.
Qed.

Definition init_ok (p : platform) (w : world) : Prop := p_cb_init_clears p = true \/ w_alloc w (w_next w) = true.
Lemma decode_total p e dp j vn cn ln w :
  wf w -> uses_jsmn e -> (32 <= p_size_bits p)%N -> buffers_ok p w -> init_ok p w -> c_text p dp j ->
  key_ok (dp_verification_key dp) (dp_verification_key_length dp) -> requests_ok p e dp ->
  parts_parseable e dp j -> parts_typ_ok p e dp j -> signature_verifiable e dp j ->
  exists r w', l8w8jwt_decode p e (Some dp) vn cn ln w = Ret r w'.
Proof.
  intros Hwf Hj Hp Hb Hi Ht Hk Hr Hpp Hty Hsv.
  destruct (cn && negb ln) eqn:Ec; [unfold l8w8jwt_decode; rewrite Ec; do 2 eexists; reflexivity|].
  destruct (Z.eqb_spec (l8w8jwt_validate_decoding_params p (Some dp)) L8W8JWT_SUCCESS) as [Ev|Ev].
  2:{ unfold l8w8jwt_decode. rewrite Ec. apply Z.eqb_neq in Ev. rewrite Ev. cbn [negb]. do 2 eexists. reflexivity. }
  destruct vn.
  2:{ unfold l8w8jwt_decode. rewrite Ec, Ev. do 2 eexists. reflexivity. }
  destruct (w_alloc w (w_next w)) eqn:Ea.
  - destruct (decode_body_total p e dp j (w_next w) (w_ok w)) as (st & w1 & H); auto using wf_ok.
    destruct (decode_finish p e dp cn ln w st w1 Hwf Ec Ev Ea H) as (w' & E). eauto.
  - unfold l8w8jwt_decode. rewrite Ec, Ev. change (negb (L8W8JWT_SUCCESS =? L8W8JWT_SUCCESS)%Z) with false. cbn [negb].
    unfold mbind at 1. rewrite cb_init_eq, Ea. cbn [free_claims_buffer].
    destruct Hi as [->|Hi]; [|congruence]. do 2 eexists. reflexivity.
Qed.

Lemma decode_raw_finish p e dp vn hn hl pn pl sn sl w :
  wf w -> init_ok p w ->
  (w_alloc w (w_next w) = true -> l8w8jwt_validate_decoding_params p (Some dp) = L8W8JWT_SUCCESS ->
   exists st w1, decode_body p e dp (CB (w_next w) []) (w_ok w) = Ret st w1) ->
  exists r w', l8w8jwt_decode_raw p e (Some dp) vn hn hl pn pl sn sl w = Ret r w'.
Proof.
  intros Hwf Hi Hbody. unfold l8w8jwt_decode_raw.
  destruct (_ || _ || _ || _); [do 2 eexists; reflexivity|].
  destruct (Z.eqb_spec (l8w8jwt_validate_decoding_params p (Some dp)) L8W8JWT_SUCCESS) as [Ev|Ev]; cbn [negb];
    [|do 2 eexists; reflexivity]. unfold mbind at 1. rewrite cb_init_eq.
  destruct (w_alloc w (w_next w)) eqn:Ea.
  - destruct Hbody as (st & w1 & H); auto.
    rewrite decode_raw_body_eq. unfold mbind at 1. unfold mbind at 1. rewrite H. unfold mret at 1.
    pose proof (adds_ok w) as A0. assert (W0 : wf (w_ok w)) by (eapply adds_wf; eauto).
    apply decode_body_own in H as (new & lost & Hid & Hel & Hn & (S1 & S2 & S3) & A & _); [|exact W0].
    assert (A1 : adds w w1 ((w_next w :: nil) ++ seg_blocks (sg_header (ds_segs st)) ++
       (seg_blocks (sg_payload (ds_segs st)) ++ seg_blocks (sg_signature (ds_segs st)) ++ array_blocks new ++ lost))).
    { pose proof (adds_trans _ _ _ _ _ A0 A) as A'. unfold segs_blocks in A'.
      rewrite <- !app_assoc in A'. exact A'. }
    destruct (give_or_free_ok w w1 hn _ _ _ Hwf S1 A1) as (w2 & F2 & A2). mstep F2. rewrite app_assoc in A2.
    destruct (give_or_free_ok w w2 pn _ _ _ Hwf S2 A2) as (w3 & F3 & A3). mstep F3. rewrite app_assoc in A3.
    destruct (give_or_free_ok w w3 sn _ _ _ Hwf S3 A3) as (w4 & F4 & A4). mstep F4.
    cbn [cb_id cb_elems] in Hid, Hel. cbn [app] in Hel.
    cbn [free_claims_buffer]. unfold cb_len. rewrite Hid, Hel.
    set (a := handed_seg (if hn then Some (sg_header (ds_segs st)) else None)) in *.
    set (b := handed_seg (if pn then Some (sg_payload (ds_segs st)) else None)) in *.
    set (c := handed_seg (if sn then Some (sg_signature (ds_segs st)) else None)) in *.
    assert (A5 : adds w w4 (w_next w :: array_blocks new ++ ((a ++ b ++ c) ++ lost))).
    { eapply adds_perm; [|exact A4]. rewrite <- !app_assoc. cbn [app]. constructor.
      rewrite !app_assoc. apply Permutation_app_tail. rewrite <- !app_assoc.
      eapply Permutation_trans; [|apply Permutation_app_comm]. rewrite <- !app_assoc. reflexivity. }
    destruct (free_claims_adds w w4 (w_next w) new _ Hwf Hn A5) as (w6 & E6 & _). mstep E6. do 2 eexists. reflexivity.
  - unfold mbind at 1. unfold mret at 1. cbn [sg_header sg_payload sg_signature].
    assert (G : forall nn wa, exists o, give_or_free nn seg0 wa = Ret o wa) by (intros [] wa; eexists; reflexivity).
    destruct (G hn (w_no w)) as (o1 & E1). mstep E1. destruct (G pn (w_no w)) as (o2 & E2). mstep E2.
    destruct (G sn (w_no w)) as (o3 & E3). mstep E3. cbn [free_claims_buffer].
    destruct Hi as [->|Hi]; [|congruence]. do 2 eexists. reflexivity.
Qed.

Lemma decode_raw_total p e dp j vn hn hl pn pl sn sl w :
  wf w -> uses_jsmn e -> (32 <= p_size_bits p)%N -> buffers_ok p w -> init_ok p w -> c_text p dp j ->
  key_ok (dp_verification_key dp) (dp_verification_key_length dp) -> requests_ok p e dp ->
  parts_parseable e dp j -> parts_typ_ok p e dp j -> signature_verifiable e dp j ->
  exists r w', l8w8jwt_decode_raw p e (Some dp) vn hn hl pn pl sn sl w = Ret r w'.
Proof.
  intros Hwf Hj Hp Hb Hi Ht Hk Hr Hpp Hty Hsv. apply decode_raw_finish; auto.
  intros _ _. apply (decode_body_total p e dp j (w_next w) (w_ok w)); auto using wf_ok.
Qed.

Lemma decode_raw_nv_total p dp j hn hl pn pl sn sl w :
  wf w -> c_text p dp j ->
  exists r w', l8w8jwt_decode_raw_no_validation p (Some dp) hn hl pn pl sn sl w = Ret r w'.
Proof.
  intros Hwf Ht. unfold l8w8jwt_decode_raw_no_validation.
  destruct (_ || _ || _ || _); [do 2 eexists; reflexivity|].
  destruct (negb _); [do 2 eexists; reflexivity|].
  destruct (decode_segments_total p dp j w Hwf Ht) as (rc & sg & w1 & H1). mstep H1.
  apply decode_segments_inv in H1 as (A & (S1 & S2 & S3) & _); [|exact Hwf]. unfold segs_blocks in A.
  destruct (give_or_free_ok w w1 hn _ [] _ Hwf S1 A) as (w2 & F2 & A2). mstep F2. cbn [app] in A2.
  destruct (give_or_free_ok w w2 pn _ _ _ Hwf S2 A2) as (w3 & F3 & A3). mstep F3. rewrite app_assoc in A3.
  rewrite <- (app_nil_r (seg_blocks (sg_signature sg))) in A3.
  destruct (give_or_free_ok w w3 sn _ _ _ Hwf S3 A3) as (w4 & F4 & A4). mstep F4. do 2 eexists. reflexivity.
Qed.
