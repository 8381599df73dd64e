(** * Lemmas about src/encode.c *)
From Verif Require Import Base BaseProofs HeapProofs Util UtilProofs Claim Base64 SpecB64
  Base64EncProofs Base64EncApi Base64Api Jsmn Env Encode SpecJson SpecJwa ClaimProofs.
From Coq Require Import ZifyBool ZifyNat ZifyN.
Ltac Zify.zify_post_hook ::= Z.div_mod_to_equations.

Definition b64url (s : bytes) : bytes := rfc4648_unpadded true s.

(** ** One segment *)
Lemma encode_seg_inv p b mem n w rc seg s w' :
  (6 <= p_size_bits p)%N ->
  encode_segment p (Ptr b mem) n w = Ret (rc, seg, s) w' ->
  (rc <> L8W8JWT_SUCCESS /\ seg = Null /\ s = [] /\ quiet w w')
  \/ (rc = L8W8JWT_SUCCESS /\ (0 < n)%N /\ (n <= N.of_nat (length mem))%N /\ (n * 4 < size_mod p)%N
      /\ w_alloc w (w_next w) = true /\ w' = w_ok w
      /\ (exists m, seg = Ptr (Some (w_next w)) m) /\ s = b64url (firstn (N.to_nat n) mem)).
Proof.
  intros Hp H. unfold encode_segment in H. minvas H as r w1 Hb.
  destruct (N.ltb_spec n (size_mod p)) as [Hn|Hn].
  - destruct (N.leb_spec n (N.of_nat (length mem))) as [Hl|Hl].
    + destruct (encode_cases p true b mem n w Hp Hn Hl)
        as [(_ & E)|[(_ & _ & E)|[(_ & _ & _ & E)|[(_ & _ & _ & _ & _ & E)|(H0 & H4 & Ha & _ & rest & E & _)]]]];
        rewrite E in Hb; inversion Hb; subst; clear Hb; cbn [b_rc b_out b_len] in H.
      * inversion H; subst. left. split; [discriminate|]. repeat split; auto. all: apply quiet_refl.
      * inversion H; subst. left. split; [discriminate|]. repeat split; auto. all: apply quiet_refl.
      * inversion H; subst. left. split; [discriminate|].
        split; [reflexivity|]. split; [reflexivity|]. apply quiet_no.
      * cbn [negb Z.eqb L8W8JWT_SUCCESS] in H.
        minvas H as m ? Hm. apply lift_inv in Hm as [Hd ->]. inversion Hd; subst.
        minvas H as t ? Hm. apply lift_inv in Hm as [Ht ->]. rewrite take_app in Ht.
        inversion Ht; subst. inversion H; subst. right. repeat split; auto. eauto.
    + unfold l8w8jwt_base64_encode in Hb. cbn [negb is_null orb] in Hb.
      destruct (N.eqb_spec n 0); [lia|].
      destruct (b64_olen p n <? n)%N.
      * inversion Hb; subst. cbn in H. inversion H; subst. left. split; [discriminate|].
        repeat split; auto. all: apply quiet_refl.
      * minvas Hb as o w2 Hm. rewrite malloc_eq in Hm.
        destruct (w_alloc w (w_next w)); inversion Hm; subst.
        -- minvas Hb as m ? Hm2. apply lift_inv in Hm2 as [Hd ->]. inversion Hd; subst.
           minvas Hb as d ? Hm2. apply lift_inv in Hm2 as [Ht ->].
           apply take_inv in Ht as [Ht _]. lia.
        -- inversion Hb; subst. cbn in H. inversion H; subst. left. split; [discriminate|].
           split; [reflexivity|]. split; [reflexivity|]. apply quiet_no.
  - unfold l8w8jwt_base64_encode in Hb. cbn [negb is_null orb] in Hb.
    assert (H0 : (0 < size_mod p)%N) by (unfold size_mod; apply N.neq_0_lt_0, N.pow_nonzero; lia).
    destruct (N.eqb_spec n 0); [lia|].
    assert (Ho : (b64_olen p n <? n)%N = true).
    { apply N.ltb_lt. eapply N.lt_le_trans; [|exact Hn]. unfold b64_olen. apply N.mod_lt. lia. }
    rewrite Ho in Hb. inversion Hb; subst. cbn in H. inversion H; subst. left.
    split; [discriminate|]. repeat split; auto. all: apply quiet_refl.
Qed.

Lemma encode_seg_total p b mem n w :
  (6 <= p_size_bits p)%N -> (n <= N.of_nat (length mem))%N ->
  (4 * ((Z.of_N n + 2) / 3) <= INT_MAX)%Z ->
  exists r w', encode_segment p (Ptr b mem) n w = Ret r w'.
Proof.
  intros Hp Hl Hi. unfold encode_segment, mbind at 1.
  destruct (N.ltb_spec n (size_mod p)) as [Hm|Hm].
  2:{ unfold l8w8jwt_base64_encode. cbn [negb is_null orb].
      assert (H0 : (0 < size_mod p)%N) by (unfold size_mod; apply N.neq_0_lt_0, N.pow_nonzero; lia).
      destruct (N.eqb_spec n 0); [lia|].
      assert (Ho : (b64_olen p n <? n)%N = true).
      { apply N.ltb_lt. eapply N.lt_le_trans; [|exact Hm]. unfold b64_olen. apply N.mod_lt. lia. }
      rewrite Ho. do 2 eexists. reflexivity. }
  destruct (encode_cases p true b mem n w Hp Hm Hl)
    as [(_ & E)|[(_ & _ & E)|[(_ & _ & _ & E)|[(_ & _ & _ & _ & Hx & E)|(H0 & H4 & Ha & _ & rest & E & _)]]]];
    rewrite E; cbn [b_rc b_out b_len]; try (do 2 eexists; reflexivity).
  - lia.
  - cbn [negb Z.eqb L8W8JWT_SUCCESS]. unfold mbind. cbn [deref lift]. rewrite take_app.
    do 2 eexists. reflexivity.
Qed.
Lemma encode_seg_ok p b mem n w :
  (6 <= p_size_bits p)%N -> (0 < n)%N -> (n * 4 < size_mod p)%N -> (n <= N.of_nat (length mem))%N ->
  (4 * ((Z.of_N n + 2) / 3) <= INT_MAX)%Z -> w_alloc w (w_next w) = true ->
  exists m, encode_segment p (Ptr b mem) n w
    = Ret (L8W8JWT_SUCCESS, Ptr (Some (w_next w)) m, b64url (firstn (N.to_nat n) mem)) (w_ok w).
Proof.
  intros Hp Hn Hm Hl Hi Ha.
  destruct (encode_seg_total p b mem n w Hp Hl Hi) as (((rc & seg) & s) & w' & H).
  pose proof H as H'. apply encode_seg_inv in H' as [(Hrc & _)|(-> & _ & _ & _ & _ & -> & (m & ->) & ->)]; auto.
  - exfalso. unfold encode_segment in H. minvas H as r w1 Hb.
    destruct (encode_cases p true b mem n w Hp ltac:(lia) Hl)
      as [(? & E)|[(_ & ? & E)|[(_ & _ & Hx & E)|[(_ & _ & _ & _ & Hx & E)|(H0 & H4 & _ & _ & rest & E & _)]]]];
      try lia; try congruence.
    rewrite E in Hb. inversion Hb; subst. cbn [b_rc b_out b_len negb Z.eqb L8W8JWT_SUCCESS] in H.
    unfold mbind in H. cbn [deref lift] in H. rewrite take_app in H. inversion H; subst.
    apply Hrc. reflexivity.
  - exists m. exact H.
Qed.

(** ** Decimal printing *)
Lemma dec_digits_spec fuel : forall n acc,
  exists ds, dec_digits fuel n acc = ds ++ acc /\ Forall digit ds /\ (length ds <= fuel)%nat
    /\ (0 < fuel -> ds <> [])%nat.
Proof.
  induction fuel as [|f IH]; intros n acc.
  - exists []. repeat split; auto; lia.
  - cbn [dec_digits].
    assert (Hd : digit (n2b (48 + n mod 10))).
    { assert (H : forall x, (x < N.of_nat 10)%N ->
        existsb (Byte.eqb (n2b (48 + x))) (lit "0123456789") = true).
      { apply (sweepN 10). vm_compute. reflexivity. }
      specialize (H (n mod 10)%N ltac:(lia)). apply existsb_exists in H as (x & Hx & E).
      apply byte_eqb_eq in E. unfold digit. rewrite E. exact Hx. }
    destruct (n <? 10)%N.
    + exists [n2b (48 + n mod 10)]. simpl. repeat split; auto; try lia. discriminate.
    + destruct (IH (n / 10)%N (n2b (48 + n mod 10) :: acc)) as (ds & -> & Hds & Hl & _).
      exists (ds ++ [n2b (48 + n mod 10)]). rewrite <- app_assoc. split; [reflexivity|].
      split; [apply Forall_app; split; auto|].
      split; [rewrite app_length; simpl; lia|]. intros _. destruct ds; discriminate.
Qed.
Lemma dec_value_app a b : dec_value (a ++ b) = fold_left (fun v c => (10 * v + (b2n c - 48))%N) b (dec_value a).
Proof. apply fold_left_app. Qed.
Lemma dec_digits_value fuel : forall n acc,
  (n < 10 ^ N.of_nat fuel)%N -> (0 < fuel)%nat ->
  exists ds, dec_digits fuel n acc = ds ++ acc /\ dec_value ds = n
     /\ (n <> 0%N -> forall c t, ds = c :: t -> c <> x30) /\ (n = 0%N -> ds = [x30]).
Proof.
  induction fuel as [|f IH]; intros n acc Hn Hf; [lia|]. cbn [dec_digits].
  assert (Hd : b2n (n2b (48 + n mod 10)) = (48 + n mod 10)%N) by (apply b2n_n2b; lia).
  destruct (N.ltb_spec n 10) as [Hs|Hs].
  - exists [n2b (48 + n mod 10)]. split; [reflexivity|]. unfold dec_value. cbn [fold_left].
    rewrite Hd. split; [lia|]. split.
    + intros H0 c t E E2. assert (E3 : n2b (48 + n mod 10) = c) by congruence.
      rewrite E3, E2 in Hd. change (b2n x30) with 48%N in Hd. lia.
    + intros ->. reflexivity.
  - assert (Hf' : (0 < f)%nat).
    { destruct f; [|lia]. change (10 ^ N.of_nat 1)%N with 10%N in Hn. lia. }
    assert (Hn' : (n / 10 < 10 ^ N.of_nat f)%N).
    { apply N.div_lt_upper_bound; [lia|]. rewrite Nat2N.inj_succ, N.pow_succ_r' in Hn. exact Hn. }
    destruct (IH (n / 10)%N (n2b (48 + n mod 10) :: acc) Hn' Hf') as (ds & -> & Hv & Hz & _).
    exists (ds ++ [n2b (48 + n mod 10)]). rewrite <- app_assoc. split; [reflexivity|].
    rewrite dec_value_app, Hv. cbn [fold_left]. rewrite Hd. split; [lia|]. split; [|lia].
    intros _ c t E. destruct ds as [|d ds].
    + unfold dec_value in Hv. simpl in Hv. assert (n / 10 <> 0)%N by lia. congruence.
    + simpl in E. inversion E; subst. eapply Hz; eauto. lia.
Qed.

Lemma print_u64_digits n : Forall digit (print_u64 n) /\ (1 <= length (print_u64 n) <= 20)%nat.
Proof.
  unfold print_u64. destruct (dec_digits_spec 20 n []) as (ds & -> & H1 & H2 & H3).
  rewrite app_nil_r. split; [exact H1|]. split; [|exact H2].
  destruct ds; [exfalso; apply H3; [lia|reflexivity]|simpl; lia].
Qed.
Lemma print_u64_value n : (n < 2 ^ 64)%N ->
  dec_value (print_u64 n) = n
  /\ (n <> 0%N -> forall c t, print_u64 n = c :: t -> c <> x30) /\ (n = 0%N -> print_u64 n = [x30]).
Proof.
  intros H. unfold print_u64. destruct (dec_digits_value 20 n []) as (ds & -> & H1 & H2 & H3).
  - eapply N.lt_trans; [exact H|]. reflexivity.
  - lia.
  - rewrite app_nil_r. auto.
Qed.
Lemma to_u64_lt t : (to_u64 t < 2 ^ 64)%N.
Proof. unfold to_u64. assert (0 <= t mod 2 ^ 64 < 2 ^ 64)%Z by (apply Z.mod_pos_bound; reflexivity). lia. Qed.
Lemma print_u64_number n : (n < 2 ^ 64)%N -> json_number (print_u64 n).
Proof.
  intros H. pose proof (print_u64_digits n) as [Hd Hl].
  destruct (print_u64_value n H) as (_ & Hz & H0).
  assert (Hi : json_int (print_u64 n)).
  { destruct (N.eq_dec n 0) as [->|Hn]; [rewrite H0 by reflexivity; constructor|].
    destruct (print_u64 n) as [|c t] eqn:E; [simpl in Hl; lia|].
    inversion Hd; subst. constructor; auto. apply (Hz Hn c t eq_refl). }
  pose proof (JN [] (print_u64 n) [] [] (or_introl eq_refl) Hi JF_none JE_none) as K.
  simpl in K. rewrite app_nil_r in K. exact K.
Qed.
Lemma digit_facts c : digit c -> c <> x00 /\ (48 <= b2n c <= 57)%N /\ (b2n c < 128)%N.
Proof.
  intros H. assert (K : forallb (fun c => negb (is_nul c) && (48 <=? b2n c)%N && (b2n c <=? 57)%N)
                          (lit "0123456789") = true) by (vm_compute; reflexivity).
  rewrite forallb_forall in K. specialize (K c H).
  apply andb_true_iff in K as [K K3]. apply andb_true_iff in K as [K1 K2].
  apply negb_true_iff, is_nul_false in K1. split; [auto|]. lia.
Qed.

(** ** The time buffer *)
Definition dec_time (t : Z) : bytes := if (t =? 0)%Z then [] else print_u64 (to_u64 t).
Lemma dec_time_len t : (length (dec_time t) <= 20)%nat.
Proof.
  unfold dec_time. destruct (t =? 0)%Z; [simpl; lia|]. apply print_u64_digits.
Qed.
Lemma dec_time_digits t : Forall digit (dec_time t).
Proof. unfold dec_time. destruct (t =? 0)%Z; [constructor|]. apply print_u64_digits. Qed.
Lemma dec_time_no_nul t : no_nul (dec_time t).
Proof.
  intros H. pose proof (dec_time_digits t) as Hd. rewrite Forall_forall in Hd.
  apply Hd in H. apply digit_facts in H as [H _]. congruence.
Qed.
Lemma dec_time_nil t : dec_time t = [] <-> t = 0%Z.
Proof.
  unfold dec_time. destruct (Z.eqb_spec t 0) as [->|H]; [tauto|].
  split; [|contradiction]. intros E. pose proof (print_u64_digits (to_u64 t)) as [_ Hl].
  rewrite E in Hl. simpl in Hl. lia.
Qed.

Definition field (s : bytes) (n : nat) : bytes := s ++ repeat x00 (n - length s).
Lemma field_len s n : (length s <= n)%nat -> length (field s n) = n.
Proof. intros. unfold field. rewrite app_length, repeat_length. lia. Qed.

Lemma snprintf_field a b t v :
  (length b = 21)%nat -> b = repeat x00 21 ->
  snprintf21 (a ++ b ++ t) (length a) v = OK (a ++ field (print_u64 v) 21 ++ t).
Proof.
  intros Hl Hb. pose proof (print_u64_digits v) as [_ Hp].
  unfold snprintf21. rewrite firstn_all2 by lia.
  assert (E : (length a + length (print_u64 v ++ [x00]) <=? length (a ++ b ++ t))%nat = true).
  { apply Nat.leb_le. rewrite !app_length. simpl. lia. }
  rewrite E. f_equal. rewrite firstn_app_exact. f_equal. rewrite Nat.add_comm, <- skipn_skipn.
  rewrite skipn_app_exact, skipn_app. unfold field.
  replace (length (print_u64 v ++ [x00]) - length b)%nat with 0%nat by (rewrite app_length; simpl; lia).
  simpl (skipn 0 t). rewrite app_assoc. f_equal. rewrite <- app_assoc. f_equal.
  rewrite Hb, app_length. cbn [length app].
  assert (Es : forall k n, skipn k (repeat x00 n) = repeat x00 (n - k)).
  { induction k as [|k IH]; intros n; [simpl; f_equal; lia|]. destruct n; [reflexivity|]. apply IH. }
  rewrite Es. replace (21 - length (print_u64 v))%nat with (S (21 - (length (print_u64 v) + 1))) by lia.
  reflexivity.
Qed.

Lemma iatnbfexp_eq ep :
  iatnbfexp ep = OK (field (dec_time (ep_iat ep)) 21 ++ field (dec_time (ep_nbf ep)) 21
                     ++ field (dec_time (ep_exp ep)) 21 ++ [x00]).
Proof.
  unfold iatnbfexp.
  assert (E0 : repeat x00 64 = repeat x00 21 ++ repeat x00 21 ++ repeat x00 21 ++ [x00]) by reflexivity.
  assert (Ez : field [] 21 = repeat x00 21) by reflexivity.
  assert (E1 : (if (ep_iat ep =? 0)%Z then OK (repeat x00 64)
                else snprintf21 (repeat x00 64) 0 (to_u64 (ep_iat ep)))
               = OK (field (dec_time (ep_iat ep)) 21 ++ repeat x00 21 ++ repeat x00 21 ++ [x00])).
  { unfold dec_time. destruct (ep_iat ep =? 0)%Z; [reflexivity|]. rewrite E0.
    apply (snprintf_field [] (repeat x00 21)); reflexivity. }
  rewrite E1. cbn [ubind]. clear E1.
  set (f1 := field (dec_time (ep_iat ep)) 21).
  assert (L1 : length f1 = 21%nat) by (apply field_len; pose proof (dec_time_len (ep_iat ep)); lia).
  assert (E2 : (if (ep_nbf ep =? 0)%Z then OK (f1 ++ repeat x00 21 ++ repeat x00 21 ++ [x00])
                else snprintf21 (f1 ++ repeat x00 21 ++ repeat x00 21 ++ [x00]) 21 (to_u64 (ep_nbf ep)))
               = OK (f1 ++ field (dec_time (ep_nbf ep)) 21 ++ repeat x00 21 ++ [x00])).
  { unfold dec_time. destruct (ep_nbf ep =? 0)%Z; [reflexivity|].
    pose proof (snprintf_field f1 (repeat x00 21) (repeat x00 21 ++ [x00]) (to_u64 (ep_nbf ep))
                  eq_refl eq_refl) as K. rewrite L1 in K. exact K. }
  rewrite E2. cbn [ubind]. clear E2.
  set (f2 := field (dec_time (ep_nbf ep)) 21).
  assert (L2 : length f2 = 21%nat) by (apply field_len; pose proof (dec_time_len (ep_nbf ep)); lia).
  unfold dec_time. destruct (ep_exp ep =? 0)%Z; [reflexivity|].
  pose proof (snprintf_field (f1 ++ f2) (repeat x00 21) [x00] (to_u64 (ep_exp ep))
                eq_refl eq_refl) as K.
  rewrite app_length, L1, L2, <- !app_assoc in K. exact K.
Qed.

(** ** Header and payload *)
Definition wrote (claims : cptr) (n : N) (ok : Prop) (t : bytes) : Prop :=
  (t = [] /\ (claims = CNull \/ n = 0%N \/ ~ ok))
  \/ exists b cs ts, claims = CArr b cs /\ (0 < n <= N.of_nat (length cs))%N
       /\ Forall2 text_of (filter has_key (firstn (N.to_nat n) cs)) ts /\ t = join ts.

Lemma allocs_not w w' : later w w' -> w_alloc w' (w_next w') = false -> ~ allocs w.
Proof. intros (E & _) H Ha. rewrite E, Ha in H. discriminate. Qed.

Lemma wrote_inv p sb claims n w0 w rc sb' w' :
  later w0 w -> wf w -> l8w8jwt_write_claims p sb claims n w = Ret (rc, sb') w' ->
  quiet w w' /\ cb_id sb' = cb_id sb
  /\ exists t, wrote claims n (allocs w0) t /\ (grows w -> cb_elems sb' = cb_elems sb ++ t).
Proof.
  intros Hl Hwf H. apply write_claims_inv in H as (Hq & Hid & Hc); auto.
  split; [exact Hq|]. split; [exact Hid|].
  destruct Hc as [(_ & -> & ->)|[(_ & -> & ->)|[(_ & Ha & ->)|(_ & Hn & _ & b & cs & -> & Hle & _ & ts & Hts & Hg)]]].
  - exists []. split; [left; auto|]. intros _. rewrite app_nil_r. reflexivity.
  - exists []. split; [left; auto|]. intros _. rewrite app_nil_r. reflexivity.
  - exists []. split; [left; split; [auto|]; right; right; eapply allocs_not; eauto|].
    intros _. rewrite app_nil_r. reflexivity.
  - exists (join ts). split; [right; exists b, cs, ts; repeat split; auto; lia|]. exact Hg.
Qed.

Definition opt_claims (n : N) (sep t : bytes) : bytes := if (0 <? n)%N then sep ++ t else [].
Definition header_text (ep : enc_params) (ok : Prop) (ht : bytes) : Prop :=
  exists h t, header_prefix (ep_alg ep) = Some h
    /\ wrote (ep_header_claims ep) (ep_header_claims_count ep) ok t
    /\ ht = h ++ opt_claims (ep_header_claims_count ep) (lit ",") t ++ lit "}".
Definition comma (ep : enc_params) : bytes :=
  if negb (ep_iat ep =? 0)%Z || negb (ep_exp ep =? 0)%Z
     || negb (ep_nbf ep =? 0)%Z || negb (ep_iss_length ep =? 0)%N
     || negb (ep_sub_length ep =? 0)%N || negb (ep_jti_length ep =? 0)%N
     || negb (ep_aud_length ep =? 0)%N
  then lit "," else [].
Definition payload_text (ep : enc_params) (ok : Prop) (pt : bytes) : Prop :=
  exists tbuf r t, iatnbfexp ep = OK tbuf
    /\ wrote (CArr None (registered_claims ep tbuf)) 7 ok r
    /\ wrote (ep_payload_claims ep) (ep_payload_claims_count ep) ok t
    /\ pt = lit "{" ++ r ++ opt_claims (ep_payload_claims_count ep) (comma ep) t ++ lit "}".

Lemma opt_claims_inv p buff claims n (sep : bool) w0 w buff' w' :
  later w0 w -> wf w ->
  (if (0 <? n)%N
   then (buff <- (if sep then cb_push buff (lit ",") else mret buff) ;;
         r <- l8w8jwt_write_claims p buff claims n ;; mret (snd r))
   else mret buff) w = Ret buff' w' ->
  quiet w w' /\ cb_id buff' = cb_id buff
  /\ exists t, wrote claims n (allocs w0) t
      /\ (grows w -> cb_elems buff'
           = cb_elems buff ++ opt_claims n (if sep then lit "," else []) t).
Proof.
  intros Hl Hwf H. unfold opt_claims. destruct (N.ltb_spec 0 n) as [Hn|Hn].
  - minvas H as b1 w1 Hs.
    assert (Hs' : quiet w w1 /\ cb_id b1 = cb_id buff
                  /\ (grows w -> cb_elems b1 = cb_elems buff ++ (if sep then lit "," else []))).
    { destruct sep.
      - apply cb_push_inv in Hs as (-> & Hid & _ & Hg). split; [apply quiet_push|].
        split; [exact Hid|]. intros Hgr. rewrite (Hg Hgr). reflexivity.
      - inversion Hs; subst. split; [apply quiet_refl|]. split; [reflexivity|].
        intros _. rewrite app_nil_r. reflexivity. }
    destruct Hs' as (Hq1 & Hid1 & Hg1). minvas H as [rc b2] w2 Hc. inversion H; subst.
    eapply wrote_inv in Hc as (Hq2 & Hid2 & t & Ht & Hg2);
      [|eapply later_trans; [exact Hl|apply quiet_later, Hq1]|eapply wf_quiet; eauto].
    split; [eapply quiet_trans; eauto|]. cbn [snd]. split; [congruence|]. exists t.
    split; [exact Ht|]. intros Hgr. rewrite (Hg2 (grows_later _ _ (quiet_later _ _ Hq1) Hgr)), (Hg1 Hgr).
    rewrite <- app_assoc. reflexivity.
  - inversion H; subst. split; [apply quiet_refl|]. split; [reflexivity|]. exists [].
    split; [left; split; [auto|]; right; left; lia|]. intros _. rewrite app_nil_r. reflexivity.
Qed.

Lemma free_seg w1 w2 blk m u w' :
  wf w1 -> quiet (w_ok w1) w2 -> blk = w_next w1 -> free (Ptr (Some blk) m) w2 = Ret u w' ->
  quiet w1 w' /\ w' = w_free w2 blk.
Proof.
  intros Hwf Hq -> H. apply free_id_inv in H as [_ ->].
  split; [apply quiet_alloc_free; auto|reflexivity].
Qed.

Lemma whp_inv p sb ep w rc sb' w' :
  (6 <= p_size_bits p)%N -> wf w ->
  write_header_and_payload p sb ep w = Ret (rc, sb') w' ->
  quiet w w' /\ cb_id sb' = cb_id sb
  /\ (rc = L8W8JWT_SUCCESS ->
      exists ht pt, header_text ep (allocs w) ht /\ payload_text ep (allocs w) pt
      /\ (grows w -> cb_elems sb' = cb_elems sb ++ b64url ht ++ lit "." ++ b64url pt)).
Proof.
  intros Hp Hwf H. unfold write_header_and_payload in H. minvas H as o w1 Hi.
  rewrite cb_init_eq in Hi. destruct (w_alloc w (w_next w)); inversion Hi; subst; clear Hi.
  2:{ inversion H; subst. split; [apply quiet_no|]. split; [reflexivity|]. discriminate. }
  pose proof (wf_ok _ Hwf) as Hwf0.
  destruct (header_prefix (ep_alg ep)) as [h|] eqn:Eh.
  2:{ minvas H as u w2 Hf. apply free_id_inv in Hf as [_ ->]. inversion H; subst.
      split; [apply quiet_alloc_free; [auto|apply quiet_refl]|]. split; [reflexivity|]. discriminate. }
  minvas H as b1 w1 Hm. apply cb_push_inv in Hm as (-> & Hid1 & _ & Hg1).
  minvas H as b2 w2 Hm.
  apply (opt_claims_inv p b1 _ _ true w) in Hm as (Hq2 & Hid2 & t1 & Ht1 & Hg2);
    [|eapply later_trans; [apply later_ok|apply later_push]|apply wf_push; auto].
  assert (Q2 : quiet (w_ok w) w2) by (eapply quiet_trans; [apply quiet_push|exact Hq2]).
  minvas H as b3 w3 Hm. apply cb_push_inv in Hm as (-> & Hid3 & _ & Hg3).
  assert (Q3 : quiet (w_ok w) (w_push w2)) by (eapply quiet_trans; [exact Q2|apply quiet_push]).
  set (w3 := w_push w2) in *.
  minvas H as [[r1 seg1] s1] w4 Hseg. apply encode_seg_inv in Hseg; auto.
  destruct Hseg as [(Hr & -> & -> & Q4)|(-> & Hn1 & _ & _ & _ & -> & (m1 & ->) & ->)].
  { destruct (Z.eqb_spec r1 L8W8JWT_SUCCESS) as [E|_]; [congruence|]. cbn [negb] in H.
    minvas H as u w5 Hf. apply free_id_inv in Hf as [_ ->]. inversion H; subst.
    rewrite Hid3, Hid2, Hid1. cbn [cb_id].
    split; [apply quiet_alloc_free; [auto|eapply quiet_trans; eauto]|].
    split; [reflexivity|]. intros E. congruence. }
  cbn [negb Z.eqb L8W8JWT_SUCCESS] in H.
  minvas H as sb1 w5 Hm. apply cb_push_inv in Hm as (-> & Hsid1 & _ & Hsg1).
  minvas H as u w6 Hf.
  assert (W3 : wf w3) by (eapply wf_quiet; [exact Q3|auto]).
  apply (free_seg w3) in Hf as (Q6 & _); [|exact W3|apply quiet_push|reflexivity].
  assert (Q6' : quiet (w_ok w) w6) by (eapply quiet_trans; eauto).
  assert (W6 : wf w6) by (eapply wf_quiet; [exact Q6'|auto]).
  minvas H as tbuf w7 Hm. apply lift_inv in Hm as [Htb ->].
  minvas H as b4 w8 Hm. apply cb_push_inv in Hm as (-> & Hid4 & _ & Hg4).
  minvas H as [r5 b5] w9 Hm.
  assert (Q7 : quiet (w_ok w) (w_push w6)) by (eapply quiet_trans; [exact Q6'|apply quiet_push]).
  apply (wrote_inv p b4 _ _ w) in Hm as (Hq9 & Hid5 & t2 & Ht2 & Hg5);
    [|eapply later_trans; [apply later_ok|apply quiet_later, Q7]|apply wf_push; auto].
  cbn [snd] in H.
  assert (Q9 : quiet (w_ok w) w9) by (eapply quiet_trans; eauto).
  assert (W9 : wf w9) by (eapply wf_quiet; [exact Q9|auto]).
  minvas H as b6 w10 Hm.
  apply (opt_claims_inv p b5 _ _ _ w) in Hm as (Hq10 & Hid6 & t3 & Ht3 & Hg6);
    [|eapply later_trans; [apply later_ok|apply quiet_later, Q9]|auto].
  assert (Q10 : quiet (w_ok w) w10) by (eapply quiet_trans; eauto).
  minvas H as b7 w11 Hm. apply cb_push_inv in Hm as (-> & Hid7 & _ & Hg7).
  assert (Q11 : quiet (w_ok w) (w_push w10)) by (eapply quiet_trans; [exact Q10|apply quiet_push]).
  assert (W11 : wf (w_push w10)) by (eapply wf_quiet; [exact Q11|auto]).
  set (w11 := w_push w10) in *.
  assert (Hbid : cb_id b7 = w_next w).
  { rewrite Hid7, Hid6, Hid5, Hid4. cbn [cb_clear cb_id]. rewrite Hid3, Hid2, Hid1. reflexivity. }
  minvas H as [[r2 seg2] s2] w12 Hseg. apply encode_seg_inv in Hseg; auto.
  destruct Hseg as [(Hr & -> & -> & Q12)|(-> & Hn2 & _ & _ & _ & -> & (m2 & ->) & ->)].
  { destruct (Z.eqb_spec r2 L8W8JWT_SUCCESS) as [E|_]; [congruence|]. cbn [negb] in H.
    minvas H as u2 w13 Hf. apply free_id_inv in Hf as [_ ->]. inversion H; subst.
    rewrite Hbid.
    split; [apply quiet_alloc_free; [auto|eapply quiet_trans; eauto]|].
    split; [congruence|]. intros E. congruence. }
  cbn [negb Z.eqb L8W8JWT_SUCCESS] in H.
  minvas H as sb2 w13 Hm. apply cb_push_inv in Hm as (-> & Hsid2 & _ & Hsg2).
  minvas H as sb3 w14 Hm. apply cb_push_inv in Hm as (-> & Hsid3 & _ & Hsg3).
  minvas H as u2 w15 Hf.
  apply (free_seg w11) in Hf as (Q15 & _);
    [|exact W11|eapply quiet_trans; apply quiet_push|reflexivity].
  minvas H as u3 w16 Hf. apply free_id_inv in Hf as [_ ->]. inversion H; subst. clear H.
  rewrite Hbid.
  split; [apply quiet_alloc_free; [auto|eapply quiet_trans; eauto]|].
  split; [congruence|]. intros _.
  exists (h ++ opt_claims (ep_header_claims_count ep) (lit ",") t1 ++ lit "}").
  exists (lit "{" ++ t2 ++ opt_claims (ep_payload_claims_count ep) (comma ep) t3 ++ lit "}").
  split; [exists h, t1; auto|]. split; [exists tbuf, t2, t3; auto|].
  intros Hgr.
  assert (G : forall x, later (w_ok w) x -> grows x).
  { intros x Hx. eapply grows_later; [|exact Hgr]. eapply later_trans; [apply later_ok|exact Hx]. }
  assert (GL : forall x, quiet (w_ok w) x -> grows x) by (intros x [Hx _]; auto).
  assert (E3 : cb_elems b3 = h ++ opt_claims (ep_header_claims_count ep) (lit ",") t1 ++ lit "}").
  { rewrite (Hg3 (GL _ Q2)). cbn [cb_elems]. rewrite Hg2, Hg1 by (apply GL; first [apply quiet_push|apply quiet_refl]).
    cbn [cb_elems app]. rewrite <- !app_assoc. reflexivity. }
  assert (E7 : cb_elems b7 = lit "{" ++ t2 ++ opt_claims (ep_payload_claims_count ep) (comma ep) t3 ++ lit "}").
  { rewrite (Hg7 (GL _ Q10)). cbn [cb_elems]. rewrite (Hg6 (GL _ Q9)), (Hg5 (GL _ Q7)), (Hg4 (GL _ Q6')).
    cbn [cb_elems cb_clear app]. rewrite <- !app_assoc. reflexivity. }
  assert (F : forall b : chillbuff byte, firstn (N.to_nat (cb_len b)) (cb_elems b) = cb_elems b).
  { intros b. unfold cb_len. rewrite Nat2N.id. apply firstn_all. }
  rewrite F, E7 in Hsg3. rewrite F, E3 in Hsg1.
  assert (K : later (w_ok w) (w_ok w11)) by (eapply later_trans; [apply quiet_later, Q11|apply later_ok]).
  rewrite Hsg3 by (apply G; eapply later_trans; [exact K|apply later_push]).
  cbn [cb_elems]. rewrite Hsg2 by (apply G; exact K). cbn [cb_elems].
  rewrite Hsg1 by (apply G; eapply later_trans; [apply quiet_later, Q3|apply later_ok]).
  cbn [cb_elems]. rewrite <- !app_assoc. reflexivity.
Qed.

(** ** The registered claims *)
Definition time_fact (c : claim) (name : bytes) (t : Z) : Prop :=
  c_type c = L8W8JWT_CLAIM_TYPE_INTEGER
  /\ ((t = 0%Z /\ c_key c = Null)
      \/ (t <> 0%Z /\ given (c_key c) (c_key_length c) name
          /\ given (c_value c) (c_value_length c) (print_u64 (to_u64 t)))).
Definition str_fact (c : claim) (name : bytes) (q : ptr) (n : N) : Prop :=
  c_type c = L8W8JWT_CLAIM_TYPE_STRING
  /\ ((q = Null /\ c_key c = Null)
      \/ (q <> Null /\ given (c_key c) (c_key_length c) name
          /\ c_value c = q /\ c_value_length c = n)).

Lemma field_cases t r :
  (t = 0%Z /\ nth 0 (field (dec_time t) 21 ++ r) x00 = x00)
  \/ (t <> 0%Z /\ is_nul (nth 0 (field (dec_time t) 21 ++ r) x00) = false
      /\ given (Ptr None (field (dec_time t) 21 ++ r)) 0 (print_u64 (to_u64 t))).
Proof.
  destruct (Z.eq_dec t 0) as [->|Ht]; [left; auto|]. right. split; [exact Ht|].
  assert (E : dec_time t = print_u64 (to_u64 t)).
  { unfold dec_time. destruct (Z.eqb_spec t 0); congruence. }
  pose proof (print_u64_digits (to_u64 t)) as [Hd Hl].
  unfold field. rewrite E. split.
  - destruct (print_u64 (to_u64 t)) as [|c s]; [simpl in Hl; lia|].
    inversion Hd; subst. simpl. apply is_nul_false. apply digit_facts. auto.
  - cbn [given]. replace (0 =? 0)%N with true by reflexivity.
    exists (repeat x00 (20 - length (print_u64 (to_u64 t))) ++ r). split.
    + rewrite <- app_assoc. f_equal.
      replace (21 - length (print_u64 (to_u64 t)))%nat
        with (S (20 - length (print_u64 (to_u64 t)))) by lia. reflexivity.
    + rewrite <- E. apply dec_time_no_nul.
Qed.

Lemma registered_facts ep tbuf :
  iatnbfexp ep = OK tbuf ->
  exists c1 c2 c3 c4 c5 c6 c7, registered_claims ep tbuf = [c1; c2; c3; c4; c5; c6; c7]
    /\ time_fact c1 (lit "iat") (ep_iat ep) /\ time_fact c2 (lit "nbf") (ep_nbf ep)
    /\ time_fact c3 (lit "exp") (ep_exp ep)
    /\ str_fact c4 (lit "sub") (ep_sub ep) (ep_sub_length ep)
    /\ str_fact c5 (lit "iss") (ep_iss ep) (ep_iss_length ep)
    /\ str_fact c6 (lit "aud") (ep_aud ep) (ep_aud_length ep)
    /\ str_fact c7 (lit "jti") (ep_jti ep) (ep_jti_length ep).
Proof.
  rewrite iatnbfexp_eq. intros H. injection H as <-.
  set (f1 := field (dec_time (ep_iat ep)) 21). set (f2 := field (dec_time (ep_nbf ep)) 21).
  set (f3 := field (dec_time (ep_exp ep)) 21).
  assert (L1 : length f1 = 21%nat) by (apply field_len; pose proof (dec_time_len (ep_iat ep)); lia).
  assert (L2 : length f2 = 21%nat) by (apply field_len; pose proof (dec_time_len (ep_nbf ep)); lia).
  assert (S1 : skipn 21 (f1 ++ f2 ++ f3 ++ [x00]) = f2 ++ f3 ++ [x00]).
  { rewrite <- L1 at 1. apply skipn_app_exact. }
  assert (S2 : skipn 42 (f1 ++ f2 ++ f3 ++ [x00]) = f3 ++ [x00]).
  { rewrite app_assoc. replace 42%nat with (length (f1 ++ f2)) by (rewrite app_length; lia).
    apply skipn_app_exact. }
  unfold registered_claims. rewrite S1, S2. change (skipn 0 (f1 ++ f2 ++ f3 ++ [x00])) with (f1 ++ f2 ++ f3 ++ [x00]).
  do 7 eexists. split; [reflexivity|].
  assert (T : forall t r name k, length (lit name) = 3%nat -> k = field (dec_time t) 21 ++ r ->
    time_fact (Claim (key_if (negb (is_nul (nth 0 k x00))) name) 3 (Ptr None k) 0
                 L8W8JWT_CLAIM_TYPE_INTEGER) (lit name) t).
  { intros t r name k Hl ->. split; [reflexivity|].
    destruct (field_cases t r) as [(-> & E)|(Ht & E & G)].
    - left. split; [reflexivity|]. cbn [c_key]. rewrite E. reflexivity.
    - right. split; [exact Ht|]. cbn [c_key c_key_length c_value c_value_length].
      rewrite E. split; [|exact G]. cbn [negb key_if given]. replace (3 =? 0)%N with false by reflexivity.
      unfold clit. rewrite app_length, Hl. split; [simpl; lia|].
      change (N.to_nat 3) with 3%nat. rewrite <- Hl. symmetry. apply firstn_app_exact. }
  assert (S : forall q n name, length (lit name) = 3%nat ->
    str_fact (Claim (key_if (negb (is_null q)) name) 3 q n L8W8JWT_CLAIM_TYPE_STRING) (lit name) q n).
  { intros q n name Hl. split; [reflexivity|]. destruct q as [|b m].
    - left. auto.
    - right. split; [discriminate|]. cbn [c_key c_key_length c_value c_value_length is_null negb key_if].
      split; [|auto]. cbn [given]. replace (3 =? 0)%N with false by reflexivity.
      unfold clit. rewrite app_length, Hl. split; [simpl; lia|].
      change (N.to_nat 3) with 3%nat. rewrite <- Hl. symmetry. apply firstn_app_exact. }
  split; [eapply T; reflexivity|]. split; [eapply T; reflexivity|]. split; [eapply T; reflexivity|].
  split; [apply S; reflexivity|]. split; [apply S; reflexivity|]. split; [apply S; reflexivity|].
  apply S; reflexivity.
Qed.
