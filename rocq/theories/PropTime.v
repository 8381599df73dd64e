(** * Property C57: time and tolerances *)
From Verif Require Import Base BaseProofs HeapProofs Util UtilProofs Claim Base64 SpecB64
  Base64EncProofs Base64EncApi Base64DecProofs Base64Api Jsmn Env Encode Decode SpecJson SpecJwa ClaimProofs UnescapeProofs
  EncodeProofs SignProofs EncodeTotal SpecEnc JsonProofs PropEncode DecodeProofs DecodeInv JsmnProofs ParseProofs
  PropClaim ReadProofs ValidateProofs JsmnJson DecodeTotal PropVerify PropValidate.
From Coq Require Import ZifyBool ZifyNat ZifyN.
Ltac Zify.zify_post_hook ::= Z.div_mod_to_equations.

(** ** Notions *)
(** The same process at another time, and the same request with other tolerances. *)
Definition at_time (e : env) (t : Z) : env :=
  Env (e_seed_ok e) (e_hmac e) (e_md e) (e_parse_key e) (e_parse_public_key e) (e_x509_parse e) (e_can_do e) (e_bitlen e)
    (e_pk_sign e) (e_pk_verify e) (e_pk_rsa e) (e_rsa_len e) (e_pss_sign e) (e_pss_verify e) (e_pk_ec e)
    (e_ecdsa_from_keypair e) (e_group e) (e_ecdsa_sign e) (e_ecdsa_verify e) (e_ed_sign e) (e_ed_verify e) t
    (e_checknum e) (e_jsmn e) (e_tok_junk e).
Definition tolerating (dp : dec_params) (a b c : N) : dec_params :=
  DecParams (dp_jwt dp) (dp_jwt_length dp) (dp_alg dp) (dp_validate_iss dp) (dp_validate_iss_length dp)
    (dp_validate_sub dp) (dp_validate_sub_length dp) (dp_validate_aud dp) (dp_validate_aud_length dp)
    (dp_validate_jti dp) (dp_validate_jti_length dp) (dp_validate_exp dp) (dp_validate_nbf dp) (dp_validate_iat dp)
    a b c (dp_verification_key dp) (dp_verification_key_length dp) (dp_validate_typ dp) (dp_validate_typ_length dp).

(** ** One claim *)
Lemma time_check_mono cs n nm now now' F f g :
  time_check cs n nm now F = OK f -> time_check cs n nm now' F = OK g ->
  (forall v, F now v = true -> F now' v = true) -> f = true -> g = true.
Proof.
  unfold time_check. intros H H' HF ->. destruct (l8w8jwt_get_claim _ _ _ _) as [[c|]|]; cbn [ubind] in *; try discriminate; [|congruence].
  unfold i64 in *. destruct (_ && _); [|discriminate]. destruct (_ && _); [|discriminate]. cbn [ubind] in *.
  destruct (deref (c_value c)); [|discriminate]. cbn [ubind] in *. destruct (strtoll _); [|discriminate]. cbn [ubind] in *.
  injection H as E1. injection H' as E2. rewrite <- E2. apply HF. exact E1.
Qed.
Lemma time_check_between cs n nm now1 now2 now3 F f g :
  time_check cs n nm now1 F = OK f -> time_check cs n nm now3 F = OK g -> (now1 <= now2 <= now3)%Z ->
  exists h, time_check cs n nm now2 F = OK h.
Proof.
  unfold time_check. intros H H' L. destruct (l8w8jwt_get_claim _ _ _ _) as [[c|]|]; cbn [ubind] in *; try discriminate; [|eauto].
  unfold i64 in *. destruct ((I64_MIN <=? now1)%Z && _) eqn:E1; [|discriminate].
  destruct ((I64_MIN <=? now3)%Z && _) eqn:E3; [|discriminate].
  destruct ((I64_MIN <=? now2)%Z && _) eqn:E2; [|lia]. cbn [ubind] in *.
  destruct (deref (c_value c)); [|discriminate]. cbn [ubind] in *. destruct (strtoll _); [|discriminate]. cbn [ubind] in *. eauto.
Qed.

Lemma bind_cong {A B} (m m' : M A) (k k' : A -> M B) w :
  m w = m' w -> (forall a w1, m' w = Ret a w1 -> k a w1 = k' a w1) -> mbind m k w = mbind m' k' w.
Proof. intros E H. unfold mbind. rewrite E. destruct (m' w); auto. Qed.

Section Time.
Variables (p : platform) (e : env) (dp : dec_params).
Let V t a b c := l8w8jwt_validate_claims p (at_time e t) (tolerating dp a b c).

(** ** All checks *)
Lemma validate_mono t a b c t' a' b' c' cs n res v v' :
  V t a b c cs n res = OK v -> V t' a' b' c' cs n res = OK v' ->
  (forall k, k <> 4%N -> k <> 5%N -> k <> 6%N -> N.testbit v k = N.testbit v' k)
  /\ ((t - Z.of_N a <= t' - Z.of_N a')%Z -> N.testbit v 4 = true -> N.testbit v' 4 = true)
  /\ ((t + Z.of_N b <= t' + Z.of_N b')%Z -> N.testbit v' 5 = true -> N.testbit v 5 = true)
  /\ ((t + Z.of_N c <= t' + Z.of_N c')%Z -> N.testbit v' 6 = true -> N.testbit v 6 = true).
Proof.
  unfold V. intros H H'.
  apply validate_claims_inv in H
    as (f1 & f2 & f3 & f4 & f5 & f6 & f7 & f8 & -> & V1 & V2 & V3 & V4 & V5 & V6 & V7 & V8).
  apply validate_claims_inv in H'
    as (g1 & g2 & g3 & g4 & g5 & g6 & g7 & g8 & -> & W1 & W2 & W3 & W4 & W5 & W6 & W7 & W8).
  cbn [tolerating at_time e_time dp_validate_sub dp_validate_aud dp_validate_iss dp_validate_jti dp_validate_typ
    dp_validate_exp dp_validate_nbf dp_validate_iat dp_exp_tolerance dp_nbf_tolerance dp_iat_tolerance
    dp_validate_sub_length dp_validate_aud_length dp_validate_iss_length dp_validate_jti_length dp_validate_typ_length] in *.
  assert (S : forall (b0 : bool) (X : U bool) f g,
    (if b0 then f = false else X = OK f) -> (if b0 then g = false else X = OK g) -> f = g).
  { intros [] X f g A B; congruence. }
  rewrite <- (S _ _ _ _ V1 W1), <- (S _ _ _ _ V2 W2), <- (S _ _ _ _ V3 W3), <- (S _ _ _ _ V4 W4), <- (S _ _ _ _ V8 W8).
  assert (T : forall (b0 : bool) nm now now' F f g,
    (if b0 then time_check cs n nm now F = OK f else f = false) -> (if b0 then time_check cs n nm now' F = OK g else g = false) ->
    (forall v, F now v = true -> F now' v = true) -> f = true -> g = true).
  { intros [] nm now now' F f g A B HF Hf; [exact (time_check_mono _ _ _ _ _ _ _ _ A B HF Hf)|congruence]. }
  split; [|split; [|split]].
  - intros k K4 K5 K6. rewrite !lor_flags_testbit. apply N.eqb_neq in K4, K5, K6. rewrite K4, K5, K6.
    rewrite !andb_false_r. reflexivity.
  - intros L. rewrite !lor_flags_testbit. cbn [N.eqb Pos.eqb]. rewrite !andb_false_r, !andb_true_r, !orb_false_r, !orb_true_iff.
    intros [E|E]; [auto|right]. eapply T; [exact V5|exact W5| |exact E]. cbv beta. intros; lia.
  - intros L. rewrite !lor_flags_testbit. cbn [N.eqb Pos.eqb]. rewrite !andb_false_r, !andb_true_r, !orb_false_r, !orb_true_iff.
    intros [E|E]; [auto|right]. eapply T; [exact W6|exact V6| |exact E]. cbv beta. intros; lia.
  - intros L. rewrite !lor_flags_testbit. cbn [N.eqb Pos.eqb]. rewrite !andb_false_r, !andb_true_r, !orb_false_r, !orb_true_iff.
    intros [E|E]; [auto|right]. eapply T; [exact W7|exact V7| |exact E]. cbv beta. intros; lia.
Qed.

Lemma flag_if_ok (b : bool) chk fl res x : (if b then chk = OK x else True) -> exists r, flag_if b chk fl res = OK r.
Proof. unfold flag_if. destruct b; [intros ->; cbn [ubind]; eauto|eauto]. Qed.
Lemma validate_between t1 t2 t3 a b c cs n res v1 v3 : (t1 <= t2 <= t3)%Z ->
  V t1 a b c cs n res = OK v1 -> V t3 a b c cs n res = OK v3 -> exists v2, V t2 a b c cs n res = OK v2.
Proof.
  unfold V. intros L H H'.
  apply validate_claims_inv in H
    as (f1 & f2 & f3 & f4 & f5 & f6 & f7 & f8 & _ & V1 & V2 & V3 & V4 & V5 & V6 & V7 & V8).
  apply validate_claims_inv in H'
    as (g1 & g2 & g3 & g4 & g5 & g6 & g7 & g8 & _ & _ & _ & _ & _ & W5 & W6 & W7 & _).
  cbn [tolerating at_time e_time dp_validate_sub dp_validate_aud dp_validate_iss dp_validate_jti dp_validate_typ
    dp_validate_exp dp_validate_nbf dp_validate_iat dp_exp_tolerance dp_nbf_tolerance dp_iat_tolerance
    dp_validate_sub_length dp_validate_aud_length dp_validate_iss_length dp_validate_jti_length dp_validate_typ_length] in *.
  assert (T : forall (b0 : bool) nm now1 now2 now3 F f g,
    (if b0 then time_check cs n nm now1 F = OK f else f = false) -> (if b0 then time_check cs n nm now3 F = OK g else g = false) ->
    (now1 <= now2 <= now3)%Z -> exists h, if b0 then time_check cs n nm now2 F = OK h else True).
  { intros [] nm n1 n2 n3 F f g A B Ln; [exact (time_check_between _ _ _ _ _ _ _ _ _ A B Ln)|exists true; exact I]. }
  assert (S : forall q (X : U bool) f, (if is_null q then f = false else X = OK f) -> if negb (is_null q) then X = OK f else True).
  { intros [] X f; cbn; auto. }
  destruct (T _ _ _ (t2 - Z.of_N a)%Z _ _ _ _ V5 W5) as (h5 & U5); [lia|].
  destruct (T _ _ _ (t2 + Z.of_N b)%Z _ _ _ _ V6 W6) as (h6 & U6); [lia|].
  destruct (T _ _ _ (t2 + Z.of_N c)%Z _ _ _ _ V7 W7) as (h7 & U7); [lia|].
  unfold l8w8jwt_validate_claims. cbv zeta.
  cbn [tolerating at_time e_time dp_validate_sub dp_validate_aud dp_validate_iss dp_validate_jti dp_validate_typ
    dp_validate_exp dp_validate_nbf dp_validate_iat dp_exp_tolerance dp_nbf_tolerance dp_iat_tolerance
    dp_validate_sub_length dp_validate_aud_length dp_validate_iss_length dp_validate_jti_length dp_validate_typ_length].
  destruct (flag_if_ok _ _ L8W8JWT_SUB_FAILURE res _ (S _ _ _ V1)) as (r1 & ->). cbn [ubind].
  destruct (flag_if_ok _ _ L8W8JWT_AUD_FAILURE r1 _ (S _ _ _ V2)) as (r2 & ->). cbn [ubind].
  destruct (flag_if_ok _ _ L8W8JWT_ISS_FAILURE r2 _ (S _ _ _ V3)) as (r3 & ->). cbn [ubind].
  destruct (flag_if_ok _ _ L8W8JWT_JTI_FAILURE r3 _ (S _ _ _ V4)) as (r4 & ->). cbn [ubind].
  destruct (flag_if_ok _ _ L8W8JWT_EXP_FAILURE r4 _ U5) as (r5 & ->). cbn [ubind].
  destruct (flag_if_ok _ _ L8W8JWT_NBF_FAILURE r5 _ U6) as (r6 & ->). cbn [ubind].
  destruct (flag_if_ok _ _ L8W8JWT_IAT_FAILURE r6 _ U7) as (r7 & ->). cbn [ubind].
  apply (flag_if_ok _ _ _ _ _ (S _ _ _ V8)).
Qed.

(** ** The call *)
Lemma loop_time fuel t mem a r i c w :
  claims_loop fuel p (at_time e t) mem a r i c w = claims_loop fuel p e mem a r i c w.
Proof.
  revert i c w. induction fuel as [|fuel IH]; intros i c w; [reflexivity|]. cbn [claims_loop].
  destruct (negb _); [reflexivity|]. apply bind_cong; [reflexivity|]. intros key w1 _. cbv zeta.
  apply bind_cong; [reflexivity|]. intros value w2 _. destruct (_ || _); [reflexivity|].
  apply bind_cong; [reflexivity|]. intros [[ty j]|] w3 _; [|reflexivity].
  apply bind_cong; [reflexivity|]. intros km w4 _. apply bind_cong; [reflexivity|]. intros vm w5 _.
  apply bind_cong; [reflexivity|]. intros [ur [d|]] w6 _; [|reflexivity].
  apply bind_cong; [reflexivity|]. intros c1 w7 _. apply IH.
Qed.
Lemma parse_time t c q n w : l8w8jwt_parse_claims p (at_time e t) c q n w = l8w8jwt_parse_claims p e c q n w.
Proof.
  unfold l8w8jwt_parse_claims. apply bind_cong; [reflexivity|]. intros mem w1 _. apply bind_cong; [reflexivity|]. intros js w2 _.
  destruct (_ <? _)%Z; [reflexivity|]. cbv zeta. change (e_jsmn (at_time e t)) with (e_jsmn e).
  destruct (_ =? 0)%Z; [reflexivity|]. destruct (_ <? 0)%Z; [reflexivity|].
  apply bind_cong; [reflexivity|]. intros [blk|] w3 _; [|reflexivity]. destruct (e_jsmn e js (Some _)) as [r2 toks].
  destruct (r2 <? 0)%Z; [reflexivity|]. apply bind_cong; [reflexivity|]. intros t0 w4 _.
  apply bind_cong; [destruct (negb _); [reflexivity|apply loop_time]|]. reflexivity.
Qed.
(** Time and tolerances enter through the claim checks only. *)
Lemma body_shape cb w :
  (exists X, forall t a b c, decode_body p (at_time e t) (tolerating dp a b c) cb w = X)
  \/ (exists sg cl res w1, forall t a b c, decode_body p (at_time e t) (tolerating dp a b c) cb w
        = match V t a b c (CArr (Some (cb_id cl)) (cb_elems cl)) (cb_len cl) res with
          | OK v => Ret (DecState L8W8JWT_SUCCESS sg cl v) w1 | KO u => Undef u end).
Proof.
  unfold decode_body.
  assert (E1 : forall a b c, l8w8jwt_decode_segments p (tolerating dp a b c) = l8w8jwt_decode_segments p dp) by reflexivity.
  assert (E2 : forall t a b c res q n, l8w8jwt_verify_signature p (at_time e t) (tolerating dp a b c) res q n
    = l8w8jwt_verify_signature p e dp res q n) by (destruct e; reflexivity).
  destruct (l8w8jwt_decode_segments p dp w) as [[r sg] w1|u] eqn:H1.
  2:{ left. eexists. intros. rewrite E1. unfold mbind at 1. rewrite H1. reflexivity. }
  destruct (negb (r =? L8W8JWT_SUCCESS)%Z) eqn:N1.
  { left. eexists. intros. rewrite E1. unfold mbind at 1. rewrite H1, N1. reflexivity. }
  destruct (l8w8jwt_verify_signature p e dp L8W8JWT_VALID (s_ptr (sg_signature sg)) (s_len (sg_signature sg)) w1) as [[r2 res] w2|u] eqn:H2.
  2:{ left. eexists. intros. rewrite E1. unfold mbind at 1. rewrite H1, N1. unfold mbind at 1. rewrite E2, H2. reflexivity. }
  destruct (negb (r2 =? L8W8JWT_SUCCESS)%Z) eqn:N2.
  { left. eexists. intros. rewrite E1. unfold mbind at 1. rewrite H1, N1. unfold mbind at 1. rewrite E2, H2, N2. reflexivity. }
  destruct (l8w8jwt_parse_claims p e cb (s_ptr (sg_header sg)) (s_len (sg_header sg)) w2) as [[r3 c1] w3|u] eqn:H3.
  2:{ left. eexists. intros. rewrite E1. unfold mbind at 1. rewrite H1, N1. unfold mbind at 1. rewrite E2, H2, N2.
      unfold mbind at 1. rewrite parse_time, H3. reflexivity. }
  destruct (negb (r3 =? L8W8JWT_SUCCESS)%Z) eqn:N3.
  { left. eexists. intros. rewrite E1. unfold mbind at 1. rewrite H1, N1. unfold mbind at 1. rewrite E2, H2, N2.
    unfold mbind at 1. rewrite parse_time, H3, N3. reflexivity. }
  destruct (l8w8jwt_parse_claims p e c1 (s_ptr (sg_payload sg)) (s_len (sg_payload sg)) w3) as [[r4 c2] w4|u] eqn:H4.
  2:{ left. eexists. intros. rewrite E1. unfold mbind at 1. rewrite H1, N1. unfold mbind at 1. rewrite E2, H2, N2.
      unfold mbind at 1. rewrite parse_time, H3, N3. unfold mbind at 1. rewrite parse_time, H4. reflexivity. }
  destruct (negb (r4 =? L8W8JWT_SUCCESS)%Z) eqn:N4.
  { left. eexists. intros. rewrite E1. unfold mbind at 1. rewrite H1, N1. unfold mbind at 1. rewrite E2, H2, N2.
    unfold mbind at 1. rewrite parse_time, H3, N3. unfold mbind at 1. rewrite parse_time, H4, N4. reflexivity. }
  right. exists sg, c2, res, w4. intros. rewrite E1. unfold mbind at 1. rewrite H1, N1. unfold mbind at 1. rewrite E2, H2, N2.
  unfold mbind at 1. rewrite parse_time, H3, N3. unfold mbind at 1. rewrite parse_time, H4, N4. unfold mbind, lift, mret. unfold V.
  destruct (l8w8jwt_validate_claims _ _ _ _ _ _); reflexivity.
Qed.

Lemma decode_shape vn cn ln w :
  (exists X, forall t a b c, l8w8jwt_decode p (at_time e t) (Some (tolerating dp a b c)) vn cn ln w = X)
  \/ (exists cs n res fin, forall t a b c, l8w8jwt_decode p (at_time e t) (Some (tolerating dp a b c)) vn cn ln w
        = match V t a b c cs n res with
          | OK v => match fin with Ret cl w' => Ret (DecRes L8W8JWT_SUCCESS (Some v) cl) w' | Undef u => Undef u end
          | KO u => Undef u end).
Proof.
  unfold l8w8jwt_decode.
  destruct (cn && negb ln) eqn:Ec; [left; eexists; reflexivity|].
  destruct (negb (l8w8jwt_validate_decoding_params p (Some dp) =? L8W8JWT_SUCCESS)%Z) eqn:Ev.
  { left. eexists. intros. change (l8w8jwt_validate_decoding_params p (Some (tolerating dp a b c))) with (l8w8jwt_validate_decoding_params p (Some dp)).
    rewrite Ev. reflexivity. }
  assert (Ev' : forall a b c, negb (l8w8jwt_validate_decoding_params p (Some (tolerating dp a b c)) =? L8W8JWT_SUCCESS)%Z = false)
    by (intros; exact Ev).
  destruct (negb vn) eqn:En; [left; eexists; intros; cbv zeta; rewrite Ev'; reflexivity|].
  destruct (cb_init claim w) as [[c0|] w0|u] eqn:Ei.
  2:{ left. eexists. intros. cbv zeta. rewrite Ev'. unfold mbind at 1. rewrite Ei. reflexivity. }
  2:{ left. eexists. intros. cbv zeta. rewrite Ev'. unfold mbind at 1. rewrite Ei. reflexivity. }
  destruct (body_shape c0 w0) as [(X & HX)|(sg & cl & res & w1 & HB)].
  - left. eexists. intros. cbv zeta. rewrite Ev'. unfold mbind at 1. rewrite Ei. unfold mbind at 1. rewrite HX. reflexivity.
  - right. exists (CArr (Some (cb_id cl)) (cb_elems cl)), (cb_len cl), res.
    exists ((_ <- free (s_ptr (sg_header sg)) ;; _ <- free (s_ptr (sg_payload sg)) ;; _ <- free (s_ptr (sg_signature sg)) ;;
       _ <- (if negb cn || negb true then free_claims_buffer p (Some cl) else mret tt) ;;
       mret (if true && cn && ln then Some (CArr (Some (cb_id cl)) (cb_elems cl), cb_len cl) else None)) w1).
    intros. cbv zeta. rewrite Ev'. unfold mbind at 1. rewrite Ei. unfold mbind at 1. rewrite HB.
    destruct (V t a b c _ _ _) as [v|u]; [|reflexivity]. cbn [ds_rc ds_segs ds_claims ds_res].
    change (L8W8JWT_SUCCESS =? L8W8JWT_SUCCESS)%Z with true. unfold mbind.
    destruct (free _ w1) as [[] w2|]; [|reflexivity]. destruct (free _ w2) as [[] w3|]; [|reflexivity].
    destruct (free _ w3) as [[] w4|]; [|reflexivity]. destruct (negb cn || negb true); [|reflexivity].
    destruct (free_claims_buffer p (Some cl) w4) as [[] w5|]; reflexivity.
Qed.

Lemma raw_shape vn h hl pn pl sn sl w :
  (exists X, forall t a b c, l8w8jwt_decode_raw p (at_time e t) (Some (tolerating dp a b c)) vn h hl pn pl sn sl w = X)
  \/ (exists cs n res fin, forall t a b c, l8w8jwt_decode_raw p (at_time e t) (Some (tolerating dp a b c)) vn h hl pn pl sn sl w
        = match V t a b c cs n res with
          | OK v => match fin with Ret (x, y, z) w' => Ret (RawRes L8W8JWT_SUCCESS (Some v) x y z) w' | Undef u => Undef u end
          | KO u => Undef u end).
Proof.
  unfold l8w8jwt_decode_raw. rewrite decode_raw_body_eq.
  destruct (_ || _) eqn:Ec; [left; eexists; reflexivity|].
  destruct (negb (l8w8jwt_validate_decoding_params p (Some dp) =? L8W8JWT_SUCCESS)%Z) eqn:Ev.
  { left. eexists. intros. change (l8w8jwt_validate_decoding_params p (Some (tolerating dp a b c))) with (l8w8jwt_validate_decoding_params p (Some dp)).
    rewrite Ev. reflexivity. }
  assert (Ev' : forall a b c, negb (l8w8jwt_validate_decoding_params p (Some (tolerating dp a b c)) =? L8W8JWT_SUCCESS)%Z = false)
    by (intros; exact Ev).
  destruct (cb_init claim w) as [[c0|] w0|u] eqn:Ei.
  2:{ left. eexists. intros. cbv zeta. rewrite Ev'. unfold mbind at 1. rewrite Ei. reflexivity. }
  2:{ left. eexists. intros. cbv zeta. rewrite Ev'. unfold mbind at 1. rewrite Ei. reflexivity. }
  destruct (body_shape c0 w0) as [(X & HX)|(sg & cl & res & w1 & HB)].
  - left. eexists. intros. cbv zeta. rewrite Ev'. unfold mbind at 1. rewrite Ei. unfold mbind at 1. unfold mbind at 1. rewrite HX. reflexivity.
  - right. exists (CArr (Some (cb_id cl)) (cb_elems cl)), (cb_len cl), res.
    exists ((x <- give_or_free h (sg_header sg) ;; y <- give_or_free pn (sg_payload sg) ;; z <- give_or_free sn (sg_signature sg) ;;
       _ <- free_claims_buffer p (Some cl) ;; mret (x, y, z)) w1).
    intros. cbv zeta. rewrite Ev'. unfold mbind at 1. rewrite Ei. unfold mbind at 1. unfold mbind at 1. rewrite HB.
    destruct (V t a b c _ _ _) as [v|u]; [|reflexivity]. cbn [ds_rc ds_segs ds_claims ds_res]. unfold mret at 1.
    unfold mbind.
    destruct (give_or_free h _ w1) as [x w2|]; [|reflexivity]. destruct (give_or_free pn _ w2) as [y w3|]; [|reflexivity].
    destruct (give_or_free sn _ w3) as [z w4|]; [|reflexivity]. destruct (free_claims_buffer p (Some cl) w4) as [[] w5|]; reflexivity.
Qed.
End Time.

(** ** C57 *)
(** What may change of the verdict between two checks of one token, at [t] with tolerances [a] (exp),
    [b] (nbf), [c] (iat) and at [t'] with [a'], [b'], [c']: only the three time bits, and these in one
    direction each. Bit numbers as in include/l8w8jwt/decode.h:38-114. *)
Definition moved (t : Z) (a b c : N) (t' : Z) (a' b' c' : N) (v v' : N) : Prop :=
  (forall k, ~ In k [4; 5; 6]%N -> N.testbit v k = N.testbit v' k)
  /\ ((t - Z.of_N a <= t' - Z.of_N a')%Z -> N.testbit v 4 = true -> N.testbit v' 4 = true)
  /\ ((t + Z.of_N b <= t' + Z.of_N b')%Z -> N.testbit v 5 = false -> N.testbit v' 5 = false)
  /\ ((t + Z.of_N c <= t' + Z.of_N c')%Z -> N.testbit v 6 = false -> N.testbit v' 6 = false).
Definition moved_o t a b c t' a' b' c' (o o' : option N) : Prop :=
  match o, o' with
  | None, None => True
  | Some v, Some v' => moved t a b c t' a' b' c' v v'
  | _, _ => False
  end.

Lemma moved_o_self t a b c t' a' b' c' o : moved_o t a b c t' a' b' c' o o.
Proof. destruct o; cbn; auto. unfold moved. auto. Qed.
Lemma validate_moved p e dp t a b c t' a' b' c' cs n res v v' :
  l8w8jwt_validate_claims p (at_time e t) (tolerating dp a b c) cs n res = OK v ->
  l8w8jwt_validate_claims p (at_time e t') (tolerating dp a' b' c') cs n res = OK v' ->
  moved t a b c t' a' b' c' v v'.
Proof.
  intros H H'. destruct (validate_mono _ _ _ _ _ _ _ _ _ _ _ _ _ _ _ _ H H') as (A & B & C & D).
  split; [|split; [exact B|split]].
  - intros k K. apply A; intros ->; apply K; cbn; auto.
  - intros L E. specialize (C L). destruct (N.testbit v' 5); auto. rewrite C in E; auto.
  - intros L E. specialize (D L). destruct (N.testbit v' 6); auto. rewrite D in E; auto.
Qed.

(** Checking one token twice, at any two times and with any tolerances, gives the same return code, the
    same claims and the same allocations; the two verdicts differ in the time bits at most, where an
    expired token stays expired as time goes by or the tolerance shrinks, and a token that is not too
    early stays so as time goes by or the tolerance grows. *)
Theorem C57_decode_two_times p e dp vn cn ln t a b c t' a' b' c' w x w1 x' w1' :
  l8w8jwt_decode p (at_time e t) (Some (tolerating dp a b c)) vn cn ln w = Ret x w1 ->
  l8w8jwt_decode p (at_time e t') (Some (tolerating dp a' b' c')) vn cn ln w = Ret x' w1' ->
  w1 = w1' /\ dr_rc x = dr_rc x' /\ dr_claims x = dr_claims x'
  /\ moved_o t a b c t' a' b' c' (dr_valid x) (dr_valid x').
Proof.
  intros H H'. destruct (decode_shape p e dp vn cn ln w) as [(X & HX)|(cs & n & res & fin & HX)]; rewrite HX in H, H'.
  - rewrite H in H'. injection H' as -> ->. repeat split; auto. apply moved_o_self.
  - destruct (l8w8jwt_validate_claims p (at_time e t) _ cs n res) as [v|] eqn:E; [|discriminate].
    destruct (l8w8jwt_validate_claims p (at_time e t') _ cs n res) as [v'|] eqn:E'; [|discriminate].
    destruct fin as [cl w'|]; [|discriminate]. injection H as <- <-. injection H' as <- <-. repeat split; auto.
    all: apply (validate_moved _ _ _ _ _ _ _ _ _ _ _ _ _ _ _ _ E E').
Qed.
Theorem C57_decode_raw_two_times p e dp vn h hl pn pl sn sl t a b c t' a' b' c' w x w1 x' w1' :
  l8w8jwt_decode_raw p (at_time e t) (Some (tolerating dp a b c)) vn h hl pn pl sn sl w = Ret x w1 ->
  l8w8jwt_decode_raw p (at_time e t') (Some (tolerating dp a' b' c')) vn h hl pn pl sn sl w = Ret x' w1' ->
  w1 = w1' /\ rr_rc x = rr_rc x' /\ rr_header x = rr_header x' /\ rr_payload x = rr_payload x'
  /\ rr_signature x = rr_signature x' /\ moved_o t a b c t' a' b' c' (rr_valid x) (rr_valid x').
Proof.
  intros H H'. destruct (raw_shape p e dp vn h hl pn pl sn sl w) as [(X & HX)|(cs & n & res & fin & HX)]; rewrite HX in H, H'.
  - rewrite H in H'. injection H' as -> ->. repeat split; auto. apply moved_o_self.
  - destruct (l8w8jwt_validate_claims p (at_time e t) _ cs n res) as [v|] eqn:E; [|discriminate].
    destruct (l8w8jwt_validate_claims p (at_time e t') _ cs n res) as [v'|] eqn:E'; [|discriminate].
    destruct fin as [[[y1 y2] y3] w'|]; [|discriminate]. injection H as <- <-. injection H' as <- <-. repeat split; auto.
    all: apply (validate_moved _ _ _ _ _ _ _ _ _ _ _ _ _ _ _ _ E E').
Qed.

(** The times at which a token is accepted have no gap: accepted at two times, it is accepted (and
    decoding is free of undefined behaviour) at every time in between, with the same result. *)
Theorem C57_decode_interval p e dp vn cn ln t1 t2 t3 w x1 w1 x3 w3 :
  (t1 <= t2 <= t3)%Z ->
  l8w8jwt_decode p (at_time e t1) (Some dp) vn cn ln w = Ret x1 w1 -> dr_valid x1 = Some L8W8JWT_VALID ->
  l8w8jwt_decode p (at_time e t3) (Some dp) vn cn ln w = Ret x3 w3 -> dr_valid x3 = Some L8W8JWT_VALID ->
  l8w8jwt_decode p (at_time e t2) (Some dp) vn cn ln w = Ret x1 w1.
Proof.
  intros L. assert (D : dp = tolerating dp (dp_exp_tolerance dp) (dp_nbf_tolerance dp) (dp_iat_tolerance dp)) by (destruct dp; reflexivity).
  rewrite D. generalize (dp_exp_tolerance dp) (dp_nbf_tolerance dp) (dp_iat_tolerance dp). clear D. intros a b c.
  destruct (decode_shape p e dp vn cn ln w) as [(X & HX)|(cs & n & res & fin & HX)]; rewrite !HX; [auto|].
  destruct (l8w8jwt_validate_claims p (at_time e t1) _ cs n res) as [v1|] eqn:E1; [|discriminate].
  destruct (l8w8jwt_validate_claims p (at_time e t3) _ cs n res) as [v3|] eqn:E3; [|discriminate].
  destruct fin as [cl w'|]; [|discriminate]. intros H1 V1 H3 V3. injection H1 as <- <-. injection H3 as <- <-.
  cbn [dr_valid] in V1, V3. injection V1 as ->. injection V3 as ->.
  destruct (validate_between _ _ _ _ _ _ _ _ _ _ _ _ _ _ L E1 E3) as (v2 & E2). rewrite E2.
  enough (v2 = L8W8JWT_VALID) as -> by reflexivity.
  destruct (validate_moved _ _ _ _ _ _ _ _ _ _ _ _ _ _ _ _ E1 E2) as (A & _ & B & C).
  destruct (validate_moved _ _ _ _ _ _ _ _ _ _ _ _ _ _ _ _ E2 E3) as (_ & F & _ & _).
  apply N.bits_inj. intros k. unfold L8W8JWT_VALID. rewrite N.bits_0.
  destruct (N.eq_dec k 4) as [->|K4]; [destruct (N.testbit v2 4) eqn:Z; auto; discriminate (F ltac:(lia) eq_refl)|].
  destruct (N.eq_dec k 5) as [->|K5]; [apply B; [lia|reflexivity]|].
  destruct (N.eq_dec k 6) as [->|K6]; [apply C; [lia|reflexivity]|].
  rewrite <- A; [apply N.bits_0|]. cbn. intuition congruence.
Qed.

(** Non-vacuous: a token valid from 1000 to 2000, seen before, at both ends, between and after; and what a
    tolerance of 10 seconds adds at both ends. *)
Definition window : dec_params := time_params "{""nbf"":1000,""exp"":2000}" true true 0.
Definition window10 : dec_params := time_params "{""nbf"":1000,""exp"":2000}" true true 10.
Example C57_example :
  map (fun t => flags_of t window) [999; 1000; 1500; 2000; 2001]%Z = [Some 32; Some 0; Some 0; Some 0; Some 16]%N
  /\ map (fun t => flags_of t window10) [989; 990; 2010; 2011]%Z = [Some 32; Some 0; Some 0; Some 16]%N
  /\ at_time (toy_at 7) 1500 = toy_at 1500 /\ tolerating window 10 10 10 = window10.
Proof. repeat split; vm_compute; reflexivity. Qed.

Print Assumptions C57_decode_two_times.
Print Assumptions C57_decode_raw_two_times.
Print Assumptions C57_decode_interval.
