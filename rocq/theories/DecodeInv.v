(** * Inversion lemmas for the decode functions, apart from claim parsing *)
From Verif Require Import Base BaseProofs HeapProofs Util UtilProofs Claim Base64 SpecB64
  Base64EncApi Base64DecProofs Base64Api Jsmn Env Encode Decode SpecJson SpecJwa ClaimProofs UnescapeProofs
  SignProofs DecodeProofs.
From Coq Require Import ZifyBool ZifyNat ZifyN Permutation.
Ltac Zify.zify_post_hook ::= Z.div_mod_to_equations.
Local Opaque L8W8JWT_MAX_KEY_SIZE.

(** ** l8w8jwt_verify_signature *)
Definition verdict_result (res : N) (v : verdict) : Z * N :=
  match v with
  | VExit r => (r, res)
  | VFlag f => (L8W8JWT_SUCCESS, if f then N.lor res L8W8JWT_SIGNATURE_VERIFICATION_FAILURE else res)
  end.

Lemma verify_signature_inv p e dp res q n w rc res' w' :
  wf w -> l8w8jwt_verify_signature p e dp res q n w = Ret (rc, res') w' ->
  quiet w w' /\
  (((dp_alg dp = (-1)%Z \/ q = Null \/ n = 0%N) /\ rc = L8W8JWT_SUCCESS /\ res' = res)
   \/ exists b sig v, dp_alg dp <> (-1)%Z /\ q = Ptr b sig /\ n <> 0%N
        /\ verify_body p e dp sig n = OK v /\ (rc, res') = verdict_result res v).
Proof.
  intros Hwf H. unfold l8w8jwt_verify_signature in H.
  destruct (Z.eqb_spec (dp_alg dp) (-1)) as [Ea|Ea]; cbn [orb] in H.
  { inversion H; subst. split; [apply quiet_refl|]. auto. }
  destruct q as [|b sig]; cbn [is_null orb] in H.
  { inversion H; subst. split; [apply quiet_refl|]. auto. }
  destruct (N.eqb_spec n 0) as [En|En].
  { inversion H; subst. split; [apply quiet_refl|]. auto 6. }
  fold (verdict_result res) in H. cbv zeta in H. destruct (p_small_stack p).
  - minvas H as k w1 H1. rewrite calloc_eq in H1. destruct (w_alloc w (w_next w)); inversion H1; subst; clear H1.
    + cbn [is_null] in H. minvas H as v w2 H2. minvas H2 as s w3 H3. apply lift_inv in H3 as [H3 ->].
      apply lift_inv in H2 as [H2 ->]. minvas H as u w4 Hz. unfold zeroize in Hz. rewrite repeat_length in Hz.
      destruct (negb _); [discriminate|]. destruct (w_live (w_ok w) (w_next w)); inversion Hz; subst. clear Hz.
      minvas H as u w5 Hf. cbn [free] in Hf. apply free_id_inv in Hf as [_ ->]. inversion H; subst. clear H.
      split; [apply quiet_alloc_free; auto using quiet_refl|]. right. exists b, sig, v.
      cbn [deref] in H3. inversion H3; subst. auto 8.
    + minvas H as v w2 H2. minvas H as u w3 Hz. cbn [zeroize] in Hz. discriminate.
  - minvas H as s w1 H1. apply lift_inv in H1 as [H1 ->]. minvas H as v w1 H2. apply lift_inv in H2 as [H2 ->].
    inversion H; subst. split; [apply quiet_refl|]. right. exists b, sig, v. cbn [deref] in H1. inversion H1; subst.
    auto 8.
Qed.

(** ** The successful path *)
Definition decode_steps (p : platform) (e : env) (dp : dec_params) (c0 : chillbuff claim) (w : world)
           (st : dec_state) (w' : world) : Prop :=
  exists sg w1 res1 w2 c1 w3 c2 res2,
    l8w8jwt_decode_segments p dp w = Ret (L8W8JWT_SUCCESS, sg) w1
    /\ l8w8jwt_verify_signature p e dp L8W8JWT_VALID (s_ptr (sg_signature sg)) (s_len (sg_signature sg)) w1
       = Ret (L8W8JWT_SUCCESS, res1) w2
    /\ l8w8jwt_parse_claims p e c0 (s_ptr (sg_header sg)) (s_len (sg_header sg)) w2 = Ret (L8W8JWT_SUCCESS, c1) w3
    /\ l8w8jwt_parse_claims p e c1 (s_ptr (sg_payload sg)) (s_len (sg_payload sg)) w3 = Ret (L8W8JWT_SUCCESS, c2) w'
    /\ l8w8jwt_validate_claims p e dp (CArr (Some (cb_id c2)) (cb_elems c2)) (cb_len c2) res1 = OK res2
    /\ st = DecState L8W8JWT_SUCCESS sg c2 res2.

Lemma decode_body_success p e dp c0 w st w' :
  decode_body p e dp c0 w = Ret st w' -> ds_rc st = L8W8JWT_SUCCESS -> decode_steps p e dp c0 w st w'.
Proof.
  intros H Hrc. unfold decode_body in H.
  minvas H as [r sg] w1 H1. destruct (Z.eqb_spec r L8W8JWT_SUCCESS) as [->|Er]; cbn [negb] in H;
    [|inversion H; subst; cbn [ds_rc dr_rc rr_rc] in Hrc; congruence].
  minvas H as [r res1] w2 H2. destruct (Z.eqb_spec r L8W8JWT_SUCCESS) as [->|Er]; cbn [negb] in H;
    [|inversion H; subst; cbn [ds_rc dr_rc rr_rc] in Hrc; congruence].
  minvas H as [r c1] w3 H3. destruct (Z.eqb_spec r L8W8JWT_SUCCESS) as [->|Er]; cbn [negb] in H;
    [|inversion H; subst; discriminate].
  minvas H as [r c2] w4 H4. destruct (Z.eqb_spec r L8W8JWT_SUCCESS) as [->|Er]; cbn [negb] in H;
    [|inversion H; subst; discriminate].
  minvas H as res2 w5 H5. apply lift_inv in H5 as [H5 ->]. inversion H; subst.
  exists sg, w1, res1, w2, c1, w3, c2, res2. auto 8.
Qed.

Lemma decode_raw_body_eq : decode_raw_body = decode_body.
Proof. reflexivity. Qed.

Lemma cb_init_inv A w o w' : cb_init A w = Ret o w' ->
  (o = Some (CB (w_next w) []) /\ w_alloc w (w_next w) = true /\ w' = w_ok w)
  \/ (o = None /\ w_alloc w (w_next w) = false /\ w' = w_no w).
Proof. rewrite cb_init_eq. destruct (w_alloc w (w_next w)); intros H; inversion H; auto. Qed.

(** What l8w8jwt_decode returns with SUCCESS comes from the successful path. *)
Lemma decode_success p e params vn cn ln w r w' :
  l8w8jwt_decode p e params vn cn ln w = Ret r w' -> dr_rc r = L8W8JWT_SUCCESS ->
  exists dp st w1, params = Some dp /\ vn = true /\ (cn = true -> ln = true)
    /\ l8w8jwt_validate_decoding_params p params = L8W8JWT_SUCCESS
    /\ w_alloc w (w_next w) = true
    /\ decode_steps p e dp (CB (w_next w) []) (w_ok w) st w1
    /\ dr_valid r = Some (ds_res st)
    /\ dr_claims r = (if cn && ln then Some (CArr (Some (cb_id (ds_claims st))) (cb_elems (ds_claims st)),
                                             cb_len (ds_claims st)) else None).
Proof.
  intros H Hrc. unfold l8w8jwt_decode in H. destruct params as [dp|]; [|inversion H; subst; discriminate].
  destruct (cn && negb ln) eqn:Ec; [inversion H; subst; discriminate|].
  destruct (Z.eqb_spec (l8w8jwt_validate_decoding_params p (Some dp)) L8W8JWT_SUCCESS) as [Ev|Ev]; cbn [negb] in H;
    [|exfalso; apply Ev; rewrite <- Hrc; unfold mret in H;
      assert (E : r = DecRes (l8w8jwt_validate_decoding_params p (Some dp)) None None) by congruence;
      rewrite E; reflexivity].
  destruct vn; cbn [negb] in H; [|inversion H; subst; discriminate].
  minvas H as o w1 H1. apply cb_init_inv in H1 as [(-> & Ha & ->)|(-> & Ha & ->)].
  2:{ minv H. inversion H; subst. discriminate. }
  minvas H as st w1 H1. minvas H as u2 w2 H2. minvas H as u3 w3 H3. minvas H as u4 w4 H4.
  minvas H as u5 w5 H5. inversion H; subst. clear H. simpl in Hrc. rewrite Hrc in *.
  apply decode_body_success in H1; auto.
  exists dp, st, w1. split; [reflexivity|]. split; [reflexivity|]. split; [destruct cn, ln; auto|].
  split; [exact Ev|]. split; [exact Ha|]. split; [exact H1|]. split; reflexivity.
Qed.

Lemma decode_raw_success p e params vn hn hl pn pl sn sl w r w' :
  l8w8jwt_decode_raw p e params vn hn hl pn pl sn sl w = Ret r w' -> rr_rc r = L8W8JWT_SUCCESS ->
  exists dp st w1, params = Some dp /\ vn = true
    /\ l8w8jwt_validate_decoding_params p params = L8W8JWT_SUCCESS
    /\ w_alloc w (w_next w) = true
    /\ decode_steps p e dp (CB (w_next w) []) (w_ok w) st w1
    /\ rr_valid r = Some (ds_res st)
    /\ rr_header r = (if hn then Some (sg_header (ds_segs st)) else None)
    /\ rr_payload r = (if pn then Some (sg_payload (ds_segs st)) else None)
    /\ rr_signature r = (if sn then Some (sg_signature (ds_segs st)) else None).
Proof.
  intros H Hrc. unfold l8w8jwt_decode_raw in H. destruct params as [dp|]; [|inversion H; subst; discriminate].
  destruct vn; cbn [negb orb] in H; [|inversion H; subst; discriminate].
  destruct (_ || _ || _); [inversion H; subst; discriminate|].
  destruct (Z.eqb_spec (l8w8jwt_validate_decoding_params p (Some dp)) L8W8JWT_SUCCESS) as [Ev|Ev]; cbn [negb] in H;
    [|exfalso; apply Ev; rewrite <- Hrc; unfold mret in H;
      assert (E : r = RawRes (l8w8jwt_validate_decoding_params p (Some dp)) None None None None) by congruence;
      rewrite E; reflexivity].
  minvas H as o w1 H1. apply cb_init_inv in H1 as [(-> & Ha & ->)|(-> & Ha & ->)].
  2:{ minvas H as [[[rc sg] res] b] w1 H1. inversion H1; subst. clear H1.
      minv H. minv H. minv H. minv H. inversion H; subst. discriminate. }
  minvas H as [[[rc sg] res] b] w1 H1. minvas H1 as st w2 H2. inversion H1; subst. clear H1.
  minvas H as h w3 H3. minvas H as q w4 H4. minvas H as s w5 H5. minvas H as u w6 H6.
  inversion H; subst. clear H. simpl in Hrc. rewrite Hrc.
  rewrite decode_raw_body_eq in H2. apply decode_body_success in H2; auto.
  assert (G : forall nn s w o w', give_or_free nn s w = Ret o w' -> o = if nn then Some s else None).
  { clear. intros nn s w o w' H. unfold give_or_free in H. destruct nn; [inversion H; reflexivity|].
    minv H. inversion H. reflexivity. }
  apply G in H3. apply G in H4. apply G in H5.
  exists dp, st, w1. split; [reflexivity|]. split; [reflexivity|].
  split; [exact Ev|]. split; [exact Ha|]. split; [exact H2|]. split; [reflexivity|]. auto.
Qed.

(** What the decode functions leave behind when they fail. *)
Lemma decode_failure p e params vn cn ln w r w' :
  l8w8jwt_decode p e params vn cn ln w = Ret r w' -> dr_rc r <> L8W8JWT_SUCCESS ->
  (dr_valid r = None \/ dr_valid r = Some NOT_VALID) /\ dr_claims r = None.
Proof.
  intros H Hrc. unfold l8w8jwt_decode in H. destruct params as [dp|]; [|inversion H; subst; auto].
  destruct (cn && negb ln) eqn:Ec; [inversion H; subst; auto|].
  destruct (negb (l8w8jwt_validate_decoding_params p (Some dp) =? L8W8JWT_SUCCESS)%Z).
  { unfold mret in H. assert (E : r = DecRes (l8w8jwt_validate_decoding_params p (Some dp)) None None) by congruence.
    rewrite E. auto. }
  destruct vn; cbn [negb] in H; [|inversion H; subst; auto].
  minvas H as o w1 H1. destruct o as [claims|].
  2:{ minv H. inversion H; subst. auto. }
  minvas H as st w2 H2. minv H. minv H. minv H. minv H. inversion H; subst. clear H. simpl in *.
  apply Z.eqb_neq in Hrc. rewrite Hrc. auto.
Qed.
Lemma decode_raw_failure p e params vn hn hl pn pl sn sl w r w' :
  l8w8jwt_decode_raw p e params vn hn hl pn pl sn sl w = Ret r w' -> rr_rc r <> L8W8JWT_SUCCESS ->
  rr_valid r = None \/ rr_valid r = Some NOT_VALID.
Proof.
  intros H Hrc. unfold l8w8jwt_decode_raw in H. destruct params as [dp|]; [|inversion H; subst; auto].
  destruct (_ || _ || _ || _); [inversion H; subst; auto|].
  destruct (negb (l8w8jwt_validate_decoding_params p (Some dp) =? L8W8JWT_SUCCESS)%Z).
  { unfold mret in H. assert (E : r = RawRes (l8w8jwt_validate_decoding_params p (Some dp)) None None None None) by congruence.
    rewrite E. auto. }
  minv H. minvas H as [[[rc sg] res] b] w2 H2. minv H. minv H. minv H. minv H. inversion H; subst. simpl in *.
  apply Z.eqb_neq in Hrc. rewrite Hrc. auto.
Qed.

(** ** Validation only adds its own flags *)
Lemma flag_if_inv b chk fl res r : flag_if b chk fl res = OK r ->
  exists x, (b = false -> x = false) /\ (b = true -> chk = OK x) /\ r = if x then N.lor res fl else res.
Proof.
  unfold flag_if. destruct b.
  - intros H. apply ubind_inv in H as (x & Hx & H). inversion H; subst. exists x.
    split; [discriminate|]. auto.
  - intros H. inversion H; subst. exists false. split; auto. split; [discriminate|reflexivity].
Qed.

Definition bitf (n : N) (f : bool) : N := if f then n else 0%N.
(** The verdicts of the eight checks, and the result they make. *)
Lemma validate_claims_inv p e dp cs n res r :
  l8w8jwt_validate_claims p e dp cs n res = OK r ->
  exists fsub faud fiss fjti fexp fnbf fiat ftyp,
    r = N.lor (N.lor (N.lor (N.lor (N.lor (N.lor (N.lor (N.lor res (bitf 2 fsub)) (bitf 4 faud)) (bitf 1 fiss))
          (bitf 8 fjti)) (bitf 16 fexp)) (bitf 32 fnbf)) (bitf 64 fiat)) (bitf 256 ftyp)
    /\ (if is_null (dp_validate_sub dp) then fsub = false
        else string_check cs n "sub" (dp_validate_sub dp) (dp_validate_sub_length dp) = OK fsub)
    /\ (if is_null (dp_validate_aud dp) then faud = false
        else string_check cs n "aud" (dp_validate_aud dp) (dp_validate_aud_length dp) = OK faud)
    /\ (if is_null (dp_validate_iss dp) then fiss = false
        else string_check cs n "iss" (dp_validate_iss dp) (dp_validate_iss_length dp) = OK fiss)
    /\ (if is_null (dp_validate_jti dp) then fjti = false
        else string_check cs n "jti" (dp_validate_jti dp) (dp_validate_jti_length dp) = OK fjti)
    /\ (if dp_validate_exp dp
        then time_check cs n "exp" (e_time e - Z.of_N (dp_exp_tolerance dp))%Z (fun now v => (v <? now)%Z) = OK fexp
        else fexp = false)
    /\ (if dp_validate_nbf dp
        then time_check cs n "nbf" (e_time e + Z.of_N (dp_nbf_tolerance dp))%Z (fun now v => (now <? v)%Z) = OK fnbf
        else fnbf = false)
    /\ (if dp_validate_iat dp
        then time_check cs n "iat" (e_time e + Z.of_N (dp_iat_tolerance dp))%Z (fun now v => (now <? v)%Z) = OK fiat
        else fiat = false)
    /\ (if is_null (dp_validate_typ dp) then ftyp = false
        else typ_check p cs n (dp_validate_typ dp) (dp_validate_typ_length dp) = OK ftyp).
Proof.
  intros H. unfold l8w8jwt_validate_claims in H.
  assert (B : forall res fl (x : bool), (if x then N.lor res fl else res) = N.lor res (bitf fl x)).
  { intros a fl []; simpl; [reflexivity|rewrite N.lor_0_r; reflexivity]. }
  apply ubind_inv in H as (r1 & H1 & H). apply ubind_inv in H as (r2 & H2 & H).
  apply ubind_inv in H as (r3 & H3 & H). apply ubind_inv in H as (r4 & H4 & H).
  apply ubind_inv in H as (r5 & H5 & H). apply ubind_inv in H as (r6 & H6 & H).
  apply ubind_inv in H as (r7 & H7 & H).
  apply flag_if_inv in H1 as (f1 & A1 & B1 & ->). apply flag_if_inv in H2 as (f2 & A2 & B2 & ->).
  apply flag_if_inv in H3 as (f3 & A3 & B3 & ->). apply flag_if_inv in H4 as (f4 & A4 & B4 & ->).
  apply flag_if_inv in H5 as (f5 & A5 & B5 & ->). apply flag_if_inv in H6 as (f6 & A6 & B6 & ->).
  apply flag_if_inv in H7 as (f7 & A7 & B7 & ->). apply flag_if_inv in H as (f8 & A8 & B8 & ->).
  rewrite !B. exists f1, f2, f3, f4, f5, f6, f7, f8. split; [reflexivity|].
  destruct (is_null (dp_validate_sub dp)), (is_null (dp_validate_aud dp)), (is_null (dp_validate_iss dp)),
    (is_null (dp_validate_jti dp)), (dp_validate_exp dp), (dp_validate_nbf dp), (dp_validate_iat dp),
    (is_null (dp_validate_typ dp)); repeat (split; [first [apply A1|apply B1|apply A2|apply B2|apply A3|apply B3
      |apply A4|apply B4|apply A5|apply B5|apply A6|apply B6|apply A7|apply B7]; reflexivity|]);
    first [apply A8; reflexivity|apply B8; reflexivity].
Qed.

(** Bits of a combination of flags. *)
Lemma lor_flags_testbit res f1 f2 f3 f4 f5 f6 f7 f8 k :
  N.testbit (N.lor (N.lor (N.lor (N.lor (N.lor (N.lor (N.lor (N.lor res (bitf 2 f1)) (bitf 4 f2)) (bitf 1 f3))
          (bitf 8 f4)) (bitf 16 f5)) (bitf 32 f6)) (bitf 64 f7)) (bitf 256 f8)) k
  = (N.testbit res k || (f1 && (k =? 1)%N) || (f2 && (k =? 2)%N) || (f3 && (k =? 0)%N) || (f4 && (k =? 3)%N)
     || (f5 && (k =? 4)%N) || (f6 && (k =? 5)%N) || (f7 && (k =? 6)%N) || (f8 && (k =? 8)%N))%bool.
Proof.
  rewrite !N.lor_spec.
  assert (B : forall i f, N.testbit (bitf (2 ^ i) f) k = f && (k =? i)%N).
  { intros i []; unfold bitf; cbn [andb]; [|apply N.bits_0]. rewrite N.pow2_bits_eqb. apply N.eqb_sym. }
  change (bitf 2 f1) with (bitf (2 ^ 1) f1). change (bitf 4 f2) with (bitf (2 ^ 2) f2).
  change (bitf 1 f3) with (bitf (2 ^ 0) f3). change (bitf 8 f4) with (bitf (2 ^ 3) f4).
  change (bitf 16 f5) with (bitf (2 ^ 4) f5). change (bitf 32 f6) with (bitf (2 ^ 5) f6).
  change (bitf 64 f7) with (bitf (2 ^ 6) f7). change (bitf 256 f8) with (bitf (2 ^ 8) f8).
  rewrite !B. reflexivity.
Qed.

(** The signature flag of the result is that of the verification. *)
Lemma validate_claims_bit7 p e dp cs n res r :
  l8w8jwt_validate_claims p e dp cs n res = OK r -> N.testbit r 7 = N.testbit res 7.
Proof.
  intros H. apply validate_claims_inv in H as (f1 & f2 & f3 & f4 & f5 & f6 & f7 & f8 & -> & _).
  rewrite lor_flags_testbit. cbn [N.eqb Pos.eqb]. rewrite !andb_false_r, !orb_false_r. reflexivity.
Qed.
