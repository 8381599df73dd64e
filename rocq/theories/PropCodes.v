(** * Property C69: the return codes of the decoding functions name what went wrong *)
From Verif Require Import Base BaseProofs HeapProofs Util UtilProofs Claim Base64 SpecB64
  Base64EncProofs Base64EncApi Base64DecProofs Base64Api Jsmn Env Encode Decode SpecJson SpecJwa ClaimProofs UnescapeProofs
  EncodeProofs SignProofs EncodeTotal SpecEnc JsonProofs PropEncode DecodeProofs DecodeInv JsmnProofs ParseProofs
  PropClaim ReadProofs ValidateProofs JsmnJson JsmnSize PropVerify PropValidate PropLeak PropJson DecodeTotal DecodeOk
  PropSafe PropRoundTrip CodeProofs.
From Coq Require Import ZifyBool ZifyNat ZifyN.
Ltac Zify.zify_post_hook ::= Z.div_mod_to_equations.
Local Opaque L8W8JWT_MAX_KEY_SIZE.

(** ** Notions *)
(** [t] is not the base64url text of anything. *)
Definition not_base64url (t : bytes) : Prop := forall o, o <> [] -> t <> rfc4648_unpadded true o.
(** [t] does not stand for a JSON object of at most 62 tokens (or, if larger, not ending in a container). *)
Definition not_an_object (t : bytes) : Prop :=
  forall o tail ms, url_decodes t o tail -> object_text o ms -> ~ fits o ms.
(** The header or the payload of the token text [j]. *)
Definition json_part (j t : bytes) : Prop :=
  (exists h pl s, parts3 j h pl s /\ (t = h \/ t = pl)) \/ (exists h pl, parts2 j h pl /\ (t = h \/ t = pl)).
(** The public-key algorithms: RS, PS, ES. *)
Definition asymmetric (jw : jwa) : Prop :=
  match j_family jw with RS | PS | ES _ _ _ => True | HS | ED => False end.
Definition elliptic (jw : jwa) : Prop := match j_family jw with ES _ _ _ => True | _ => False end.

(** The events the codes of include/l8w8jwt/retcodes.h are documented to stand for, for the arguments [dp]
    whose token text is [j] and key is [k]; [nulls]: a mandatory output pointer is NULL. [lacks_memory w w']: an
    allocation failed during the call. *)
Inductive dec_cause (p : platform) (e : env) (dp : dec_params) (j k : bytes) (nulls : Prop) (w w' : world) : Z -> Prop :=
| DC_success : ~ lacks_memory w w' -> dec_cause p e dp j k nulls w w' 0
| DC_null_arg : dp_jwt dp = Null \/ dp_verification_key dp = Null \/ nulls -> dec_cause p e dp j k nulls w w' 100
| DC_invalid_arg : dp_jwt_length dp = 0%N \/ dp_verification_key_length dp = 0%N
    \/ (8192 < dp_verification_key_length dp)%N -> dec_cause p e dp j k nulls w w' 200
| DC_unsupported : dp_alg dp = 13%Z -> p_eddsa p = false -> dec_cause p e dp j k nulls w w' 800
| DC_out_of_mem : lacks_memory w w' -> dec_cause p e dp j k nulls w w' 300
| DC_missing_signature h pl : dp_alg dp <> (-1)%Z -> parts2 j h pl -> dec_cause p e dp j k nulls w w' 700
| DC_base64 t : segment dp j t -> not_base64url t -> dec_cause p e dp j k nulls w w' 425
| DC_certificate : certificate k -> e_x509_parse e (pem_text k) = None -> dec_cause p e dp j k nulls w w' 420
| DC_public_key jw : supported (dp_alg dp) jw -> asymmetric jw -> (forall pk, ~ public_key_of e k pk) ->
    dec_cause p e dp j k nulls w w' 420
| DC_ec_key jw pk : supported (dp_alg dp) jw -> elliptic jw -> public_key_of e k pk ->
    e_ecdsa_from_keypair e pk = false -> dec_cause p e dp j k nulls w w' 420
| DC_sha2 jw h pl s : supported (dp_alg dp) jw -> asymmetric jw -> parts3 j h pl s ->
    e_md e (j_hash jw) (h ++ lit "." ++ pl) = None -> dec_cause p e dp j k nulls w w' 410
| DC_wrong_key : dp_alg dp = 13%Z -> length (hmac_key k) <> 64%nat -> dec_cause p e dp j k nulls w w' 450
| DC_no_dot : no_dot j -> dec_cause p e dp j k nulls w w' 600
| DC_not_json t : json_part j t -> not_an_object t -> dec_cause p e dp j k nulls w w' 600.

(** The caller's token text and key, unless the pointers are NULL. *)
Definition token_given (p : platform) (dp : dec_params) (j : bytes) : Prop := dp_jwt dp = Null \/ c_text p dp j.
Definition key_given (dp : dec_params) (k : bytes) : Prop :=
  dp_verification_key dp = Null \/ caller_key (dp_verification_key dp) (dp_verification_key_length dp) k.

(** ** Lemmas *)
Lemma undecodable_not t : undecodable t -> not_base64url t.
Proof. intros H o Ho ->. destruct (text_b64_decodes o Ho) as (tail & Hd). exact (H _ _ Hd). Qed.
Lemma asym_range alg jw : supported alg jw -> (asymmetric jw <-> (3 <= alg <= 12)%Z) /\ (elliptic jw <-> (9 <= alg <= 12)%Z).
Proof.
  intros [Hin <-]. simpl in Hin. decompose [or] Hin; try contradiction; subst; cbn; lia.
Qed.
Lemma verify_cause p e dp j k nulls w w' h pl s rc : parts3 j h pl s ->
  verify_code p e (dp_alg dp) k (h ++ lit "." ++ pl) rc -> dec_cause p e dp j k nulls w w' rc.
Proof.
  intros P3 H. assert (Sup : (3 <= dp_alg dp <= 12)%Z -> exists jw, supported (dp_alg dp) jw /\ asymmetric jw).
  { intros R. destruct (supported_exists (dp_alg dp)) as (jw & Hj); [lia|]. exists jw. split; [exact Hj|]. apply (asym_range _ _ Hj). exact R. }
  destruct H as [(-> & C & X)|[(-> & R & N)|[(-> & R & pk & Hp & X)|[(-> & R & jw & Hj & X)|[(-> & R & X)|(-> & R & X)]]]]].
  - apply DC_certificate; assumption.
  - destruct (Sup R) as (jw & Hj & A). eapply DC_public_key; eauto.
  - destruct (Sup ltac:(lia)) as (jw & Hj & _). eapply DC_ec_key; eauto. apply (asym_range _ _ Hj). exact R.
  - eapply DC_sha2; eauto. apply (asym_range _ _ Hj). exact R.
  - apply DC_wrong_key; assumption.
  - apply DC_unsupported; assumption.
Qed.
Lemma unread_not_object e t o tail : uses_jsmn e -> checknum_right e -> b64_decodes t o tail ->
  (forall es, ~ reads e (o ++ tail) (N.of_nat (length o)) es) -> not_an_object t.
Proof.
  intros Hj Hc Hd N o' tail' ms Hu Ho Hf. apply url_b64_decodes in Hu. destruct (b64_decodes_fun _ _ _ _ _ Hd Hu) as [<- <-].
  destruct (object_reads e o ms tail Hj Hc Ho Hf) as [R _]. exact (N _ R).
Qed.
(** What is known at the [exit] label: the code's cause, and that a lack of memory shows. *)
Definition coded p e dp j k nulls w w' rc : Prop :=
  (dec_cause p e dp j k nulls w w' rc \/ (rc = 600%Z /\ lacks_memory w w'))
  /\ (lacks_memory w w' -> rc = 300%Z \/ rc = 600%Z).
Lemma dec_cause_mem p e dp j k nulls a b a' b' rc : (lacks_memory a b <-> lacks_memory a' b') ->
  dec_cause p e dp j k nulls a b rc -> dec_cause p e dp j k nulls a' b' rc.
Proof.
  intros E H. destruct H; [apply DC_success; tauto|apply DC_null_arg; assumption|apply DC_invalid_arg; assumption
    |apply DC_unsupported; assumption|apply DC_out_of_mem; tauto|eapply DC_missing_signature; eauto|eapply DC_base64; eauto
    |apply DC_certificate; assumption|eapply DC_public_key; eauto|eapply DC_ec_key; eauto|eapply DC_sha2; eauto
    |apply DC_wrong_key; assumption|apply DC_no_dot; assumption|eapply DC_not_json; eauto].
Qed.
Lemma coded_later p e dp j k nulls w w1 w2 rc : fwd w w1 -> served w1 w2 ->
  coded p e dp j k nulls w w1 rc -> coded p e dp j k nulls w w2 rc.
Proof.
  intros F [F2 N2] (H & H2). pose proof (lacks_split w w1 w2 F F2) as E.
  assert (E' : lacks_memory w w1 <-> lacks_memory w w2) by tauto.
  split; [|tauto]. destruct H as [H|[H3 H]]; [left; eapply dec_cause_mem; eauto|right; tauto].
Qed.
Lemma coded_earlier p e dp j k nulls w w1 w2 rc : served w w1 -> fwd w1 w2 ->
  coded p e dp j k nulls w1 w2 rc -> coded p e dp j k nulls w w2 rc.
Proof.
  intros [F1 N1] F (H & H2). pose proof (lacks_split w w1 w2 F1 F) as E.
  assert (E' : lacks_memory w1 w2 <-> lacks_memory w w2) by tauto.
  split; [|tauto]. destruct H as [H|[H3 H]]; [left; eapply dec_cause_mem; eauto|right; tauto].
Qed.
Lemma coded_nulls p e dp j k (n1 n2 : Prop) w w' rc : (n1 -> n2) -> coded p e dp j k n1 w w' rc -> coded p e dp j k n2 w w' rc.
Proof.
  intros I (H & H2). split; [|exact H2]. destruct H as [H|H]; [left|right; exact H].
  destruct H; [apply DC_success; tauto|apply DC_null_arg; tauto|apply DC_invalid_arg; assumption
    |apply DC_unsupported; assumption|apply DC_out_of_mem; tauto|eapply DC_missing_signature; eauto|eapply DC_base64; eauto
    |apply DC_certificate; assumption|eapply DC_public_key; eauto|eapply DC_ec_key; eauto|eapply DC_sha2; eauto
    |apply DC_wrong_key; assumption|apply DC_no_dot; assumption|eapply DC_not_json; eauto].
Qed.

Lemma cut_cause p e dp j k nulls w w' rc : cut_code dp j rc -> dec_cause p e dp j k nulls w w' rc.
Proof.
  intros [(-> & H)|[(-> & Ha & h & pl & H)|(-> & t & H & U)]].
  - apply DC_no_dot, H.
  - eapply DC_missing_signature; eauto.
  - eapply DC_base64; [exact H|apply undecodable_not, U].
Qed.
Lemma served_coded p e dp j k nulls w w' rc : served w w' -> dec_cause p e dp j k nulls w w' rc -> coded p e dp j k nulls w w' rc.
Proof. intros [_ N] H. split; [left; exact H|]. intros C. contradiction. Qed.

Lemma body_coded p e dp j k nulls id w st w' :
  wf w -> uses_jsmn e -> checknum_right e -> (32 <= p_size_bits p)%N -> c_text p dp j ->
  caller_key (dp_verification_key dp) (dp_verification_key_length dp) k ->
  decode_body p e dp (CB id []) w = Ret st w' -> fwd w w' /\ coded p e dp j k nulls w w' (ds_rc st).
Proof.
  intros Hwf Hj Hc Hp Ht Hck H. unfold decode_body in H.
  minvas H as [rc sg] w1 H1.
  assert (W1 : wf w1) by (apply decode_segments_inv in H1 as (A & _); [eapply adds_wf; eauto|exact Hwf]).
  pose proof (segments_code _ _ _ _ _ _ _ Hwf Ht H1) as K.
  destruct K as [(-> & S1)|[(-> & S1)|(S1 & Nz & K)]].
  2:{ injection H as <- <-. cbn [ds_rc]. split; [apply S1|]. split; [left; apply DC_out_of_mem, S1|auto]. }
  2:{ destruct (Z.eqb_spec rc L8W8JWT_SUCCESS) as [E|E]; [contradiction|]. cbn [negb] in H. injection H as <- <-. cbn [ds_rc].
      split; [apply S1|]. apply served_coded; [exact S1|]. apply cut_cause, K. }
  apply decode_segments_inv in H1 as (_ & _ & Hok); [|exact Hwf]. specialize (Hok eq_refl).
  change (negb (0 =? L8W8JWT_SUCCESS)%Z) with false in H. cbv iota in H.
  minvas H as [rc2 res] w2 H2. pose proof (verify_served _ _ _ _ _ _ _ _ _ H2) as S2.
  assert (S12 : served w w2) by (eapply served_trans; eauto).
  apply verify_signature_inv in H2 as [Q2 V2]; [|exact W1].
  assert (W2 : wf w2) by (eapply adds_wf; [apply adds_quiet; exact Q2|exact W1]).
  assert (K : exists h pl, json_part j h /\ json_part j pl /\ seg_of h (sg_header sg) /\ seg_of pl (sg_payload sg)
    /\ (rc2 = 0%Z \/ forall wa wb, dec_cause p e dp j k nulls wa wb rc2)).
  { destruct (segments_cut p dp j sg Ht Hok) as [(b & rest & h & pl & s & Ej & P3 & T3 & Sh & Sp & Ss)|(Ea & Ss & h & pl & P2 & Sh & Sp)];
      exists h, pl; (split; [unfold json_part; eauto 9|]); (split; [unfold json_part; eauto 9|]); (split; [exact Sh|]); (split; [exact Sp|]).
    - destruct V2 as [(_ & V2 & _)|(b' & sig & v & Ha & Eq & Hn & Hv & V2)]; [left; exact V2|].
      destruct v as [r|f]; cbn [verdict_result] in V2; injection V2 as -> ->; [right|left; reflexivity].
      intros wa wb. eapply verify_cause; [exact P3|]. eapply verify_body_exit; eauto.
    - left. destruct V2 as [(_ & V2 & _)|(b' & sig & v & Ha & _)]; [exact V2|contradiction]. }
  destruct K as (h & pl & Jh & Jp & Sh & Sp & K).
  destruct (Z.eqb_spec rc2 L8W8JWT_SUCCESS) as [E2|E2]; cbn [negb] in H.
  2:{ injection H as <- <-. cbn [ds_rc]. split; [apply S12|]. apply served_coded; [exact S12|].
      destruct K as [K|K]; [contradiction|apply K]. }
  clear K V2. destruct Sh as (i1 & o1 & t1 & D1 & E1). destruct Sp as (i2 & o2 & t2 & D2 & E3). rewrite E1, E3 in H.
  cbn [s_ptr s_len] in H. minvas H as [rc3 c3] w3 H3. apply parse_code in H3; auto.
  destruct H3 as [(-> & S3)|[(N3 & S3)|(N3 & S3 & R3)]].
  2:{ apply Z.eqb_neq in N3. change L8W8JWT_SUCCESS with 0%Z in H. rewrite N3 in H. injection H as <- <-. cbn [ds_rc].
      pose proof (served_starved _ _ _ S12 S3) as S. split; [apply S|]. split; [right; split; [reflexivity|apply S]|auto]. }
  2:{ apply Z.eqb_neq in N3. change L8W8JWT_SUCCESS with 0%Z in H. rewrite N3 in H. injection H as <- <-. cbn [ds_rc].
      pose proof (served_trans _ _ _ S12 S3) as S. split; [apply S|]. apply served_coded; [exact S|].
      eapply DC_not_json; [exact Jh|]. eapply unread_not_object; eauto. }
  change (negb (0 =? L8W8JWT_SUCCESS)%Z) with false in H. cbv iota in H.
  minvas H as [rc4 c4] w4 H4. apply parse_code in H4; auto. pose proof (served_trans _ _ _ S12 S3) as S13.
  destruct H4 as [(-> & S4)|[(N4 & S4)|(N4 & S4 & R4)]].
  2:{ apply Z.eqb_neq in N4. change L8W8JWT_SUCCESS with 0%Z in H. rewrite N4 in H. injection H as <- <-. cbn [ds_rc].
      pose proof (served_starved _ _ _ S13 S4) as S. split; [apply S|]. split; [right; split; [reflexivity|apply S]|auto]. }
  2:{ apply Z.eqb_neq in N4. change L8W8JWT_SUCCESS with 0%Z in H. rewrite N4 in H. injection H as <- <-. cbn [ds_rc].
      pose proof (served_trans _ _ _ S13 S4) as S. split; [apply S|]. apply served_coded; [exact S|].
      eapply DC_not_json; [exact Jp|]. eapply unread_not_object; eauto. }
  change (negb (0 =? L8W8JWT_SUCCESS)%Z) with false in H. cbv iota in H.
  minvas H as v w5 H5. apply lift_inv in H5 as [_ ->]. injection H as <- <-. cbn [ds_rc].
  pose proof (served_trans _ _ _ S13 S4) as S. split; [apply S|]. apply served_coded; [exact S|]. apply DC_success, S.
Qed.

Lemma params_cause p e dp j k nulls w w' rc :
  l8w8jwt_validate_decoding_params p (Some dp) = rc -> rc <> 0%Z -> dec_cause p e dp j k nulls w w' rc.
Proof.
  unfold l8w8jwt_validate_decoding_params. intros <- N. destruct (_ || _) eqn:E1.
  { apply DC_null_arg. apply orb_prop in E1 as [E1|E1]; [left; destruct (dp_jwt dp)|right; left; destruct (dp_verification_key dp)]; auto; discriminate. }
  destruct (_ || _ || _) eqn:E2.
  { apply DC_invalid_arg. change L8W8JWT_MAX_KEY_SIZE with 8192%N in E2. apply orb_prop in E2 as [E2|E2]; [apply orb_prop in E2 as [E2|E2]; apply N.eqb_eq in E2|apply N.ltb_lt in E2]; auto. }
  destruct (_ && _) eqn:E3; [|contradiction]. apply andb_prop in E3 as [E3 E4]. apply DC_unsupported; [apply Z.eqb_eq, E4|].
  destruct (p_eddsa p); [discriminate|reflexivity].
Qed.
Lemma params_ok p dp : l8w8jwt_validate_decoding_params p (Some dp) = 0%Z -> dp_jwt dp <> Null /\ dp_verification_key dp <> Null.
Proof.
  unfold l8w8jwt_validate_decoding_params. destruct (_ || _) eqn:E1; [discriminate|]. intros _.
  apply orb_false_elim in E1 as [E1 E2]. split; intros C; rewrite C in *; discriminate.
Qed.

(** ** C69 *)
(** The code returned by [l8w8jwt_decode] is the one documented for something that happened, for every
    token, key, algorithm id and allocation pattern; and a failed allocation never goes unnoticed.
    Missing: the claim holds except that running out of memory while parsing the claims is reported
    as INVALID_TOKEN_FORMAT (decode.c:829, 837 overwrite the code; refuted below). Growing the claims
    array is not counted as an allocation here: that failure does go unnoticed (C34). *)
Theorem C69_decode_codes_partial :
  forall p e dp j k vn cn ln w r w',
    wf w -> uses_jsmn e -> checknum_right e -> (32 <= p_size_bits p)%N -> token_given p dp j -> key_given dp k ->
    l8w8jwt_decode p e (Some dp) vn cn ln w = Ret r w' ->
    (dec_cause p e dp j k (vn = false \/ (cn = true /\ ln = false)) w w' (dr_rc r)
     \/ (dr_rc r = 600%Z /\ lacks_memory w w'))
    /\ (lacks_memory w w' -> dr_rc r = 300%Z \/ dr_rc r = 600%Z).
Proof.
  intros p e dp j k vn cn ln w r w' Hwf Hj Hc Hp Ht Hk H.
  change (coded p e dp j k (vn = false \/ (cn = true /\ ln = false)) w w' (dr_rc r)).
  unfold l8w8jwt_decode in H.
  destruct (cn && negb ln) eqn:Ec.
  { injection H as <- <-. apply served_coded; [apply served_refl|]. apply DC_null_arg. right. right. right.
    destruct cn, ln; try discriminate; auto. }
  cbv zeta in H. destruct (Z.eqb_spec (l8w8jwt_validate_decoding_params p (Some dp)) L8W8JWT_SUCCESS) as [Ev|Ev]; cbn [negb] in H.
  2:{ injection H as <- <-. apply served_coded; [apply served_refl|]. eapply params_cause; [reflexivity|exact Ev]. }
  destruct (params_ok _ _ Ev) as [N1 N2]. destruct Ht as [Ht|Ht]; [contradiction|]. destruct Hk as [Hk|Hk]; [contradiction|].
  destruct vn; cbn [negb] in H.
  2:{ injection H as <- <-. apply served_coded; [apply served_refl|]. apply DC_null_arg. right. right. left. reflexivity. }
  unfold mbind at 1 in H. rewrite cb_init_eq in H. destruct (w_alloc w (w_next w)) eqn:Ea.
  - minvas H as st w1 H1. apply (body_coded p e dp j k (true = false \/ (cn = true /\ ln = false))) in H1 as (F1 & C1); auto using wf_ok.
    minvas H as u2 w2 H2. apply free_served in H2. minvas H as u3 w3 H3. apply free_served in H3.
    minvas H as u4 w4 H4. apply free_served in H4. minvas H as u5 w5 H5.
    assert (S5 : served w4 w5).
    { destruct (_ || _); [eapply free_buffer_served; eauto|injection H5 as _ <-; apply served_refl]. }
    injection H as <- <-. cbn [dr_rc].
    assert (S : served w1 w5) by (eapply served_trans; [exact H2|]; eapply served_trans; [exact H3|]; eapply served_trans; eauto).
    eapply coded_later; [|exact S|].
    + eapply fwd_trans; [apply served_fwd, served_ok, Ea|exact F1].
    + eapply coded_earlier; [apply served_ok, Ea|exact F1|exact C1].
  - minvas H as u w1 H1. apply free_buffer_served in H1. injection H as <- <-. cbn [dr_rc].
    pose proof (starved_served _ _ _ (starved_no w Ea) H1) as S. split; [left; apply DC_out_of_mem, S|auto].
Qed.
Print Assumptions C69_decode_codes_partial.

(** [l8w8jwt_decode_raw] (decode.c:860-970): the same. *)
Theorem C69_decode_raw_codes_partial :
  forall p e dp j k vn hn hl pn pl sn sl w r w',
    wf w -> uses_jsmn e -> checknum_right e -> (32 <= p_size_bits p)%N -> token_given p dp j -> key_given dp k ->
    l8w8jwt_decode_raw p e (Some dp) vn hn hl pn pl sn sl w = Ret r w' ->
    (dec_cause p e dp j k (vn = false \/ (hn = true /\ hl = false) \/ (pn = true /\ pl = false) \/ (sn = true /\ sl = false))
       w w' (rr_rc r)
     \/ (rr_rc r = 600%Z /\ lacks_memory w w'))
    /\ (lacks_memory w w' -> rr_rc r = 300%Z \/ rr_rc r = 600%Z).
Proof.
  intros p e dp j k vn hn hl pn pl sn sl w r w' Hwf Hj Hc Hp Ht Hk H.
  set (nulls := vn = false \/ (hn = true /\ hl = false) \/ (pn = true /\ pl = false) \/ (sn = true /\ sl = false)).
  change (coded p e dp j k nulls w w' (rr_rc r)).
  unfold l8w8jwt_decode_raw in H.
  destruct (_ || _ || _ || _) eqn:Ec.
  { injection H as <- <-. apply served_coded; [apply served_refl|]. apply DC_null_arg. right. right. unfold nulls.
    destruct vn, hn, hl, pn, pl, sn, sl; try discriminate Ec; auto 6. }
  cbv zeta in H. destruct (Z.eqb_spec (l8w8jwt_validate_decoding_params p (Some dp)) L8W8JWT_SUCCESS) as [Ev|Ev]; cbn [negb] in H.
  2:{ injection H as <- <-. apply served_coded; [apply served_refl|]. eapply params_cause; [reflexivity|exact Ev]. }
  destruct (params_ok _ _ Ev) as [N1 N2]. destruct Ht as [Ht|Ht]; [contradiction|]. destruct Hk as [Hk|Hk]; [contradiction|].
  unfold mbind at 1 in H. rewrite cb_init_eq in H. rewrite decode_raw_body_eq in H.
  assert (End : forall rc sg res b w1,
    fwd w w1 -> coded p e dp j k nulls w w1 rc ->
    (h <- give_or_free hn (sg_header sg) ;; pl0 <- give_or_free pn (sg_payload sg) ;;
     s <- give_or_free sn (sg_signature sg) ;; _ <- free_claims_buffer p b ;;
     mret (RawRes rc (Some (if (rc =? L8W8JWT_SUCCESS)%Z then res else NOT_VALID)) h pl0 s)) w1 = Ret r w' ->
    coded p e dp j k nulls w w' (rr_rc r)).
  { intros rc sg res b w1 F C H0. minvas H0 as o1 w2 H1. apply give_served in H1. minvas H0 as o2 w3 H2. apply give_served in H2.
    minvas H0 as o3 w4 H3. apply give_served in H3. minvas H0 as u w5 H4. apply free_buffer_served in H4. injection H0 as <- <-.
    cbn [rr_rc]. eapply coded_later; [exact F| |exact C].
    eapply served_trans; [exact H1|]. eapply served_trans; [exact H2|]. eapply served_trans; eauto. }
  destruct (w_alloc w (w_next w)) eqn:Ea.
  - unfold mbind at 1 in H. unfold mbind at 1 in H. destruct (decode_body p e dp (CB (w_next w) []) (w_ok w)) as [st w1|] eqn:H1; [|discriminate].
    apply (body_coded p e dp j k nulls) in H1 as (F1 & C1); auto using wf_ok.
    eapply End; [| |exact H].
    + eapply fwd_trans; [apply served_fwd, served_ok, Ea|exact F1].
    + eapply coded_earlier; [apply served_ok, Ea|exact F1|exact C1].
  - unfold mbind at 1 in H. unfold mret at 1 in H. eapply (End _ _ L8W8JWT_VALID); [| |exact H].
    + apply (starved_no w Ea).
    + split; [left; apply DC_out_of_mem, (starved_no w Ea)|auto].
Qed.
Print Assumptions C69_decode_raw_codes_partial.

(** [l8w8jwt_decode_raw_no_validation] (decode.c:972-1045) parses and verifies nothing; its codes are right
    without exception. *)
Theorem C69_no_validation_codes :
  forall p e dp j k hn hl pn pl sn sl w r w',
    wf w -> token_given p dp j ->
    l8w8jwt_decode_raw_no_validation p (Some dp) hn hl pn pl sn sl w = Ret r w' ->
    dec_cause p e dp j k ((hn = false /\ pn = false /\ sn = false)
        \/ (hn = true /\ hl = false) \/ (pn = true /\ pl = false) \/ (sn = true /\ sl = false)) w w' (rr_rc r)
    /\ (lacks_memory w w' <-> rr_rc r = 300%Z)
    /\ In (rr_rc r) [0; 100; 200; 300; 425; 600; 700; 800]%Z.
Proof.
  intros p e dp j k hn hl pn pl sn sl w r w' Hwf Ht H. unfold l8w8jwt_decode_raw_no_validation in H.
  assert (N : ~ lacks_memory w w) by apply (served_refl w).
  destruct (_ || _ || _ || _) eqn:Ec.
  { injection H as <- <-. cbn [rr_rc]. split; [|split; [split; [contradiction|discriminate]|simpl; auto]].
    apply DC_null_arg. right. right. destruct hn, hl, pn, pl, sn, sl; try discriminate Ec; auto 6. }
  cbv zeta in H. destruct (Z.eqb_spec (l8w8jwt_validate_decoding_params p (Some dp)) L8W8JWT_SUCCESS) as [Ev|Ev]; cbn [negb] in H.
  2:{ injection H as <- <-. cbn [rr_rc]. split; [eapply params_cause; [reflexivity|exact Ev]|].
      assert (I : In (l8w8jwt_validate_decoding_params p (Some dp)) [100; 200; 800; 0]%Z).
      { clear. unfold l8w8jwt_validate_decoding_params. destruct (_ || _); [left; reflexivity|]. destruct (_ || _); [right; left; reflexivity|].
        destruct (_ && _); [right; right; left; reflexivity|right; right; right; left; reflexivity]. }
      split; [split; [contradiction|]|]; simpl in I; [|simpl; tauto].
      intros C. rewrite C in I. decompose [or] I; try discriminate; contradiction. }
  destruct (params_ok _ _ Ev) as [N1 _]. destruct Ht as [Ht|Ht]; [contradiction|].
  minvas H as [rc sg] w1 H1. apply (segments_code p dp j) in H1; auto.
  minvas H as o1 w2 H2. apply give_served in H2. minvas H as o2 w3 H3. apply give_served in H3.
  minvas H as o3 w4 H4. apply give_served in H4. injection H as <- <-. cbn [rr_rc].
  assert (S : served w1 w4) by (eapply served_trans; [exact H2|]; eapply served_trans; eauto).
  destruct H1 as [(-> & S1)|[(-> & S1)|(S1 & Nz & K)]].
  - pose proof (served_trans _ _ _ S1 S) as [_ C]. split; [apply DC_success, C|]. split; [split; [contradiction|discriminate]|simpl; auto].
  - pose proof (starved_served _ _ _ S1 S) as [_ C]. split; [apply DC_out_of_mem, C|]. split; [tauto|simpl; auto].
  - pose proof (served_trans _ _ _ S1 S) as [_ C]. split; [apply cut_cause, K|].
    destruct K as [(-> & _)|[(-> & _)|(-> & _)]]; (split; [split; [contradiction|discriminate]|simpl; tauto]).
Qed.
Print Assumptions C69_no_validation_codes.

(** ** The exception is real *)
Lemma dot_split h : forall h' a b, no_dot h -> no_dot h' -> h ++ x2e :: a = h' ++ x2e :: b -> h = h' /\ a = b.
Proof.
  induction h as [|c h IH]; intros [|c' h'] a b D D' E; cbn [app] in E.
  - injection E as ->. auto.
  - exfalso. apply D'. injection E as -> _. left. reflexivity.
  - exfalso. apply D. injection E as -> _. left. reflexivity.
  - injection E as -> E. destruct (IH h' a b) as [-> ->]; auto; intros H; [apply D|apply D']; right; exact H.
Qed.
Lemma parts3_not_2 j h pl s h' pl' : parts3 j h pl s -> parts2 j h' pl' -> False.
Proof.
  intros (-> & D1 & D2) (E & N1 & N2). apply dot_split in E as [_ <-]; auto.
  apply N2. apply in_app_iff. right. left. reflexivity.
Qed.
(** Only the third allocation after the segments fails: a claim's key. *)
Definition short_of_memory : world :=
  World (fun k => negb (Nat.eqb k 6)) (fun _ => true) (fun _ _ => xff) 1 0 (fun _ => false).
Theorem C69_memory_in_claims_refuted :
  exists p e dp j k w r w',
    wf w /\ uses_jsmn e /\ checknum_right e /\ c_text p dp j
    /\ caller_key (dp_verification_key dp) (dp_verification_key_length dp) k
    /\ l8w8jwt_decode p e (Some dp) true true true w = Ret r w'
    /\ dr_rc r = 600%Z /\ lacks_memory w w' /\ ~ dec_cause p e dp j k False w w' 600.
Proof.
  pose proof C50_example as (_ & _ & _ & Hj & Hc & Ht & D1 & D2 & U1 & U2 & U3 & O1 & O2 & F1 & F2 & _). cbv zeta in *.
  set (h := rfc4648_unpadded true (lit plain_header)) in *. set (pl := rfc4648_unpadded true (lit rich_payload)) in *.
  set (s := rfc4648_unpadded true (fit 32 (lit "secret" ++ h ++ lit "." ++ pl))) in *.
  assert (P3 : parts3 (h ++ lit "." ++ pl ++ lit "." ++ s) h pl s) by (split; [reflexivity|auto]).
  eexists pe, toy_num, _, _, (lit "secret"), short_of_memory, _, _.
  split; [intros i _; reflexivity|]. split; [exact Hj|]. split; [exact Hc|]. split; [exact Ht|].
  split; [exists None, (lit "secret" ++ [x00]); split; [reflexivity|]; split; [vm_compute; discriminate|reflexivity]|].
  split; [vm_compute; reflexivity|]. split; [reflexivity|]. split.
  - exists 6%nat. split; [vm_compute; lia|reflexivity].
  - intros C. inversion C as [| | | | | | | | | | | |Hn|t Hp Hn].
    + apply Hn. apply in_app_iff. right. left. reflexivity.
    + assert (T : t = h \/ t = pl).
      { destruct Hp as [(h' & pl' & s' & P & Hp)|(h' & pl' & (E & N1 & N2) & _)].
        - destruct (parts3_fun _ _ _ _ _ _ _ P3 P) as (<- & <- & <-). exact Hp.
        - exfalso. eapply parts3_not_2; [exact P3|split; eauto]. }
      destruct U1 as (t1 & U1). destruct U2 as (t2 & U2).
      destruct T as [-> | ->]; [exact (Hn _ _ _ U1 O1 F1)|exact (Hn _ _ _ U2 O2 F2)].
Qed.
Print Assumptions C69_memory_in_claims_refuted.

(** ** Examples *)
Definition code_of (m : res dec_res) : option Z := match m with Ret r _ => Some (dr_rc r) | Undef _ => None end.
(** Nearly every code, on concrete arguments; each time the hypotheses of the theorem hold. *)
Example C69_example :
  let run dp w := code_of (l8w8jwt_decode pe toy_num (Some dp) true true true w) in
  let hs t := dp_plain t 0 (zstr "secret") 6 in
  run (hs rich_token) we = Some 0%Z
  /\ run (hs rich_token) no_memory = Some 300%Z
  /\ run (hs rich_token) short_of_memory = Some 600%Z
  /\ run (hs (lit "nodots")) we = Some 600%Z
  /\ run (hs (lit "W10.W10.AAAAAAAAAAAAAAAAAAAAAAAAAAAAAAAAAAAAAAAAAAA")) we = Some 600%Z
  /\ run (hs (lit "bnVsbA.bnVsbA")) we = Some 700%Z
  /\ run (hs (lit "bnVsbA..bnVsbA")) we = Some 425%Z
  /\ run (hs []) we = Some 200%Z
  /\ run (dp_plain rich_token 0 Null 6) we = Some 100%Z
  /\ run (dp_plain rich_token 13 (zstr "secret") 6) we = Some 450%Z
  /\ run (dp_plain rich_token 99 (zstr "secret") 6) we = Some 0%Z
  /\ code_of (l8w8jwt_decode (Platform 64 true false false true) toy_num (Some (dp_plain rich_token 13 (zstr "secret") 6)) true true true we) = Some 800%Z
  /\ token_given pe (hs (lit "bnVsbA..bnVsbA")) (lit "bnVsbA..bnVsbA") /\ key_given (hs (lit "bnVsbA..bnVsbA")) (lit "secret")
  /\ wf we /\ wf no_memory /\ wf short_of_memory /\ uses_jsmn toy_num /\ checknum_right toy_num.
Proof.
  cbv zeta. do 12 (split; [vm_compute; reflexivity|]). split.
  { right. split; [exists None, []; reflexivity|]. split; [apply no_nul_b; vm_compute; reflexivity|]. split; vm_compute; reflexivity. }
  split; [right; exists None, (lit "secret" ++ [x00]); split; [reflexivity|]; split; [vm_compute; discriminate|reflexivity]|].
  split; [apply we_wf|]. split; [intros i _; reflexivity|]. split; [intros i _; reflexivity|].
  split; [intros js cap; reflexivity|apply toy_num_right].
Qed.
