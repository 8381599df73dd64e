(** * Property C70: the return codes of encoding name what went wrong *)
From Verif Require Import Base BaseProofs HeapProofs Util UtilProofs Claim Base64 SpecB64
  Base64EncProofs Base64EncApi Base64DecProofs Base64Api Jsmn Env Encode Decode SpecJson SpecJwa ClaimProofs UnescapeProofs
  EncodeProofs SignProofs EncodeTotal SpecEnc JsonProofs PropEncode DecodeProofs DecodeInv JsmnProofs ParseProofs
  PropClaim ReadProofs ValidateProofs JsmnJson JsmnSize PropVerify PropValidate PropLeak PropJson DecodeTotal DecodeOk PropSafe CodeProofs EncCodeProofs LocalProofs.
From Coq Require Import ZifyBool ZifyNat ZifyN.
Ltac Zify.zify_post_hook ::= Z.div_mod_to_equations.
Local Opaque L8W8JWT_MAX_KEY_SIZE.

(** The text that is signed: header and payload in base64url. *)
Definition signing_input (ep : enc_params) (ok : Prop) (msg : bytes) : Prop :=
  exists ht pt, header_text ep ok ht /\ payload_text ep ok pt
    /\ msg = rfc4648_unpadded true ht ++ lit "." ++ rfc4648_unpadded true pt.
(** The events the codes of include/l8w8jwt/retcodes.h are documented to stand for. [sign_cause] (EncCodeProofs.v)
    lists those of the signature: EdDSA not built in (800), a key that cannot be parsed (420), does not fit the algorithm
    (450), a digest that fails (410), a backend that delivers no signature (400), a signature whose base64 text has no
    representable size (425). *)
Inductive enc_cause (p : platform) (e : env) (ep : enc_params) (w w' : world) : Z -> Prop :=
| EN_success : ~ lacks_memory w w' -> enc_cause p e ep w w' 0
| EN_null_arg : ep_secret_key ep = Null \/ ep_out_nn ep = false \/ ep_out_length_nn ep = false -> enc_cause p e ep w w' 100
| EN_length : ep_secret_key_length ep = 0%N \/ (8192 < ep_secret_key_length ep)%N -> enc_cause p e ep w w' 200
| EN_count : (ep_header_claims ep <> CNull /\ ep_header_claims_count ep = 0%N)
    \/ (ep_payload_claims ep <> CNull /\ ep_payload_claims_count ep = 0%N) -> enc_cause p e ep w w' 200
| EN_alg : (forall jw, ~ supported (ep_alg ep) jw) -> enc_cause p e ep w w' 200
| EN_out_of_mem : lacks_memory w w' -> enc_cause p e ep w w' 300
| EN_overflow t : header_text ep (allocs w) t \/ payload_text ep (allocs w) t ->
    (2 ^ p_size_bits p <= 4 * N.of_nat (length t))%N -> enc_cause p e ep w w' 310
| EN_seed : e_seed_ok e = false -> enc_cause p e ep w w' 500
| EN_sign jw k msg rc : supported (ep_alg ep) jw -> caller_key (ep_secret_key ep) (ep_secret_key_length ep) k ->
    signing_input ep (allocs w) msg ->
    sign_cause p e jw k (ep_secret_key_pw ep) (ep_secret_key_pw_length ep) msg rc -> enc_cause p e ep w w' rc.

Lemma enc_params_cause p e ep w w' rc :
  l8w8jwt_validate_encoding_params (Some ep) = rc -> rc <> 0%Z -> enc_cause p e ep w w' rc.
Proof.
  intros <- N. unfold l8w8jwt_validate_encoding_params in *. change L8W8JWT_MAX_KEY_SIZE with 8192%N in *.
  destruct (is_null (ep_secret_key ep)) eqn:E1; [apply EN_null_arg; left; destruct (ep_secret_key ep); [reflexivity|discriminate]|].
  destruct (ep_out_nn ep) eqn:E2; [|apply EN_null_arg; auto].
  destruct (ep_out_length_nn ep) eqn:E3; [|apply EN_null_arg; auto]. cbn [negb orb] in *.
  destruct ((ep_secret_key_length ep =? 0)%N || (8192 <? ep_secret_key_length ep)%N) eqn:E4;
    [apply EN_length; apply orb_true_iff in E4 as [E4|E4]; [left; apply N.eqb_eq, E4|right; apply N.ltb_lt, E4]|].
  destruct (negb (is_cnull (ep_payload_claims ep)) && (ep_payload_claims_count ep =? 0)%N) eqn:E5.
  { apply EN_count. right. apply andb_true_iff in E5 as [E5 E6]. apply N.eqb_eq in E6. split; [|exact E6].
    intros C. rewrite C in E5. discriminate. }
  destruct (negb (is_cnull (ep_header_claims ep)) && (ep_header_claims_count ep =? 0)%N) eqn:E6; [|now destruct N].
  apply EN_count. left. apply andb_true_iff in E6 as [E6 E7]. apply N.eqb_eq in E7. split; [|exact E7].
  intros C. rewrite C in E6. discriminate.
Qed.
Lemma prefix_none alg : header_prefix alg = None -> forall jw, ~ supported alg jw.
Proof. intros H jw [Hin <-]. simpl in Hin. decompose [or] Hin; try contradiction; subst; discriminate H. Qed.

Lemma of_growing p e ep w w' rc P Q :
  enc_cause p e ep (growing w) (growing w') rc \/ (P /\ lacks_memory (growing w) (growing w')) \/ Q ->
  enc_cause p e ep w w' rc \/ (P /\ lacks_memory w w') \/ Q.
Proof.
  intros [C|K]; [|right; exact K]. left.
  inversion C; subst; [apply EN_success|apply EN_null_arg|apply EN_length|apply EN_count|apply EN_alg|apply EN_out_of_mem
    |eapply EN_overflow|apply EN_seed|eapply EN_sign]; eassumption.
Qed.
(** l8w8jwt_encode returns each code only for the event it names, except that a lack of memory may show as BASE64_FAILURE,
    and as a token in which a group of claims is missing. Missing: that it always shows as OUT_OF_MEM; that is false. *)
Theorem C70_encode_codes_partial :
  forall p e ep w r w',
    (15 <= p_size_bits p)%N -> wf w -> appended w w' ->
    l8w8jwt_encode p e (Some ep) w = Ret r w' ->
    enc_cause p e ep w w' (er_rc r)
    \/ (er_rc r = 425%Z /\ lacks_memory w w')
    \/ (er_rc r = 0%Z /\ exists b msg rest, er_out r = Some (Ptr b (msg ++ rest)) /\ claims_missing ep msg).
Proof.
  intros p e ep w0 r w0' Hp Hwf Hgr H. as_growing (local_encode p e (Some ep)) H Hgr.
  apply of_growing. remember (growing w0) as w eqn:Ew. remember (growing w0') as w' eqn:Ew'. clear w0 w0' Ew Ew'. assert (Hp6 : (6 <= p_size_bits p)%N) by lia.
  unfold l8w8jwt_encode in H.
  destruct (Z.eqb_spec (l8w8jwt_validate_encoding_params (Some ep)) L8W8JWT_SUCCESS) as [Ev|Ev]; cbn [negb] in H.
  2:{ injection H as <- <-. left. eapply enc_params_cause; [reflexivity|exact Ev]. }
  minvas H as o w1 Hi. rewrite cb_init_eq in Hi.
  destruct (w_alloc w (w_next w)) eqn:Ea; injection Hi as <- <-.
  2:{ injection H as <- <-. left. apply EN_out_of_mem. apply starved_no, Ea. }
  minvas H as [res sb'] w2 Hb. minvas H as u w3 Hf. injection H as <- <-.
  apply free_id_inv in Hf as [_ ->]. pose proof (wf_ok _ Hwf) as Hwf1.
  assert (Hgr1 : grows (w_ok w)) by (eapply grows_later; [apply later_ok|exact Hgr]).
  unfold encode_body in Hb. minvas Hb as [r1 sb1] w3 H1.
  pose proof H1 as C1. apply whp_code in C1; auto.
  apply whp_inv in H1 as (Q1 & Hid1 & Hs1); auto.
  assert (W3 : wf w3) by (eapply wf_quiet; eauto).
  assert (F3 : fwd w w3) by (eapply fwd_trans; [apply fwd_ok|apply quiet_fwd, Q1]).
  destruct (Z.eqb_spec r1 L8W8JWT_SUCCESS) as [->|Hr1]; cbn [negb] in Hb.
  2:{ injection Hb as <- <- <-. cbn [er_rc]. left.
      destruct C1 as [(-> & _)|[(-> & L)|[(-> & C)|(-> & t & C & T)]]]; [now destruct Hr1| | |].
      - apply EN_out_of_mem. apply (lacks_within w (w_ok w) w3 _); [apply fwd_ok|split; [apply quiet_fwd, Q1|exact L]|apply fwd_free].
      - apply EN_alg. apply prefix_none, C.
      - apply (EN_overflow _ _ _ _ _ t); [exact C|exact T]. }
  destruct C1 as [(_ & C1)|[(C & _)|[(C & _)|(C & _)]]]; [|discriminate..]. cbn [cb_elems app] in C1.
  specialize (Hs1 eq_refl). destruct Hs1 as (ht & pt & Hh & Hpt & Hg1). specialize (Hg1 Hgr1). cbn [cb_elems app] in Hg1.
  assert (R : (0 <= ep_alg ep <= 13)%Z).
  { destruct Hh as (h & t & Eh & _). clear -Eh. unfold header_prefix in Eh. destruct (ep_alg ep) as [|q|q]; [lia| |discriminate].
    do 4 (destruct q; try discriminate; try lia). }
  assert (SI : signing_input ep (allocs w) (cb_elems sb1)).
  { exists ht, pt. split; [exact Hh|]. split; [exact Hpt|]. rewrite Hg1. reflexivity. }
  minvas Hb as [r2 sb2] w4 H2. destruct (Z.eqb_spec (ep_alg ep) (-1)) as [C|_]; [lia|]. cbn [negb] in H2.
  pose proof H2 as C2. apply ws_code in C2; auto. apply ws_inv in H2 as (Q2 & Hid2 & Hs2); auto.
  assert (F4 : fwd w w4) by (eapply fwd_trans; [exact F3|apply quiet_fwd, Q2]).
  destruct (Z.eqb_spec r2 L8W8JWT_SUCCESS) as [->|Hr2]; cbn [negb] in Hb.
  2:{ injection Hb as <- <- <-. cbn [er_rc].
      assert (L : lacks_memory w3 w4 -> lacks_memory w (w_free w4 (cb_id sb2))).
      { intros L. apply (lacks_within w w3 w4 _); [exact F3|split; [apply quiet_fwd, Q2|exact L]|apply fwd_free]. }
      destruct C2 as [(-> & _)|[(-> & C)|[(-> & C)|[(-> & C)|(jw & k & Hj & Hk & C)]]]].
      - now destruct Hr2.
      - left. apply EN_out_of_mem, L, C.
      - right. left. auto.
      - left. apply EN_seed, C.
      - left. eapply EN_sign; eauto. }
  assert (S2 : served w3 w4).
  { destruct C2 as [(_ & S2)|[(C & _)|[(C & _)|[(C & _)|(jw & k & _ & _ & C)]]]]; [exact S2|discriminate..|inversion C]. }
  destruct (Hs2 eq_refl) as (sig & _ & _ & Hg2).
  assert (Hgr3 : grows w3) by (eapply grows_later; [apply quiet_later, Q1|exact Hgr1]). specialize (Hg2 Hgr3).
  minvas Hb as res3 w5 H3. injection Hb as <- <- <-.
  apply write_token_inv in H3 as [(-> & A3 & ->)|(-> & A3 & ->)]; cbn [er_rc er_out].
  - left. apply EN_out_of_mem. apply (lacks_within w w4 (w_no w4) _); [exact F4|apply starved_no, A3|apply fwd_free].
  - destruct C1 as [S1|(msg & E & M)].
    + left. apply EN_success. enough (S : served w (w_free (w_ok w4) (cb_id sb2))) by apply S.
      eapply served_trans; [apply served_ok, Ea|]. eapply served_trans; [exact S1|]. eapply served_trans; [exact S2|].
      eapply served_trans; [apply served_ok, A3|]. apply served_same; reflexivity.
    + right. right. split; [reflexivity|]. rewrite E in Hg2. rewrite Hg2, <- app_assoc. eauto 6.
Qed.
Print Assumptions C70_encode_codes_partial.

(** A lack of memory is reported as BASE64_FAILURE although nothing is wrong with the signature, and as success. *)
Definition we_fail6 : world :=
  World (fun k => negb (Nat.eqb k 6)) (fun _ => true) (fun _ _ => xff) 1 0 (fun _ => false).
Theorem C70_memory_refuted :
  (exists p e ep w r w', wf w /\ grows w /\ l8w8jwt_encode p e (Some ep) w = Ret r w'
     /\ er_rc r = 425%Z /\ lacks_memory w w' /\ ~ enc_cause p e ep w w' 425)
  /\ (exists p e ep w r w', wf w /\ grows w /\ l8w8jwt_encode p e (Some ep) w = Ret r w'
     /\ er_rc r = 0%Z /\ lacks_memory w w' /\ ~ enc_cause p e ep w w' 0).
Proof.
  split.
  - exists pe, toy, ep_exp_only, we_fail6. do 2 eexists. split; [intros i _; reflexivity|]. split; [intros i; reflexivity|].
    split; [vm_compute; reflexivity|]. split; [reflexivity|]. split; [exists 6%nat; split; [vm_compute; lia|reflexivity]|].
    intros C. inversion C; subst.
    match goal with S : sign_cause _ _ ?jw _ _ _ _ _, Hj : supported _ ?jw |- _ =>
      assert (Hf : j_family jw = PS) by (inversion S; assumption); destruct Hj as [Hin Hid]; clear -Hin Hid Hf end.
    simpl in Hin. decompose [or] Hin; try contradiction; subst; discriminate.
  - exists pe, toy, ep_exp_only, we_fail4. do 2 eexists. split; [intros i _; reflexivity|]. split; [intros i; reflexivity|].
    split; [vm_compute; reflexivity|]. split; [reflexivity|].
    assert (L : forall w', (5 <= w_next w')%nat -> lacks_memory we_fail4 w') by (intros w' Hw; exists 4%nat; split; [cbn; lia|reflexivity]).
    split; [apply L; vm_compute; lia|].
    intros C. inversion C; subst; [|match goal with S : sign_cause _ _ _ _ _ _ _ _ |- _ => inversion S end].
    match goal with N : ~ lacks_memory _ _ |- _ => apply N, L end. vm_compute. lia.
Qed.
Print Assumptions C70_memory_refuted.

(** ** Examples *)
Definition enc_code (m : res enc_res) : option Z := match m with Ret r _ => Some (er_rc r) | Undef _ => None end.
Definition ep_alg_key (alg : Z) (key : ptr) (n : N) (hc : cptr) : enc_params :=
  EncParams alg Null 0 Null 0 Null 0 Null 0 2000 0 0 hc 0 CNull 0 key n Null 0 true true.
Definition mute : env := {|
  e_seed_ok := true; e_hmac := fun _ _ _ => None; e_md := fun _ _ => None; e_parse_key := fun k _ _ => if (100 <? N.of_nat (length k))%N then Some 0%nat else None;
  e_parse_public_key := e_parse_public_key toy; e_x509_parse := e_x509_parse toy;
  e_can_do := e_can_do toy; e_bitlen := e_bitlen toy; e_pk_sign := e_pk_sign toy;
  e_pk_verify := e_pk_verify toy; e_pk_rsa := e_pk_rsa toy; e_rsa_len := e_rsa_len toy;
  e_pss_sign := e_pss_sign toy; e_pss_verify := e_pss_verify toy; e_pk_ec := e_pk_ec toy;
  e_ecdsa_from_keypair := e_ecdsa_from_keypair toy; e_group := e_group toy;
  e_ecdsa_sign := e_ecdsa_sign toy; e_ecdsa_verify := e_ecdsa_verify toy;
  e_ed_sign := e_ed_sign toy; e_ed_verify := e_ed_verify toy; e_time := e_time toy;
  e_checknum := e_checknum toy; e_jsmn := e_jsmn toy; e_tok_junk := e_tok_junk toy |}.
(** Most codes, on concrete arguments and a heap meeting the hypotheses of the theorem. *)
Example C70_example :
  let run e ep w := enc_code (l8w8jwt_encode pe e (Some ep) w) in
  let with_ (alg : Z) key (n : N) := ep_alg_key alg key n CNull in
  run toy (with_ 0%Z (zstr "secret") 6%N) we = Some 0%Z
  /\ run toy (with_ 0%Z Null 6%N) we = Some 100%Z
  /\ run toy (with_ 0%Z (zstr "secret") 0%N) we = Some 200%Z
  /\ run toy (with_ 14%Z (zstr "secret") 6%N) we = Some 200%Z
  /\ run toy (with_ (-1)%Z (zstr "secret") 6%N) we = Some 200%Z
  /\ run toy (ep_alg_key 0 (zstr "secret") 6 (CArr None [])) we = Some 200%Z
  /\ run toy (with_ 0%Z (zstr "secret") 6%N) no_memory = Some 300%Z
  /\ run toy (with_ 0%Z (zstr "secret") 6%N) we_fail6 = Some 425%Z
  /\ run toy (with_ 0%Z (zstr "secret") 6%N) we_fail4 = Some 0%Z
  /\ run mute (with_ 0%Z (zstr "secret") 6%N) we = Some 400%Z
  /\ run mute (with_ 3%Z (zstr "secret") 6%N) we = Some 420%Z
  /\ run mute (with_ 3%Z (Ptr None (repeat x41 200)) 200%N) we = Some 410%Z
  /\ run toy (with_ 9%Z (zstr "secret") 6%N) we = Some 450%Z
  /\ run toy (with_ 13%Z (zstr "secret") 6%N) we = Some 450%Z
  /\ enc_code (l8w8jwt_encode (Platform 64 true false false true) toy (Some (with_ 13%Z (zstr "secret") 6%N)) we) = Some 800%Z
  /\ wf we /\ grows we /\ wf no_memory /\ grows no_memory /\ wf we_fail6 /\ grows we_fail6 /\ (15 <= p_size_bits pe)%N.
Proof.
  cbv zeta. do 15 (split; [vm_compute; reflexivity|]).
  split; [apply we_wf|]. split; [intros i; reflexivity|]. split; [intros i _; reflexivity|]. split; [intros i; reflexivity|].
  split; [intros i _; reflexivity|]. split; [intros i; reflexivity|]. discriminate.
Qed.
