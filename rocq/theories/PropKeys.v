(** * Property C62: keys that do not fit the algorithm, when decoding *)
From Verif Require Import Base BaseProofs HeapProofs Util UtilProofs Claim Base64 SpecB64
  Base64EncProofs Base64EncApi Base64DecProofs Base64Api Jsmn Env Encode Decode SpecJson SpecJwa ClaimProofs UnescapeProofs
  EncodeProofs SignProofs EncodeTotal SpecEnc JsonProofs PropEncode DecodeProofs DecodeInv JsmnProofs ParseProofs
  PropClaim ReadProofs ValidateProofs JsmnJson DecodeTotal PropVerify PropValidate PropTime PropJson.
From Coq Require Import ZifyBool ZifyNat ZifyN.
Ltac Zify.zify_post_hook ::= Z.div_mod_to_equations.

(** ** Specification *)
(** A key that RFC 7518 allows for algorithm [j] (sections 3.2 - 3.5, RFC 8037): an HMAC key as long
    as the digest, an RSA key of 2048 bits or more, a key on the curve of the algorithm, 32 bytes
    for Ed25519. *)
Definition fitting_key (e : env) (j : jwa) (k : bytes) : Prop :=
  match j_family j with
  | HS => (md_size (j_hash j) <= N.of_nat (length (hmac_key k)))%N
  | RS => exists key, public_key_of e k key
      /\ (e_can_do e key PK_RSA = true \/ e_can_do e key PK_RSA_ALT = true) /\ (2048 <= e_bitlen e key)%N
  | PS => exists key, public_key_of e k key
      /\ (e_can_do e key PK_RSASSA_PSS = true) /\ (2048 <= e_bitlen e key)%N
  | ES curve bits _ => exists key, public_key_of e k key
      /\ e_can_do e key PK_ECDSA = true /\ e_group e key = curve /\ e_bitlen e key = bits
  | ED => exists hx kb, (k = hx \/ k = hx ++ [x00]) /\ length hx = 64%nat /\ unhex hx = Some kb
  end.
(** What is left of it in the code: the key can be parsed, and it is an RSA key for PS and an EC key
    for ES; a certificate or a public key of any kind for RS; anything for HS. *)
Definition parsed_key (e : env) (j : jwa) (k : bytes) : Prop :=
  match j_family j with
  | HS => True
  | RS => exists key, public_key_of e k key
  | PS => exists key, public_key_of e k key /\ e_pk_rsa e key = true
  | ES _ _ _ => exists key, public_key_of e k key /\ e_pk_ec e key = true
  | ED => exists hx kb, (k = hx \/ k = hx ++ [x00]) /\ length hx = 64%nat /\ unhex hx = Some kb
  end.
(** The backend [e] with other answers about the kind, the size and the curve of keys, another
    random generator and other signing functions. *)
Definition other_facts (e : env) (seed : bool) (parse : bytes -> ptr -> N -> option pk) (can : pk -> pk_type -> bool)
    (bits : pk -> N) (curve : pk -> ecp_group) (s1 s2 : pk -> md -> bytes -> option bytes) (s3 : pk -> bytes -> option (N * N))
    (s4 : bytes -> bytes -> bytes) : env :=
  Env seed (e_hmac e) (e_md e) parse (e_parse_public_key e) (e_x509_parse e) can bits
    s1 (e_pk_verify e) (e_pk_rsa e) (e_rsa_len e) s2 (e_pss_verify e) (e_pk_ec e)
    (e_ecdsa_from_keypair e) curve s3 (e_ecdsa_verify e) s4 (e_ed_verify e) (e_time e)
    (e_checknum e) (e_jsmn e) (e_tok_junk e).

Section Facts.
Variables (p : platform) (e : env) (seed : bool) (parse : bytes -> ptr -> N -> option pk) (can : pk -> pk_type -> bool)
    (bits : pk -> N) (curve : pk -> ecp_group) (s1 s2 : pk -> md -> bytes -> option bytes) (s3 : pk -> bytes -> option (N * N))
    (s4 : bytes -> bytes -> bytes).
Let e' := other_facts e seed parse can bits curve s1 s2 s3 s4.
Lemma loop_facts fuel mem a r i c w : claims_loop fuel p e' mem a r i c w = claims_loop fuel p e mem a r i c w.
Proof.
  revert i c w. induction fuel as [|fuel IH]; intros i c w; [reflexivity|]. cbn [claims_loop].
  destruct (negb _); [reflexivity|]. apply bind_cong; [reflexivity|]. intros key w1 _. cbv zeta.
  apply bind_cong; [reflexivity|]. intros value w2 _. destruct (_ || _); [reflexivity|].
  apply bind_cong; [reflexivity|]. intros [[ty j]|] w3 _; [|reflexivity].
  apply bind_cong; [reflexivity|]. intros km w4 _. apply bind_cong; [reflexivity|]. intros vm w5 _.
  apply bind_cong; [reflexivity|]. intros [ur [d|]] w6 _; [|reflexivity].
  apply bind_cong; [reflexivity|]. intros c1 w7 _. apply IH.
Qed.
Lemma parse_facts c q n w : l8w8jwt_parse_claims p e' c q n w = l8w8jwt_parse_claims p e c q n w.
Proof.
  unfold l8w8jwt_parse_claims. apply bind_cong; [reflexivity|]. intros mem w1 _. apply bind_cong; [reflexivity|]. intros js w2 _.
  destruct (_ <? _)%Z; [reflexivity|]. cbv zeta. change (e_jsmn e') with (e_jsmn e).
  destruct (_ =? 0)%Z; [reflexivity|]. destruct (_ <? 0)%Z; [reflexivity|].
  apply bind_cong; [reflexivity|]. intros [blk|] w3 _; [|reflexivity]. destruct (e_jsmn e js (Some _)) as [r2 toks].
  destruct (r2 <? 0)%Z; [reflexivity|]. apply bind_cong; [reflexivity|]. intros t0 w4 _.
  apply bind_cong; [destruct (negb _); [reflexivity|apply loop_facts]|]. reflexivity.
Qed.
Lemma body_facts dp cb w : decode_body p e' dp cb w = decode_body p e dp cb w.
Proof.
  unfold decode_body. apply bind_cong; [reflexivity|]. intros [r sg] w1 _. destruct (negb _); [reflexivity|].
  apply bind_cong; [reflexivity|]. intros [r2 res] w2 _. destruct (negb _); [reflexivity|].
  apply bind_cong; [apply parse_facts|]. intros [r3 c1] w3 _. destruct (negb _); [reflexivity|].
  apply bind_cong; [apply parse_facts|]. intros [r4 c2] w4 _. destruct (negb _); reflexivity.
Qed.
(** ** C62 *)
(** Refuted for every backend: both decoding functions do exactly the same, verdict included,
    whatever the kind (for RS), the size and the curve of the key. (In passing: they use neither the
    random generator nor private keys.) *)
Theorem decode_ignores params vn cn ln w : l8w8jwt_decode p e' params vn cn ln w = l8w8jwt_decode p e params vn cn ln w.
Proof.
  unfold l8w8jwt_decode. destruct params as [dp|]; [|reflexivity]. destruct (_ && _); [reflexivity|]. cbv zeta.
  destruct (negb _); [reflexivity|]. destruct (negb vn); [reflexivity|].
  apply bind_cong; [reflexivity|]. intros [c|] w1 _; [|reflexivity]. apply bind_cong; [apply body_facts|]. reflexivity.
Qed.
Theorem decode_raw_ignores params vn h hl pn pl sn sl w :
  l8w8jwt_decode_raw p e' params vn h hl pn pl sn sl w = l8w8jwt_decode_raw p e params vn h hl pn pl sn sl w.
Proof.
  unfold l8w8jwt_decode_raw. destruct params as [dp|]; [|reflexivity]. destruct (_ || _); [reflexivity|]. cbv zeta.
  destruct (negb _); [reflexivity|]. apply bind_cong; [reflexivity|]. intros [c|] w1 _; [|reflexivity].
  apply bind_cong; [|reflexivity]. rewrite !decode_raw_body_eq. apply bind_cong; [apply body_facts|reflexivity].
Qed.
End Facts.

Theorem C62_key_facts_ignored :
  forall p e params seed parse can bits curve s1 s2 s3 s4 w,
    let e' := other_facts e seed parse can bits curve s1 s2 s3 s4 in
    (forall vn cn ln, l8w8jwt_decode p e' params vn cn ln w = l8w8jwt_decode p e params vn cn ln w)
    /\ (forall vn h hl pn pl sn sl,
          l8w8jwt_decode_raw p e' params vn h hl pn pl sn sl w = l8w8jwt_decode_raw p e params vn h hl pn pl sn sl w).
Proof. intros. split; intros; [apply decode_ignores|apply decode_raw_ignores]. Qed.
Print Assumptions C62_key_facts_ignored.

(** What does hold: an accepted signature was checked with a key that could be parsed, an RSA key for
    PS, an EC key for ES, 64 hex digits for EdDSA (where the hex digits are assumed, see C37).
    Missing: everything else [fitting_key] asks for. *)
Theorem C62_unsuitable_keys_partial :
  forall p e dp cn ln w r w' v j k,
    wf w -> l8w8jwt_decode p e (Some dp) true cn ln w = Ret r w' ->
    dr_rc r = L8W8JWT_SUCCESS -> dr_valid r = Some v -> N.testbit v 7 = false ->
    supported (dp_alg dp) j -> caller_key (dp_verification_key dp) (dp_verification_key_length dp) k -> hex_if_ed j k ->
    parsed_key e j k.
Proof.
  intros p e dp cn ln w r w' v j k Hwf H Hrc Hv Hb Hj Hk Hx.
  destruct (C19_signature_enforced_partial p e dp cn ln w r w' v j k Hwf H Hrc Hv Hj Hk Hx)
    as (jwt & h & pl & rest & third & sig & tail & _ & _ & _ & _ & B).
  destruct (proj1 B Hb) as (looked & _ & V). unfold verified_by, parsed_key in *. destruct (j_family j).
  - exact I.
  - destruct V as (key & d & K & _). eauto.
  - destruct V as (key & d & K & _ & R & _). eauto.
  - destruct V as (key & d & r0 & s & K & _ & R & _). eauto.
  - destruct V as (hx & kb & K & L & U & _). eauto.
Qed.
Print Assumptions C62_unsuitable_keys_partial.

(** A witness for every algorithm but EdDSA: a six-byte HMAC key, a 512-bit RSA key, a key on another
    curve; the token passes without any flag. *)
Definition weak : env :=
  other_facts toy true (e_parse_key toy) (fun _ _ => false) (fun _ => 512%N) (fun _ => OtherGroup)
    (e_pk_sign toy) (e_pss_sign toy) (e_ecdsa_sign toy) (e_ed_sign toy).
Definition weak_token (j : jwa) : bytes :=
  lit "e30.e30." ++ rfc4648_unpadded true
    match j_family j with HS => fit (md_size (j_hash j)) (lit "secrete30.e30") | _ => repeat x00 (N.to_nat 256) end.
Theorem C62_unsuitable_keys_refuted :
  forall j, In j jwa_table -> j_family j <> ED ->
    let dp := dp_plain (weak_token j) (j_id j) (zstr "secret") 6 in
    exists r w', l8w8jwt_decode pe weak (Some dp) true true true we = Ret r w'
      /\ dr_rc r = L8W8JWT_SUCCESS /\ dr_valid r = Some L8W8JWT_VALID
      /\ supported (dp_alg dp) j /\ caller_key (dp_verification_key dp) (dp_verification_key_length dp) (lit "secret")
      /\ ~ fitting_key weak j (lit "secret").
Proof.
  intros j Hj Hf dp.
  assert (K : caller_key (dp_verification_key dp) (dp_verification_key_length dp) (lit "secret")) by apply hmac_key_secret.
  assert (S : supported (dp_alg dp) j) by (split; [exact Hj|reflexivity]).
  assert (N : ~ fitting_key weak j (lit "secret")).
  { intros F. vm_compute in Hj. decompose [or] Hj; try contradiction; subst j; try (exfalso; apply Hf; reflexivity); unfold fitting_key in F;
      cbn [j_family j_hash] in F; [vm_compute in F; apply F; reflexivity..| | | | | | | | | |];
      destruct F as (key & _ & F); vm_compute in F; try (destruct F as (F & _); discriminate F); destruct F as ([F|F] & _); discriminate F. }
  assert (D : exists r w', l8w8jwt_decode pe weak (Some dp) true true true we = Ret r w'
      /\ dr_rc r = L8W8JWT_SUCCESS /\ dr_valid r = Some L8W8JWT_VALID).
  { clear - Hj Hf. subst dp. vm_compute in Hj. decompose [or] Hj; try contradiction; subst j; try (exfalso; apply Hf; reflexivity);
      (do 2 eexists; split; [vm_compute; reflexivity|split; reflexivity]). }
  destruct D as (r & w' & D1 & D2 & D3). exists r, w'. auto 10.
Qed.
Print Assumptions C62_unsuitable_keys_refuted.
