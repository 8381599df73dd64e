(** * Properties C63, C64: crypto contexts, random numbers and copies of keys *)
From Verif Require Import Base BaseProofs HeapProofs Base64 Util Claim Jsmn Env Encode Decode DecodeInv
  Context SpecContext ContextProofs SpecJson SpecJwa SpecB64 PropEncode PropVerify.

(** A call that returned [a] in [w'] did so with a trace that follows the rules of SpecContext.v and
    ends in a ledger that is [good]. *)
Definition traced {A} (m : W A) (w : world) (a : A) (w' : world) (good : ledger -> Prop) : Prop :=
  exists t, m w = (t, Ret a w') /\ lawful t good.

Lemma traced_of {A} (m : W A) (m' : M A) (Q : ledger -> Prop) w a w' :
  (forall w, snd (m w) = m' w) -> wok start m (fun _ => released) ->
  (forall l, released l -> Q l) ->
  m' w = Ret a w' -> traced m w a w' Q.
Proof.
  intros He Hw Hq E. specialize (Hw w). rewrite <- He in E. rewrite E in Hw.
  destruct Hw as (l & El & Hl). exists (fst (m w)). split.
  - rewrite (surjective_pairing (m w)) at 1. rewrite E. reflexivity.
  - exists l. auto.
Qed.

(** ** C63 *)
(** Every call of the three functions that use mbedtls, whatever its arguments, the backend, the
    build and the outcomes of allocations: if it returns, it initialised every context before
    anything else was done with it, filled none twice, used none that was not filled or already
    freed, used the random generator only after it was seeded, freed none twice (a key borrowed
    from a certificate belongs to the certificate), and leaves none that owns memory. *)
Theorem C63_encode_contexts : forall p e params w r w',
  l8w8jwt_encode p e params w = Ret r w' ->
  traced (l8w8jwt_encode_w p e params) w r w' nothing_owned.
Proof.
  intros p e params w r w'. apply traced_of with (m' := l8w8jwt_encode p e params).
  - intros. apply erase_encode.
  - apply encode_lawful.
  - intros l H. apply H.
Qed.
Print Assumptions C63_encode_contexts.

Theorem C63_decode_contexts : forall p e params vr_nn claims_nn len_nn w r w',
  l8w8jwt_decode p e params vr_nn claims_nn len_nn w = Ret r w' ->
  traced (l8w8jwt_decode_w p e params vr_nn claims_nn len_nn) w r w' nothing_owned.
Proof.
  intros p e params a b c w r w'. apply traced_of with (m' := l8w8jwt_decode p e params a b c).
  - intros. apply erase_decode.
  - apply decode_lawful.
  - intros l H. apply H.
Qed.
Print Assumptions C63_decode_contexts.

Theorem C63_decode_raw_contexts : forall p e params vr_nn h_nn hl_nn p_nn pl_nn s_nn sl_nn w r w',
  l8w8jwt_decode_raw p e params vr_nn h_nn hl_nn p_nn pl_nn s_nn sl_nn w = Ret r w' ->
  traced (l8w8jwt_decode_raw_w p e params vr_nn h_nn hl_nn p_nn pl_nn s_nn sl_nn) w r w' nothing_owned.
Proof.
  intros p e params a b c d f g h w r w'.
  apply traced_of with (m' := l8w8jwt_decode_raw p e params a b c d f g h).
  - intros. apply erase_decode_raw.
  - apply decode_raw_lawful.
  - intros l H. apply H.
Qed.
Print Assumptions C63_decode_raw_contexts.

(** ES256 and EdDSA signing, and verification with an EC key given as such and in a certificate.
    [toy_es]: the key has the right size for ES256. *)
Definition toy_es : env := {|
  e_seed_ok := true; e_hmac := e_hmac toy; e_md := e_md toy; e_parse_key := e_parse_key toy;
  e_parse_public_key := e_parse_public_key toy; e_x509_parse := e_x509_parse toy;
  e_can_do := e_can_do toy; e_bitlen := fun _ => 256%N; e_pk_sign := e_pk_sign toy;
  e_pk_verify := e_pk_verify toy; e_pk_rsa := e_pk_rsa toy; e_rsa_len := e_rsa_len toy;
  e_pss_sign := e_pss_sign toy; e_pss_verify := e_pss_verify toy; e_pk_ec := e_pk_ec toy;
  e_ecdsa_from_keypair := e_ecdsa_from_keypair toy; e_group := e_group toy;
  e_ecdsa_sign := e_ecdsa_sign toy; e_ecdsa_verify := e_ecdsa_verify toy;
  e_ed_sign := e_ed_sign toy; e_ed_verify := e_ed_verify toy; e_time := e_time toy;
  e_checknum := e_checknum toy; e_jsmn := e_jsmn toy; e_tok_junk := e_tok_junk toy |}.
Definition rc_and_trace (x : list event * res enc_res) : option Z * list event :=
  (match snd x with Ret r _ => Some (er_rc r) | Undef _ => None end, fst x).
Definition drc_and_trace (x : list event * res dec_res) : option Z * list event :=
  (match snd x with Ret r _ => Some (dr_rc r) | Undef _ => None end, fst x).
Example C63_example :
  rc_and_trace (l8w8jwt_encode_w pe toy_es (Some (ep_with (zstr "me") 2 (zstr "secret") 6 9)) we)
  = (Some 0%Z,
     [Init Pk; Init Entropy; Init Drbg; Store KeyCopy; Load Entropy; Load Drbg; Seeded;
      Init Ecdsa; Init SigR; Init SigS; Random; Load Pk; Use Pk; Use Pk; Use Pk; Load Ecdsa;
      Use Ecdsa; Use Pk; Use Ecdsa; Load SigR; Load SigS; Random; Use SigR; Use SigS;
      Free SigR; Free SigS; Free Ecdsa; Wipe KeyCopy; Free Drbg; Free Entropy; Free Pk])
  (* a key of the wrong size: the same contexts are released on the way out *)
  /\ rc_and_trace (l8w8jwt_encode_w pe toy (Some (ep_with (zstr "me") 2 (zstr "secret") 6 9)) we)
  = (Some L8W8JWT_WRONG_KEY_TYPE,
     [Init Pk; Init Entropy; Init Drbg; Store KeyCopy; Load Entropy; Load Drbg; Seeded;
      Init Ecdsa; Init SigR; Init SigS; Random; Load Pk; Use Pk; Use Pk; Use Pk; Load Ecdsa;
      Use Ecdsa; Use Pk;
      Free SigR; Free SigS; Free Ecdsa; Wipe KeyCopy; Free Drbg; Free Entropy; Free Pk])
  /\ drc_and_trace (l8w8jwt_decode_w pe toy
       (Some (dp_plain (lit "e30.e30." ++ repeat x41 88) 9 (zstr "secret") 6)) true true true we)
  = (Some 0%Z,
     [Init Pk; Init Crt; Store KeyCopy; Load Pk; Init Ecdsa; Init SigR; Init SigS; Use Pk;
      Load Ecdsa; Load SigR; Load SigS; Use Ecdsa; Use SigR; Use SigS; Free Ecdsa; Free SigR;
      Free SigS; Wipe KeyCopy; Free Pk])
  /\ drc_and_trace (l8w8jwt_decode_w pe toy
       (Some (dp_plain (lit "e30.e30." ++ repeat x41 88) 9
                (zstr "-----BEGIN CERTIFICATE-----") 27)) true true true we)
  = (Some 0%Z,
     [Init Pk; Init Crt; Store KeyCopy; Load Crt; Borrow; Init Ecdsa; Init SigR; Init SigS; Use Pk;
      Load Ecdsa; Load SigR; Load SigS; Use Ecdsa; Use SigR; Use SigS; Free Ecdsa; Free SigR;
      Free SigS; Wipe KeyCopy; Free Crt]).
Proof. repeat split; vm_compute; reflexivity. Qed.

(** ** C64 *)
(** When such a call returns, every buffer of its own to which it copied key material was wiped
    after the last such copy. *)
Theorem C64_encode_wipes : forall p e params w r w',
  l8w8jwt_encode p e params w = Ret r w' ->
  traced (l8w8jwt_encode_w p e params) w r w' nothing_secret.
Proof.
  intros p e params w r w'. apply traced_of with (m' := l8w8jwt_encode p e params).
  - intros. apply erase_encode.
  - apply encode_lawful.
  - intros l H. apply H.
Qed.
Print Assumptions C64_encode_wipes.

Theorem C64_decode_wipes : forall p e params vr_nn claims_nn len_nn w r w',
  l8w8jwt_decode p e params vr_nn claims_nn len_nn w = Ret r w' ->
  traced (l8w8jwt_decode_w p e params vr_nn claims_nn len_nn) w r w' nothing_secret.
Proof.
  intros p e params a b c w r w'. apply traced_of with (m' := l8w8jwt_decode p e params a b c).
  - intros. apply erase_decode.
  - apply decode_lawful.
  - intros l H. apply H.
Qed.
Print Assumptions C64_decode_wipes.

Theorem C64_decode_raw_wipes : forall p e params vr_nn h_nn hl_nn p_nn pl_nn s_nn sl_nn w r w',
  l8w8jwt_decode_raw p e params vr_nn h_nn hl_nn p_nn pl_nn s_nn sl_nn w = Ret r w' ->
  traced (l8w8jwt_decode_raw_w p e params vr_nn h_nn hl_nn p_nn pl_nn s_nn sl_nn) w r w' nothing_secret.
Proof.
  intros p e params a b c d f g h w r w'.
  apply traced_of with (m' := l8w8jwt_decode_raw p e params a b c d f g h).
  - intros. apply erase_decode_raw.
  - apply decode_raw_lawful.
  - intros l H. apply H.
Qed.
Print Assumptions C64_decode_raw_wipes.

(** EdDSA: two copies are made and wiped. *)
Example C64_example :
  rc_and_trace (l8w8jwt_encode_w pe toy
    (Some (ep_with (zstr "me") 2 (Ptr None (repeat x41 (N.to_nat 128))) 128 13)) we)
  = (Some 0%Z,
     [Init Pk; Init Entropy; Init Drbg; Store KeyCopy; Load Entropy; Load Drbg; Seeded;
      Store Ref10; Wipe Ref10; Wipe KeyCopy; Free Drbg; Free Entropy; Free Pk]).
Proof. vm_compute. reflexivity. Qed.
