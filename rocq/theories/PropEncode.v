(** * Properties C11, C14-C17, C33, C34, C38-C42, C44, C49: encoding *)
From Verif Require Import Base BaseProofs HeapProofs Util UtilProofs Claim Base64 SpecB64
  Base64EncProofs Base64EncApi Base64DecProofs Base64Api UnescapeProofs Jsmn Env Encode Decode SpecJson SpecJwa
  ClaimProofs EncodeProofs SignProofs EncodeTotal SpecEnc JsonProofs LocalProofs.
From Coq Require Import ZifyBool ZifyNat ZifyN.
Ltac Zify.zify_post_hook ::= Z.div_mod_to_equations.

(** ** A toy crypto backend and sample parameters for the examples *)
Definition toy : env := {|
  e_seed_ok := true;
  e_hmac := fun h k m => Some (fit (md_size h) (k ++ m));
  e_md := fun h m => Some (fit (md_size h) m);
  e_parse_key := fun _ _ _ => Some 0%nat;
  e_parse_public_key := fun _ => Some 0%nat;
  e_x509_parse := fun _ => Some 0%nat;
  e_can_do := fun _ _ => true; e_bitlen := fun _ => 2048%N;
  e_pk_sign := fun _ _ h => Some h; e_pk_verify := fun _ _ _ _ => true;
  e_pk_rsa := fun _ => true; e_rsa_len := fun _ => 256%N;
  e_pss_sign := fun _ _ h => Some h; e_pss_verify := fun _ _ _ _ => true;
  e_pk_ec := fun _ => true; e_ecdsa_from_keypair := fun _ => true; e_group := fun _ => SECP256R1;
  e_ecdsa_sign := fun _ _ => Some (1%N, 2%N); e_ecdsa_verify := fun _ _ _ _ => true;
  e_ed_sign := fun m k => k; e_ed_verify := fun _ _ _ => true; e_time := 1000%Z;
  e_checknum := fun _ => 1%Z; e_jsmn := jsmn_parse; e_tok_junk := fun _ => Tok JUndefined 0 0 |}.
(** The same with 256-bit keys (for ES256). *)
Definition toy_ec : env := {|
  e_seed_ok := true; e_hmac := e_hmac toy; e_md := e_md toy; e_parse_key := e_parse_key toy;
  e_parse_public_key := e_parse_public_key toy; e_x509_parse := e_x509_parse toy;
  e_can_do := e_can_do toy; e_bitlen := fun _ => 256%N; e_pk_sign := e_pk_sign toy;
  e_pk_verify := e_pk_verify toy; e_pk_rsa := e_pk_rsa toy; e_rsa_len := e_rsa_len toy;
  e_pss_sign := e_pss_sign toy; e_pss_verify := e_pss_verify toy; e_pk_ec := e_pk_ec toy;
  e_ecdsa_from_keypair := e_ecdsa_from_keypair toy; e_group := e_group toy;
  e_ecdsa_sign := e_ecdsa_sign toy; e_ecdsa_verify := e_ecdsa_verify toy;
  e_ed_sign := e_ed_sign toy; e_ed_verify := e_ed_verify toy; e_time := e_time toy;
  e_checknum := e_checknum toy; e_jsmn := e_jsmn toy; e_tok_junk := e_tok_junk toy |}.
Definition pe : platform := Platform 64 true false true true.
Definition pe_small : platform := Platform 64 true true true true.
Definition we : world :=
  World (fun _ => true) (fun _ => true) (fun _ _ => xff) 1 0 (fun _ => false).
Definition zstr (s : string) : ptr := Ptr None (clit s).
Arguments zstr s%string_scope.
Lemma we_wf : wf we.
Proof. intros i _. reflexivity. Qed.
Definition ep_sample : enc_params :=
  EncParams 0 (zstr "Black Mesa") 10 (zstr "Gordon""F") 8 Null 0 Null 0 2000 0 1000
    (CArr None [Claim (zstr "kid") 0 (zstr "k1") 2 0]) 1
    (CArr None [Claim (zstr "ctx") 3 (zstr "{""a"":[1, 2]}") 0 6; Claim Null 0 Null 0 0;
                Claim (zstr "age") 3 (zstr "27") 2 1]) 3
    (zstr "secret") 6 Null 0 true true.

(** The outcome of the examples: return code and token text. *)
Definition outcome (m : res enc_res) : option (Z * bytes) :=
  match m with
  | Ret r _ => Some (er_rc r, match er_out r with Some (Ptr _ t) => t | _ => [] end)
  | Undef _ => None
  end.

(** ** C11 *)
(** If no buffer operation fails, a returned token's first two segments are the base64url texts of
    JSON objects with exactly the members asked for, provided the code's comma logic fits the
    parameters and the literal (non-string) values are JSON. Missing: parameters where it does not
    fit, see the next two theorems. *)
Theorem C11_header_and_payload_partial :
  forall p e ep w r w',
    (6 <= p_size_bits p)%N -> wf w -> appended w w' -> allocated w w' ->
    l8w8jwt_encode p e (Some ep) w = Ret r w' -> er_rc r = L8W8JWT_SUCCESS ->
    header_commas_ok ep -> payload_commas_ok ep ->
    raw_values_ok (keyed_claims (ep_header_claims ep) (ep_header_claims_count ep)) ->
    raw_values_ok (keyed_claims (ep_payload_claims ep) (ep_payload_claims_count ep)) ->
    exists id ht pt c j hadd reg padd,
      er_out r = Some (Ptr (Some id) (rfc4648_unpadded true ht ++ lit "."
                                      ++ rfc4648_unpadded true pt ++ lit "." ++ c ++ [x00]))
      /\ supported (ep_alg ep) j
      /\ json_object (fixed_members j ++ hadd) ht
      /\ Forall2 asks_for (keyed_claims (ep_header_claims ep) (ep_header_claims_count ep)) hadd
      /\ json_object (reg ++ padd) pt
      /\ asks_registered ep reg
      /\ Forall2 asks_for (keyed_claims (ep_payload_claims ep) (ep_payload_claims_count ep)) padd.
Proof.
  intros p e ep w r w' Hp Hwf Hg Ha H Hrc Hhc Hpc Hhr Hpr.
  as_unlimited (local_encode p e (Some ep)) H Hg Ha.
  apply encode_inv in H as [(Hrc' & _)|(_ & _ & id & t & Ho & _ & _ & _ & _ & _ & Ht)]; auto; [congruence|].
  destruct (Ht Hg) as (ht & pt & sig & Hh & Hpt & _ & Hs & ->).
  destruct Hs as (j & k & Hj & _).
  destruct (header_object _ _ _ _ Hh Ha Hj Hhc Hhr) as (hadd & (H1 & _) & H2).
  destruct (payload_object _ _ _ Hpt Ha Hpc Hpr) as (reg & padd & (H3 & _) & (H4 & _) & H5).
  exists id, ht, pt, (b64url sig), j, hadd, reg, padd. split; [|auto 10].
  rewrite Ho. unfold b64url. rewrite <- !app_assoc. reflexivity.
Qed.
Print Assumptions C11_header_and_payload_partial.

(** The comma conditions are exactly right: without them the header (payload) of a returned token
    is no JSON object at all. *)
Theorem C11_json_exactly_when :
  forall p e ep w r w',
    (6 <= p_size_bits p)%N -> wf w -> appended w w' -> allocated w w' ->
    l8w8jwt_encode p e (Some ep) w = Ret r w' -> er_rc r = L8W8JWT_SUCCESS ->
    raw_values_ok (keyed_claims (ep_header_claims ep) (ep_header_claims_count ep)) ->
    raw_values_ok (keyed_claims (ep_payload_claims ep) (ep_payload_claims_count ep)) ->
    exists id ht pt c,
      er_out r = Some (Ptr (Some id) (rfc4648_unpadded true ht ++ lit "."
                                      ++ rfc4648_unpadded true pt ++ lit "." ++ c ++ [x00]))
      /\ ((exists ms, json_object ms ht) <-> header_commas_ok ep)
      /\ ((exists ms, json_object ms pt) <-> payload_commas_ok ep).
Proof.
  intros p e ep w r w' Hp Hwf Hg Ha H Hrc Hhr Hpr.
  as_unlimited (local_encode p e (Some ep)) H Hg Ha.
  apply encode_inv in H as [(Hrc' & _)|(_ & _ & id & t & Ho & _ & _ & _ & _ & _ & Ht)]; auto; [congruence|].
  destruct (Ht Hg) as (ht & pt & sig & Hh & Hpt & _ & Hs & ->).
  destruct Hs as (j & k & Hj & _).
  exists id, ht, pt, (b64url sig). split; [rewrite Ho; unfold b64url; rewrite <- !app_assoc; reflexivity|].
  split; split.
  - intros (ms & Hm). eapply header_object_conv; eauto.
  - intros Hc. destruct (header_object _ _ _ _ Hh Ha Hj Hc Hhr) as (hadd & _ & H2). eauto.
  - intros (ms & Hm). eapply payload_object_conv; eauto.
  - intros Hc. destruct (payload_object _ _ _ Hpt Ha Hc Hpr) as (reg & padd & _ & _ & H5). eauto.
Qed.
Print Assumptions C11_json_exactly_when.

(** An issuer given with length 0 ("use strlen", as documented) and one additional claim: the comma
    between them is missing. *)
Definition ep_no_comma : enc_params :=
  EncParams 0 (zstr "me") 0 Null 0 Null 0 Null 0 0 0 0 CNull 0
    (CArr None [Claim (zstr "age") 3 (zstr "27") 2 1]) 1 (zstr "secret") 6 Null 0 true true.
(** A positive header claim count with a NULL array: a comma before the closing brace. *)
Definition ep_trailing_comma : enc_params :=
  EncParams 0 (zstr "me") 2 Null 0 Null 0 Null 0 0 0 0 CNull 1 CNull 0 (zstr "secret") 6 Null 0 true true.
Theorem C11_not_json_refuted :
  (exists ep r w', l8w8jwt_encode pe toy (Some ep) we = Ret r w' /\ er_rc r = L8W8JWT_SUCCESS
     /\ raw_values_ok (keyed_claims (ep_payload_claims ep) (ep_payload_claims_count ep))
     /\ exists id a pt c,
          er_out r = Some (Ptr (Some id) (a ++ lit "." ++ rfc4648_unpadded true pt ++ lit "." ++ c ++ [x00]))
          /\ pt = lit "{""iss"":""me""""age"":27}" /\ (forall ms, ~ json_object ms pt))
  /\ (exists ep r w', l8w8jwt_encode pe toy (Some ep) we = Ret r w' /\ er_rc r = L8W8JWT_SUCCESS
     /\ exists id ht b c,
          er_out r = Some (Ptr (Some id) (rfc4648_unpadded true ht ++ lit "." ++ b ++ lit "." ++ c ++ [x00]))
          /\ ht = lit "{""alg"":""HS256"",""typ"":""JWT"",}" /\ (forall ms, ~ json_object ms ht)).
Proof.
  split.
  - exists ep_no_comma. do 2 eexists. split; [vm_compute; reflexivity|]. split; [reflexivity|]. split.
    + constructor; [|constructor]. intros _ v Hv.
      assert (v = lit "27") as -> by (eapply given_det; [exact Hv|split; [discriminate|reflexivity]]).
      exists [], KNumber, (lit "27"), []. repeat split; auto. constructor.
      apply (JN [] (lit "27") [] []); [left; reflexivity| |constructor|constructor].
      constructor; [vm_compute; tauto|discriminate|]. constructor; [vm_compute; tauto|constructor].
    + exists 8%nat, (rfc4648_unpadded true (lit "{""alg"":""HS256"",""typ"":""JWT""}")),
        (lit "{""iss"":""me""""age"":27}"),
        (rfc4648_unpadded true (fit 32 (lit "secreteyJhbGciOiJIUzI1NiIsInR5cCI6IkpXVCJ9."))).
      split; [vm_compute; reflexivity|]. split; [reflexivity|]. intros ms Hm.
      apply (object_inv ms (lit """iss"":""me""""age"":27")) in Hm as [[_ Hm]|Hm].
      * inversion Hm as [|? ? Hin]; subst. notin Hin.
      * assert (B1 : json_body (lit "iss") (lit "iss")) by (apply lit_body; reflexivity).
        assert (B2 : json_body (lit "me") (lit "me")) by (apply lit_body; reflexivity).
        assert (S : Forall string_text_of [lit """iss"":""me"""]).
        { constructor; [|constructor]. exists (lit "iss"), (lit "iss"), (lit "me"), (lit "me"). auto. }
        refine (string_texts_no_quote _ S _ ms _ (lit "age"":27}") Hm _); [discriminate|reflexivity].
  - exists ep_trailing_comma. do 2 eexists. split; [vm_compute; reflexivity|]. split; [reflexivity|].
    exists 7%nat, (lit "{""alg"":""HS256"",""typ"":""JWT"",}"),
      (rfc4648_unpadded true (lit "{""iss"":""me""}")),
      (rfc4648_unpadded true (fit 32 (lit "secreteyJhbGciOiJIUzI1NiIsInR5cCI6IkpXVCIsfQ."))).
    split; [vm_compute; reflexivity|]. split; [reflexivity|]. intros ms Hm.
    exact (no_trailing_comma ms (lit """alg"":""HS256"",""typ"":""JWT""") Hm).
Qed.
Print Assumptions C11_not_json_refuted.

Example C11_example :
  outcome (l8w8jwt_encode pe toy (Some ep_sample) we)
  = Some (L8W8JWT_SUCCESS,
     rfc4648_unpadded true (lit "{""alg"":""HS256"",""typ"":""JWT"",""kid"":""k1""}") ++ lit "."
     ++ rfc4648_unpadded true (lit "{""iat"":1000,""exp"":2000,""sub"":""Gordon\""F"",""iss"":""Black Mesa"",""ctx"":{""a"":[1, 2]},""age"":27}")
     ++ lit "."
     ++ rfc4648_unpadded true (lit "secreteyJhbGciOiJIUzI1NiIsInR5cC") ++ [x00]).
Proof. vm_compute. reflexivity. Qed.
Example C11_example_hypotheses :
  header_commas_ok ep_sample /\ payload_commas_ok ep_sample
  /\ raw_values_ok (keyed_claims (ep_header_claims ep_sample) (ep_header_claims_count ep_sample))
  /\ raw_values_ok (keyed_claims (ep_payload_claims ep_sample) (ep_payload_claims_count ep_sample)).
Proof.
  assert (D : forall c, In c (lit "127") -> json_value KNumber [c]).
  { intros c Hc. constructor. apply (JN [] [c] [] []); [left; reflexivity| |constructor|constructor].
    simpl in Hc. constructor; [vm_compute; tauto|intros ->; notin Hc|constructor]. }
  split; [intros _; discriminate|]. split.
  { intros _. split; [|intros _; left; left; discriminate].
    intros _. split; [left; left; discriminate|discriminate]. }
  split.
  { constructor; [|constructor]. intros E. vm_compute in E. congruence. }
  constructor; [|constructor; [|constructor]]; intros _ v Hv.
  - assert (v = lit "{""a"":[1, 2]}") as ->.
    { eapply given_det; [exact Hv|]. exists []. split; [reflexivity|]. intros Hin. notin Hin. }
    exists [], KObject, (lit "{""a"":[1, 2]}"), []. repeat split; auto.
    apply (JV_object [Member (lit "a") KArray (lit "[1, 2]")] (lit """a"":[1, 2]")).
    apply (JM_one [] (lit "a") (lit "a") [] [] KArray (lit "[1, 2]") []); auto.
    + apply lit_body. reflexivity.
    + apply (JV_array (lit "1, 2")).
      apply (JEl_cons [] KNumber (lit "1") [] (lit " 2")); auto; [apply D; vm_compute; tauto|].
      apply (JEl_one (lit " ") KNumber (lit "2") []); auto; [|apply D; vm_compute; tauto].
      constructor; [vm_compute; tauto|constructor].
  - assert (v = lit "27") as -> by (eapply given_det; [exact Hv|split; [discriminate|reflexivity]]).
    exists [], KNumber, (lit "27"), []. repeat split; auto. constructor.
    apply (JN [] (lit "27") [] []); [left; reflexivity| |constructor|constructor].
    constructor; [vm_compute; tauto|discriminate|]. constructor; [vm_compute; tauto|constructor].
Qed.

(** ** C14 *)
Definition url_run (s : bytes) : Prop :=
  s <> [] /\ Forall (fun c => In c (rfc4648_alphabet true)) s.
Definition braced (s : bytes) : Prop := exists t, s = lit "{" ++ t ++ lit "}".

(** A token is three runs, the first two decoding (with the library's own decoder) to a text in
    braces each; C11 says which. *)
Theorem C14_token_shape :
  forall p e ep w r w',
    (6 <= p_size_bits p)%N -> wf w -> appended w w' ->
    l8w8jwt_encode p e (Some ep) w = Ret r w' -> er_rc r = L8W8JWT_SUCCESS ->
    exists id a b c ht pt,
      er_out r = Some (Ptr (Some id) (a ++ lit "." ++ b ++ lit "." ++ c ++ [x00]))
      /\ er_len r = Some (N.of_nat (length (a ++ lit "." ++ b ++ lit "." ++ c)))
      /\ url_run a /\ url_run b /\ url_run c
      /\ a = rfc4648_unpadded true ht /\ b = rfc4648_unpadded true pt
      /\ braced ht /\ braced pt
      /\ (forall s t blk w1, In (s, t) [(a, ht); (b, pt)] ->
            wf w1 -> w_alloc w1 (w_next w1) = true ->
            exists z w2, l8w8jwt_base64_decode true (Ptr blk s) (N.of_nat (length s)) true true w1
              = Ret (B64 L8W8JWT_SUCCESS (Some (Ptr (Some (w_next w1)) (t ++ x00 :: z)))
                         (Some (N.of_nat (length t)))) w2).
Proof.
  intros p e ep w r w' Hp Hwf Hg H Hrc.
  as_growing (local_encode p e (Some ep)) H Hg.
  apply encode_inv in H as [(Hrc' & _)|(_ & _ & id & t & Ho & Hl & _ & _ & _ & _ & Ht)]; auto; [congruence|].
  destruct (Ht Hg) as (ht & pt & sig & Hh & Hpt & Hsig & _ & ->).
  assert (Bh : braced ht).
  { destruct Hh as (h & t & Hh & _ & ->). destruct (header_prefix_inv _ _ Hh) as (j & _ & more & ->).
    exists (quoted (lit "alg") ++ lit ":" ++ quoted (j_name j) ++ more
            ++ opt_claims (ep_header_claims_count ep) (lit ",") t).
    rewrite <- !app_assoc.
    reflexivity. }
  assert (Bp : braced pt).
  { destruct Hpt as (tb & r1 & t1 & _ & _ & _ & ->). eexists. rewrite (app_assoc r1). reflexivity. }
  assert (Run : forall s, s <> [] -> url_run (b64url s)).
  { intros s Hs. split; [apply b64url_nonempty; auto|apply b64url_alphabet]. }
  assert (Nh : ht <> []) by (destruct Bh as (x & ->); discriminate).
  assert (Np : pt <> []) by (destruct Bp as (x & ->); discriminate).
  exists id, (b64url ht), (b64url pt), (b64url sig), ht, pt.
  split; [rewrite Ho, <- !app_assoc; reflexivity|]. split; [exact Hl|].
  split; [auto|]. split; [auto|]. split; [auto|]. split; [reflexivity|]. split; [reflexivity|].
  split; [exact Bh|]. split; [exact Bp|].
  intros s t blk w1 Hin Hw1 Hal.
  assert (K : t <> [] /\ s = b64_text true t).
  { destruct Hin as [E|[E|[]]]; inversion E; subst; auto. }
  destruct K as (Hn & ->).
  destruct (decode_text true blk t [] w1 Hw1 Hn Hal) as (z & Hz). rewrite app_nil_r in Hz. eauto.
Qed.
Print Assumptions C14_token_shape.

(** ** C15 *)
Theorem C15_header_names_algorithm :
  forall p e ep w r w',
    (6 <= p_size_bits p)%N -> wf w -> appended w w' ->
    l8w8jwt_encode p e (Some ep) w = Ret r w' -> er_rc r = L8W8JWT_SUCCESS ->
    exists id j k ht pt sig blk mem more,
      er_out r = Some (Ptr (Some id) (rfc4648_unpadded true ht ++ lit "."
                        ++ rfc4648_unpadded true pt ++ lit "." ++ rfc4648_unpadded true sig ++ [x00]))
      /\ supported (ep_alg ep) j
      /\ ht = lit "{" ++ quoted (lit "alg") ++ lit ":" ++ quoted (j_name j) ++ more
      (* the caller's key bytes *)
      /\ ep_secret_key ep = Ptr blk mem /\ k = firstn (N.to_nat (ep_secret_key_length ep)) mem
      /\ length k = N.to_nat (ep_secret_key_length ep)
      /\ signed_by e j k (ep_secret_key_pw ep) (ep_secret_key_pw_length ep)
           (rfc4648_unpadded true ht ++ lit "." ++ rfc4648_unpadded true pt) sig.
Proof.
  intros p e ep w r w' Hp Hwf Hg H Hrc.
  as_growing (local_encode p e (Some ep)) H Hg.
  apply encode_inv in H as [(Hrc' & _)|(_ & _ & id & t & Ho & _ & _ & _ & _ & _ & Ht)]; auto; [congruence|].
  destruct (Ht Hg) as (ht & pt & sig & Hh & _ & _ & (j & k & Hj & (blk & mem & Eq & Hlen & Ek) & Hs) & ->).
  destruct Hh as (h & t1 & Hh & _ & Eht). destruct (header_prefix_inv _ _ Hh) as (j' & Hj' & more & Eh).
  assert (j' = j) as ->.
  { destruct Hj as [Hin Hid], Hj' as [Hin' Hid']. rewrite <- Hid' in Hid. clear - Hin Hin' Hid.
    cbn [jwa_table In] in Hin, Hin'.
    decompose [or] Hin; try contradiction; subst; decompose [or] Hin'; try contradiction; subst;
      try reflexivity; discriminate Hid. }
  rewrite Eh, <- !app_assoc in Eht.
  exists id, j, k, ht, pt, sig, blk, mem. eexists. split; [rewrite Ho; unfold b64url; rewrite <- !app_assoc; reflexivity|].
  split; [exact Hj|]. split; [exact Eht|]. split; [exact Eq|]. split; [exact Ek|].
  split; [rewrite Ek, firstn_length; lia|]. exact Hs.
Qed.
Print Assumptions C15_header_names_algorithm.
Example C15_example :
  signed_by toy (Jwa 0 (lit "HS256") HS SHA256) (lit "secret") Null 0 (lit "eyJhbGciOiJIUzI1NiIsInR5cCI6")
    (lit "secreteyJhbGciOiJIUzI1NiIsInR5cC").
Proof. eexists. split; vm_compute; reflexivity. Qed.

(** ** C16 *)
Theorem C16_unknown_algorithm :
  forall p e ep w,
    wf w -> (forall j, ~ supported (ep_alg ep) j) ->
    exists r w', l8w8jwt_encode p e (Some ep) w = Ret r w'
      /\ er_rc r <> L8W8JWT_SUCCESS /\ er_out r = None /\ er_len r = None
      /\ (forall i, w_live w' i = w_live w i).
Proof.
  intros p e ep w Hwf Hj.
  assert (Hh : header_prefix (ep_alg ep) = None).
  { destruct (header_prefix (ep_alg ep)) eqn:E; [|reflexivity].
    destruct (header_prefix_inv _ _ E) as (j & Hs & _). exfalso. eapply Hj; eauto. }
  unfold l8w8jwt_encode.
  destruct (Z.eqb_spec (l8w8jwt_validate_encoding_params (Some ep)) L8W8JWT_SUCCESS) as [Ev|Ev];
    cbn [negb]; [|do 2 eexists; split; [reflexivity|]; auto].
  unfold mbind at 1. rewrite cb_init_eq. destruct (w_alloc w (w_next w)).
  2:{ do 2 eexists. split; [reflexivity|]. split; [discriminate|]. auto. }
  pose proof (wf_ok _ Hwf) as W1.
  assert (Hb : exists w1, encode_body p e (CB (w_next w) []) ep (w_ok w)
     = Ret (EncRes (if w_alloc w (w_next (w_ok w)) then L8W8JWT_INVALID_ARG else L8W8JWT_OUT_OF_MEM) None None,
            CB (w_next w) []) w1 /\ quiet (w_ok w) w1).
  { unfold encode_body, write_header_and_payload. unfold mbind at 1. unfold mbind at 1. rewrite cb_init_eq.
    change (w_alloc (w_ok w)) with (w_alloc w). destruct (w_alloc w (w_next (w_ok w))).
    - rewrite Hh. unfold mbind at 1, cb_free. cbn [cb_id]. rewrite free_id_eq by (cbn; apply upd_live_same).
      eexists. split; [reflexivity|]. apply quiet_alloc_free; auto. apply quiet_refl.
    - eexists. split; [reflexivity|]. apply quiet_no. }
  destruct Hb as (w1 & Hb & Q). mstep Hb. unfold mbind, cb_free. cbn [cb_id].
  rewrite free_id_eq by (eapply quiet_live; [exact Q|cbn; apply upd_live_same]).
  do 2 eexists. split; [reflexivity|]. split; [cbn [er_rc]; destruct (w_alloc w _); discriminate|].
  split; [reflexivity|]. split; [reflexivity|].
  apply (quiet_alloc_free w w1 Hwf Q).
Qed.
Print Assumptions C16_unknown_algorithm.
(** -1 and the initial value -2 are such ids. *)
Example C16_example : (forall j, ~ supported (-1) j) /\ (forall j, ~ supported (ep_alg l8w8jwt_encoding_params_init) j).
Proof.
  split; intros j (Hin & E); cbn [jwa_table In] in Hin; decompose [or] Hin; try contradiction; subst;
    discriminate E.
Qed.

(** ** C17 *)
(** What the property asks of the key [k] of algorithm [j]. *)
Definition suitable_key (e : env) (j : jwa) (k : bytes) (pw : ptr) (pwl : N) : Prop :=
  match j_family j with
  | HS => True
  | RS | PS => exists key, e_parse_key e (pem_text k) pw pwl = Some key
      /\ (e_can_do e key PK_RSA = true \/ e_can_do e key PK_RSA_ALT = true
          \/ e_can_do e key PK_RSASSA_PSS = true)
      /\ (2048 <= e_bitlen e key)%N
  | ES curve bits _ => exists key, e_parse_key e (pem_text k) pw pwl = Some key
      /\ e_can_do e key PK_ECDSA = true /\ e_group e key = curve /\ e_bitlen e key = bits
  | ED => exists hx, (k = hx \/ k = hx ++ [x00]) /\ length hx = 128%nat
            /\ exists kb, unhex hx = Some kb
  end.
(** Proved for everything but the hex digits of an EdDSA key. *)
Theorem C17_unsuitable_keys_partial :
  forall p e ep w r w',
    (6 <= p_size_bits p)%N -> wf w ->
    l8w8jwt_encode p e (Some ep) w = Ret r w' -> er_rc r = L8W8JWT_SUCCESS ->
    exists j k, supported (ep_alg ep) j
      /\ caller_key (ep_secret_key ep) (ep_secret_key_length ep) k
      /\ (j_family j <> ED -> suitable_key e j k (ep_secret_key_pw ep) (ep_secret_key_pw_length ep))
      /\ (j_family j = ED -> exists hx, (k = hx \/ k = hx ++ [x00]) /\ length hx = 128%nat).
Proof.
  intros p e ep w r w' Hp Hwf H Hrc.
  apply encode_inv in H as [(Hrc' & _)|(_ & _ & id & t & _ & _ & _ & _ & _ & Hs & _)]; auto; [congruence|].
  destruct Hs as (msg & sig & j & k & Hj & Hk & Hs). exists j, k. split; [exact Hj|]. split; [exact Hk|].
  unfold signed_by, suitable_key in *. destruct (j_family j).
  - split; [auto|discriminate].
  - destruct Hs as (key & d & s & H1 & _ & H2 & H3 & _). split; [|discriminate]. intros _.
    exists key. tauto.
  - destruct Hs as (key & d & s & H1 & _ & H2 & _ & H3 & _). split; [|discriminate]. intros _.
    exists key. tauto.
  - destruct Hs as (key & d & r1 & s & H1 & _ & H2 & _ & H3 & H4 & _). split; [|discriminate]. intros _.
    exists key. tauto.
  - split; [congruence|]. intros _. destruct Hs as (hx & H1 & H2 & _). eauto.
Qed.
Print Assumptions C17_unsuitable_keys_partial.

Definition ep_ed : enc_params :=
  EncParams 13 (zstr "me") 2 Null 0 Null 0 Null 0 0 0 0 CNull 0 CNull 0
    (Ptr None (repeat x7a (N.to_nat 128))) 128 Null 0 true true.
(** 128 letters "z" are accepted as an EdDSA key. *)
Theorem C17_non_hex_key_refuted :
  exists ep r w', l8w8jwt_encode pe toy (Some ep) we = Ret r w' /\ er_rc r = L8W8JWT_SUCCESS
    /\ ep_alg ep = L8W8JWT_ALG_ED25519
    /\ forall k, caller_key (ep_secret_key ep) (ep_secret_key_length ep) k -> k = repeat x7a (N.to_nat 128).
Proof.
  exists ep_ed. do 2 eexists. split; [vm_compute; reflexivity|]. split; [reflexivity|]. split; [reflexivity|].
  intros k (b & m & E & _ & ->). cbn [ep_ed ep_secret_key ep_secret_key_length] in *.
  assert (m = repeat x7a (N.to_nat 128)) as -> by congruence. apply firstn_all2. rewrite repeat_length. lia.
Qed.
Print Assumptions C17_non_hex_key_refuted.
Example C17_example :
  er_rc (match l8w8jwt_encode pe toy_ec (Some (EncParams 9 (zstr "me") 2 Null 0 Null 0 Null 0 0 0 0
           CNull 0 CNull 0 (zstr "PEM") 3 Null 0 true true)) we with Ret r _ => r | Undef _ => EncRes 1 None None end)
  = L8W8JWT_SUCCESS
  /\ er_rc (match l8w8jwt_encode pe toy (Some (EncParams 9 (zstr "me") 2 Null 0 Null 0 Null 0 0 0 0
           CNull 0 CNull 0 (zstr "PEM") 3 Null 0 true true)) we with Ret r _ => r | Undef _ => EncRes 1 None None end)
  = L8W8JWT_WRONG_KEY_TYPE.
Proof. split; vm_compute; reflexivity. Qed.

(** ** C33 *)
(** Freeing twice or freeing what is not a block is undefined in the model, so a call that returns
    did neither. *)
Theorem C33_encode_frees_everything :
  forall p e ep w r w',
    (6 <= p_size_bits p)%N -> wf w ->
    l8w8jwt_encode p e (Some ep) w = Ret r w' ->
    (er_rc r <> L8W8JWT_SUCCESS /\ (er_out r = None \/ er_out r = Some Null)
     /\ forall i, w_live w' i = w_live w i)
    \/ (er_rc r = L8W8JWT_SUCCESS
        /\ exists id mem, er_out r = Some (Ptr (Some id) mem) /\ w_live w id = false
             /\ forall i, w_live w' i = (Nat.eqb i id || w_live w i)%bool).
Proof.
  intros p e ep w r w' Hp Hwf H.
  apply encode_inv in H as [(Hrc & Ho & _ & Q)|(Hrc & _ & id & t & Ho & _ & Hid & _ & Hl & _)]; auto.
  - left. split; [exact Hrc|]. split; [exact Ho|]. apply Q.
  - right. split; [exact Hrc|]. exists id. eexists. split; [exact Ho|]. split; [apply Hwf; lia|].
    intros i. rewrite Hl. destruct (Nat.eqb i id); reflexivity.
Qed.
Print Assumptions C33_encode_frees_everything.

(** ** C49 *)
(** Encoding is free of undefined behaviour for readable parameters (ASCII only where [char] is
    signed), mbedtls-like key types, a key with room for its NUL, and in small-stack builds
    enough memory. *)
Theorem C49_encode_memory_safe_partial :
  forall p e ep w,
    (6 <= p_size_bits p)%N -> wf w -> enc_readable p ep ->
    key_given (ep_secret_key ep) (ep_secret_key_length ep) ->
    lawful_keys e -> (p_small_stack p = false \/ allocs w) ->
    exists r w', l8w8jwt_encode p e (Some ep) w = Ret r w'.
Proof.
  intros p e ep w Hp Hwf Hr Hk Hl Hb. apply encode_total; auto. intros Hv. apply key_given_ok; [exact Hk|..].
  - intros E. unfold l8w8jwt_validate_encoding_params in Hv. rewrite E in Hv. discriminate Hv.
  - unfold l8w8jwt_validate_encoding_params in Hv. change L8W8JWT_MAX_KEY_SIZE with 8192%N in Hv.
    destruct (is_null _ || _ || _); [discriminate Hv|]. destruct (N.eqb_spec (ep_secret_key_length ep) 0); [discriminate Hv|].
    destruct (N.ltb_spec 8192 (ep_secret_key_length ep)); [discriminate Hv|]. lia.
Qed.
Print Assumptions C49_encode_memory_safe_partial.
Example C49_example :
  enc_readable pe ep_sample /\ key_given (ep_secret_key ep_sample) (ep_secret_key_length ep_sample)
  /\ lawful_keys toy.
Proof.
  assert (G0 : forall s, (forallb (fun c => negb (is_nul c)) (lit s)) = true -> given (zstr s) 0 (lit s)).
  { intros s Hs. exists []. split; [reflexivity|]. intros Hin. rewrite forallb_forall in Hs.
    specialize (Hs _ Hin). discriminate. }
  assert (Gn : forall s n, (0 < n)%N -> n = N.of_nat (length (lit s)) -> given (zstr s) n (lit s)).
  { intros s n Hn ->. cbn [zstr given]. destruct (N.eqb_spec (N.of_nat (length (lit s))) 0); [lia|].
    unfold clit. rewrite app_length. split; [lia|]. rewrite Nat2N.id. symmetry. apply firstn_app_exact. }
  assert (Pl : forall s, forallb (fun c => (b2n c <? 128)%N) s = true -> Forall (plain pe) s)
    by (intros; apply plain_name; auto).
  split; [|split].
  - split; [|split; [|split; [|split; [|split]]]].
    + split; [discriminate|]. eexists. split.
      * eapply Sized_cons; [apply G0|apply Gn|apply Pl|intros _; apply Pl|apply Sized_nil];
          exact eq_refl.
      * discriminate.
    + split; [discriminate|]. eexists. split.
      * eapply Sized_cons; [apply Gn|apply G0|apply Pl|intros _; apply Pl|];
          [exact eq_refl..|].
        apply Sized_skip; [reflexivity|].
        eapply Sized_cons; [apply Gn|apply Gn|apply Pl|intros _; apply Pl|apply Sized_nil];
          exact eq_refl.
      * discriminate.
    + right. eexists. split; [apply Gn; exact eq_refl|]. split; [apply Pl; reflexivity|discriminate].
    + right. eexists. split; [apply Gn; exact eq_refl|]. split; [apply Pl; reflexivity|discriminate].
    + left. reflexivity.
    + left. reflexivity.
  - right. exists (lit "secret"). split; [|discriminate].
    exists None. eexists. split; [reflexivity|]. split; [discriminate|reflexivity].
  - intros k pw n key _. split; intros _; repeat split; discriminate.
Qed.
(** A key that is too long, one that is empty and a missing one are covered too. *)
Example C49_key_example :
  key_given (Ptr None (repeat x41 (N.to_nat 9000))) 9000 /\ key_given (Ptr None []) 0 /\ key_given Null 7.
Proof.
  split; [|split; [|left; reflexivity]]; right; eexists; (split; [|discriminate]); do 2 eexists;
    (split; [reflexivity|]); (split; [|reflexivity]); rewrite ?repeat_length; cbn [length]; lia.
Qed.
(** Each restriction is needed. *)
Definition ep_with (q : ptr) (n : N) (key : ptr) (kn : N) (alg : Z) : enc_params :=
  EncParams alg q n Null 0 Null 0 Null 0 0 0 0 CNull 0 CNull 0 key kn Null 0 true true.
Theorem C49_undefined_refuted :
  (* non-ASCII claim text where char is signed *)
  l8w8jwt_encode pe toy (Some (ep_with (Ptr None [xc3; xa9; x00]) 2 (zstr "secret") 6 0)) we = Undef BadIndex
  (* a key of the maximal length, without terminating NUL *)
  /\ l8w8jwt_encode pe toy (Some (ep_with (zstr "me") 2 (Ptr None (repeat x41 (N.to_nat 8192))) 8192 3)) we
     = Undef OOBRead
  (* a small-stack build whose key buffer cannot be allocated *)
  /\ (exists w, wf w /\ grows w
        /\ l8w8jwt_encode pe_small toy (Some (ep_with (zstr "me") 2 (zstr "secret") 6 0)) w = Undef NullDeref).
Proof.
  split; [vm_compute; reflexivity|]. split; [vm_compute; reflexivity|].
  exists (World (fun k => negb (Nat.eqb k 7)) (fun _ => true) (fun _ _ => xff) 1 0 (fun _ => false)).
  split; [intros i _; reflexivity|]. split; [intros k; reflexivity|]. vm_compute. reflexivity.
Qed.
Print Assumptions C49_undefined_refuted.

(** ** C34 *)
(** What a group of claims contributes when memory may run out: everything or nothing. *)
Definition all_or_nothing (claims : cptr) (n : N) (t : bytes) : Prop :=
  t = [] \/ exists ts, Forall2 text_of (keyed_claims claims n) ts /\ t = join ts.
(** Under failing allocations (no failing chillbuff_push_back) a returned token still has the right
    algorithm and a valid signature, but each group of claims is complete or missing. Missing: that
    no group is dropped; that is false. *)
Theorem C34_claims_all_or_nothing_partial :
  forall p e ep w r w',
    (6 <= p_size_bits p)%N -> wf w -> appended w w' ->
    l8w8jwt_encode p e (Some ep) w = Ret r w' -> er_rc r = L8W8JWT_SUCCESS ->
    exists id h th reg th2 tbuf sep sig,
      let ht := h ++ th ++ lit "}" in
      let pt := lit "{" ++ reg ++ th2 ++ lit "}" in
      let msg := rfc4648_unpadded true ht ++ lit "." ++ rfc4648_unpadded true pt in
      er_out r = Some (Ptr (Some id) (msg ++ lit "." ++ rfc4648_unpadded true sig ++ [x00]))
      /\ enc_signed e ep msg sig
      /\ header_prefix (ep_alg ep) = Some h
      /\ (th = [] \/ exists t, th = lit "," ++ t /\ all_or_nothing (ep_header_claims ep) (ep_header_claims_count ep) t)
      /\ iatnbfexp ep = OK tbuf /\ all_or_nothing (CArr None (registered_claims ep tbuf)) 7 reg
      /\ (th2 = [] \/ exists t, th2 = sep ++ t
             /\ all_or_nothing (ep_payload_claims ep) (ep_payload_claims_count ep) t).
Proof.
  intros p e ep w r w' Hp Hwf Hg H Hrc.
  as_growing (local_encode p e (Some ep)) H Hg.
  apply encode_inv in H as [(Hrc' & _)|(_ & _ & id & t & Ho & _ & _ & _ & _ & _ & Ht)]; auto; [congruence|].
  destruct (Ht Hg) as (ht & pt & sig & (h & t1 & Hh & Hw1 & ->) & (tb & r1 & t2 & Htb & Hwr & Hw2 & ->) & _ & Hs & ->).
  assert (A : forall c n t, wrote c n (allocs (growing w)) t -> all_or_nothing c n t).
  { intros c n t [(-> & _)|(b & cs & ts & -> & _ & Hts & ->)]; [left; reflexivity|]. right. exists ts. auto. }
  exists id, h, (opt_claims (ep_header_claims_count ep) (lit ",") t1), r1,
    (opt_claims (ep_payload_claims_count ep) (comma ep) t2), tb, (comma ep), sig. cbv zeta.
  split; [rewrite Ho; unfold b64url; rewrite <- !app_assoc; reflexivity|].
  split; [exact Hs|]. split; [exact Hh|]. split.
  { unfold opt_claims. destruct (0 <? _)%N; [right; exists t1; auto|left; reflexivity]. }
  split; [exact Htb|]. split; [auto|].
  unfold opt_claims. destruct (0 <? _)%N; [right; exists t2; auto|left; reflexivity].
Qed.
Print Assumptions C34_claims_all_or_nothing_partial.

(** One failing allocation inside l8w8jwt_write_claims: encode reports success with a token that
    lacks all registered claims, among them the expiry time. *)
Definition we_fail4 : world :=
  World (fun k => negb (Nat.eqb k 4)) (fun _ => true) (fun _ _ => xff) 1 0 (fun _ => false).
Definition ep_exp_only : enc_params :=
  EncParams 0 Null 0 Null 0 Null 0 Null 0 2000 0 0 CNull 0 CNull 0 (zstr "secret") 6 Null 0 true true.
Theorem C34_claims_silently_dropped_refuted :
  exists ep w t0 t1, wf w /\ grows w
    /\ outcome (l8w8jwt_encode pe toy (Some ep) we) = Some (L8W8JWT_SUCCESS, t0)
    /\ outcome (l8w8jwt_encode pe toy (Some ep) w) = Some (L8W8JWT_SUCCESS, t1)
    /\ (exists a c, t0 = a ++ lit "." ++ rfc4648_unpadded true (lit "{""exp"":2000}") ++ c)
    /\ (exists a c, t1 = a ++ lit "." ++ rfc4648_unpadded true (lit "{}") ++ lit "." ++ c)
    /\ t0 <> t1.
Proof.
  exists ep_exp_only, we_fail4. do 2 eexists. split; [intros i _; reflexivity|]. split; [intros k; reflexivity|].
  split; [vm_compute; reflexivity|]. split; [vm_compute; reflexivity|]. split; [|split].
  - exists (rfc4648_unpadded true (lit "{""alg"":""HS256"",""typ"":""JWT""}")),
      (lit "." ++ rfc4648_unpadded true (fit 32 (lit "secreteyJhbGciOiJIUzI1NiIsInR5cCI6")) ++ [x00]).
    vm_compute. reflexivity.
  - exists (rfc4648_unpadded true (lit "{""alg"":""HS256"",""typ"":""JWT""}")),
      (rfc4648_unpadded true (fit 32 (lit "secreteyJhbGciOiJIUzI1NiIsInR5cCI6")) ++ [x00]).
    vm_compute. reflexivity.
  - vm_compute. discriminate.
Qed.
Print Assumptions C34_claims_silently_dropped_refuted.

(** ** C38 *)
(** encode.h: "secret_key", "out" and "out_length" are mandatory, the key length must be in
    1..L8W8JWT_MAX_KEY_SIZE, and a claims array comes with a non-zero count. *)
Definition enc_required (ep : enc_params) : Prop :=
  ep_secret_key ep <> Null /\ ep_out_nn ep = true /\ ep_out_length_nn ep = true.
Definition enc_lengths (ep : enc_params) : Prop :=
  (1 <= ep_secret_key_length ep <= 8192)%N
  /\ (ep_payload_claims ep <> CNull -> ep_payload_claims_count ep <> 0%N)
  /\ (ep_header_claims ep <> CNull -> ep_header_claims_count ep <> 0%N).
Lemma is_null_iff q : is_null q = true <-> q = Null.
Proof. destruct q; simpl; split; congruence. Qed.
Lemma is_cnull_iff c : is_cnull c = true <-> c = CNull.
Proof. destruct c; simpl; split; congruence. Qed.

Theorem C38_validate_encoding_params :
  l8w8jwt_validate_encoding_params None = L8W8JWT_NULL_ARG
  /\ forall ep,
    (enc_required ep -> enc_lengths ep ->
       l8w8jwt_validate_encoding_params (Some ep) = L8W8JWT_SUCCESS)
    /\ (enc_required ep -> ~ enc_lengths ep ->
       l8w8jwt_validate_encoding_params (Some ep) = L8W8JWT_INVALID_ARG)
    /\ (~ enc_required ep -> l8w8jwt_validate_encoding_params (Some ep) = L8W8JWT_NULL_ARG).
Proof.
  split; [reflexivity|]. intros ep. unfold enc_required, enc_lengths, l8w8jwt_validate_encoding_params.
  pose proof (is_null_iff (ep_secret_key ep)) as K1.
  pose proof (is_cnull_iff (ep_payload_claims ep)) as K2.
  pose proof (is_cnull_iff (ep_header_claims ep)) as K3.
  change L8W8JWT_MAX_KEY_SIZE with 8192%N.
  destruct (is_null (ep_secret_key ep)), (ep_out_nn ep), (ep_out_length_nn ep); cbn [negb orb];
    try (assert (ep_secret_key ep = Null) by tauto;
         split; [tauto|]; split; [tauto|]; reflexivity);
    try (split; [intros (_ & X & Y); congruence|]; split; [intros (_ & X & Y); congruence|]; reflexivity).
  assert (N0 : ep_secret_key ep <> Null) by (intros E; apply K1 in E; discriminate).
  destruct (N.eqb_spec (ep_secret_key_length ep) 0) as [E0|E0]; cbn [orb].
  { split; [intros _ (X & _); lia|]. split; [reflexivity|tauto]. }
  destruct (N.ltb_spec 8192 (ep_secret_key_length ep)) as [E1|E1].
  { split; [intros _ (X & _); lia|]. split; [reflexivity|tauto]. }
  destruct (is_cnull (ep_payload_claims ep)), (N.eqb_spec (ep_payload_claims_count ep) 0) as [E2|E2]; cbn [negb andb];
    try (split; [intros _ (_ & X & _); exfalso; apply X; [intros E; apply K2 in E; discriminate|exact E2]|];
         split; [reflexivity|tauto]);
  (destruct (is_cnull (ep_header_claims ep)), (N.eqb_spec (ep_header_claims_count ep) 0) as [E3|E3]; cbn [negb andb];
    [..|(split; [intros _ (_ & _ & X); exfalso; apply X; [intros E; apply K3 in E; discriminate|exact E3]|];
         split; [reflexivity|tauto])|];
    try (split; [intros _ (_ & _ & X); exfalso; apply X; [intros E; apply K3 in E; discriminate|exact E3]|];
         split; [reflexivity|tauto]);
    (split; [reflexivity|]; split; [intros _ X; exfalso; apply X; split; [lia|]; tauto|tauto])).
Qed.
Print Assumptions C38_validate_encoding_params.

(** decode.h: "jwt" and "verification_key" mandatory, lengths non-zero and the key not too long;
    EdDSA only if compiled in. *)
Definition dec_required (dp : dec_params) : Prop := dp_jwt dp <> Null /\ dp_verification_key dp <> Null.
Definition dec_lengths (dp : dec_params) : Prop :=
  dp_jwt_length dp <> 0%N /\ (1 <= dp_verification_key_length dp <= 8192)%N.
Theorem C38_validate_decoding_params :
  forall p, l8w8jwt_validate_decoding_params p None = L8W8JWT_NULL_ARG
  /\ forall dp,
    (~ dec_required dp -> l8w8jwt_validate_decoding_params p (Some dp) = L8W8JWT_NULL_ARG)
    /\ (dec_required dp -> ~ dec_lengths dp ->
         l8w8jwt_validate_decoding_params p (Some dp) = L8W8JWT_INVALID_ARG)
    /\ (dec_required dp -> dec_lengths dp ->
         l8w8jwt_validate_decoding_params p (Some dp)
         = if (negb (p_eddsa p) && (dp_alg dp =? 13)%Z)%bool then L8W8JWT_UNSUPPORTED_ALG
           else L8W8JWT_SUCCESS).
Proof.
  intros p. split; [reflexivity|]. intros dp.
  unfold dec_required, dec_lengths, l8w8jwt_validate_decoding_params.
  pose proof (is_null_iff (dp_jwt dp)) as K1. pose proof (is_null_iff (dp_verification_key dp)) as K2.
  change L8W8JWT_MAX_KEY_SIZE with 8192%N. change L8W8JWT_ALG_ED25519 with 13%Z.
  destruct (is_null (dp_jwt dp)); cbn [orb]; [split; [reflexivity|]; tauto|].
  destruct (is_null (dp_verification_key dp)); cbn [orb]; [split; [reflexivity|]; tauto|].
  split; [intros H; exfalso; apply H; split; intros E; [apply K1 in E|apply K2 in E]; discriminate|].
  destruct (N.eqb_spec (dp_jwt_length dp) 0); cbn [orb]; [split; [reflexivity|lia]|].
  destruct (N.eqb_spec (dp_verification_key_length dp) 0); cbn [orb]; [split; [reflexivity|lia]|].
  destruct (N.ltb_spec 8192 (dp_verification_key_length dp)); [split; [reflexivity|lia]|].
  split; [lia|reflexivity].
Qed.
Print Assumptions C38_validate_decoding_params.

(** encode and decode return exactly that code, and change nothing. *)
Theorem C38_rejected_untouched :
  (forall p e params w, l8w8jwt_validate_encoding_params params <> L8W8JWT_SUCCESS ->
     l8w8jwt_encode p e params w
     = Ret (EncRes (l8w8jwt_validate_encoding_params params) None None) w)
  /\ (forall p e params vr cl ln w,
       l8w8jwt_validate_decoding_params p params <> L8W8JWT_SUCCESS -> (cl = true -> ln = true) ->
     l8w8jwt_decode p e params vr cl ln w
     = Ret (DecRes (l8w8jwt_validate_decoding_params p params) None None) w)
  /\ (forall p e params vr ln w,
       params <> None -> ln = false ->
     l8w8jwt_decode p e params vr true ln w = Ret (DecRes L8W8JWT_NULL_ARG None None) w).
Proof.
  split; [|split].
  - intros p e params w H. unfold l8w8jwt_encode. destruct params as [ep|]; [|reflexivity].
    destruct (Z.eqb_spec (l8w8jwt_validate_encoding_params (Some ep)) L8W8JWT_SUCCESS); [contradiction|].
    reflexivity.
  - intros p e params vr cl ln w H Hn. unfold l8w8jwt_decode. destruct params as [dp|].
    + assert (E : (cl && negb ln)%bool = false).
      { destruct cl; [rewrite Hn by reflexivity|]; reflexivity. }
      rewrite E.
      destruct (Z.eqb_spec (l8w8jwt_validate_decoding_params p (Some dp)) L8W8JWT_SUCCESS); [contradiction|].
      reflexivity.
    + reflexivity.
  - intros p e params vr ln w H ->. destruct params as [dp|]; [reflexivity|congruence].
Qed.
Print Assumptions C38_rejected_untouched.

(** The raw functions: which output pointers must be given (decode.h), the code when one is missing, and
    the validator's code otherwise; nothing is touched in either case. [l8w8jwt_decode] checks its result
    pointer last. *)
Theorem C38_result_pointers :
  (forall p e params cl ln w, (cl = true -> ln = true) -> l8w8jwt_validate_decoding_params p params = L8W8JWT_SUCCESS ->
     l8w8jwt_decode p e params false cl ln w = Ret (DecRes L8W8JWT_NULL_ARG None None) w)
  /\ (forall p e params vr h hl pl pll s sl w,
       (vr = false \/ (h = true /\ hl = false) \/ (pl = true /\ pll = false) \/ (s = true /\ sl = false)) ->
       l8w8jwt_decode_raw p e params vr h hl pl pll s sl w = Ret (RawRes L8W8JWT_NULL_ARG None None None None) w)
  /\ (forall p e params h hl pl pll s sl w,
       (h = true -> hl = true) -> (pl = true -> pll = true) -> (s = true -> sl = true) ->
       l8w8jwt_validate_decoding_params p params <> L8W8JWT_SUCCESS ->
       l8w8jwt_decode_raw p e params true h hl pl pll s sl w
       = Ret (RawRes (l8w8jwt_validate_decoding_params p params) None None None None) w)
  /\ (forall p params h hl pl pll s sl w,
       ((h = false /\ pl = false /\ s = false)
        \/ (h = true /\ hl = false) \/ (pl = true /\ pll = false) \/ (s = true /\ sl = false)) ->
       l8w8jwt_decode_raw_no_validation p params h hl pl pll s sl w
       = Ret (RawRes L8W8JWT_NULL_ARG None None None None) w)
  /\ (forall p params h hl pl pll s sl w,
       (h = true \/ pl = true \/ s = true) ->
       (h = true -> hl = true) -> (pl = true -> pll = true) -> (s = true -> sl = true) ->
       l8w8jwt_validate_decoding_params p params <> L8W8JWT_SUCCESS ->
       l8w8jwt_decode_raw_no_validation p params h hl pl pll s sl w
       = Ret (RawRes (l8w8jwt_validate_decoding_params p params) None None None None) w).
Proof.
  split; [|split; [|split; [|split]]].
  - intros p e [dp|] cl ln w Hn V; [|discriminate]. unfold l8w8jwt_decode. rewrite V.
    replace (cl && negb ln)%bool with false by (destruct cl; [rewrite Hn by reflexivity|]; reflexivity). reflexivity.
  - intros p e [dp|] vr h hl pl pll s sl w H; [|reflexivity]. unfold l8w8jwt_decode_raw.
    replace (negb vr || (h && negb hl) || (pl && negb pll) || (s && negb sl))%bool with true; [reflexivity|].
    destruct H as [->|[[-> ->]|[[-> ->]|[-> ->]]]]; cbn; rewrite ?orb_true_r; reflexivity.
  - intros p e [dp|] h hl pl pll s sl w Hh Hp Hs V; [|reflexivity]. unfold l8w8jwt_decode_raw.
    replace (negb true || (h && negb hl) || (pl && negb pll) || (s && negb sl))%bool with false.
    + cbv zeta. destruct (Z.eqb_spec (l8w8jwt_validate_decoding_params p (Some dp)) L8W8JWT_SUCCESS); [contradiction|reflexivity].
    + destruct h; [rewrite Hh by reflexivity|]; (destruct pl; [rewrite Hp by reflexivity|]; (destruct s; [rewrite Hs by reflexivity|]; reflexivity)).
  - intros p [dp|] h hl pl pll s sl w H; [|reflexivity]. unfold l8w8jwt_decode_raw_no_validation.
    replace ((negb h && negb pl && negb s) || (h && negb hl) || (pl && negb pll) || (s && negb sl))%bool with true; [reflexivity|].
    destruct H as [[-> [-> ->]]|[[-> ->]|[[-> ->]|[-> ->]]]]; cbn; rewrite ?orb_true_r; reflexivity.
  - intros p [dp|] h hl pl pll s sl w Ho Hh Hp Hs V; [|reflexivity]. unfold l8w8jwt_decode_raw_no_validation.
    replace ((negb h && negb pl && negb s) || (h && negb hl) || (pl && negb pll) || (s && negb sl))%bool with false.
    + cbv zeta. destruct (Z.eqb_spec (l8w8jwt_validate_decoding_params p (Some dp)) L8W8JWT_SUCCESS); [contradiction|reflexivity].
    + destruct h; [rewrite Hh by reflexivity|]; (destruct pl; [rewrite Hp by reflexivity|]; (destruct s; [rewrite Hs by reflexivity|]; try reflexivity)).
      destruct Ho as [?|[?|?]]; discriminate.
Qed.
Print Assumptions C38_result_pointers.
(** Fresh parameters ask for nothing: no text, no time, no claim list, no key, nowhere to put the result; the algorithm
    is -2, which is neither an algorithm nor -1. They are refused until the required fields are filled in. *)
Theorem C38_params_init :
  (let ep := l8w8jwt_encoding_params_init in
   ep_alg ep = (-2)%Z /\ [ep_iss ep; ep_sub ep; ep_aud ep; ep_jti ep; ep_secret_key ep; ep_secret_key_pw ep] = repeat Null 6
   /\ [ep_iss_length ep; ep_sub_length ep; ep_aud_length ep; ep_jti_length ep; ep_header_claims_count ep; ep_payload_claims_count ep;
       ep_secret_key_length ep; ep_secret_key_pw_length ep] = repeat 0%N 8
   /\ [ep_exp ep; ep_nbf ep; ep_iat ep] = repeat 0%Z 3
   /\ ep_header_claims ep = CNull /\ ep_payload_claims ep = CNull /\ ep_out_nn ep = false /\ ep_out_length_nn ep = false
   /\ (forall j, ~ supported (ep_alg ep) j) /\ l8w8jwt_validate_encoding_params (Some ep) = 100%Z)
  /\ (let dp := l8w8jwt_decoding_params_init in
   dp_alg dp = (-2)%Z
   /\ [dp_jwt dp; dp_validate_iss dp; dp_validate_sub dp; dp_validate_aud dp; dp_validate_jti dp; dp_verification_key dp; dp_validate_typ dp] = repeat Null 7
   /\ [dp_jwt_length dp; dp_validate_iss_length dp; dp_validate_sub_length dp; dp_validate_aud_length dp; dp_validate_jti_length dp;
       dp_verification_key_length dp; dp_validate_typ_length dp; dp_exp_tolerance dp; dp_nbf_tolerance dp; dp_iat_tolerance dp] = repeat 0%N 10
   /\ [dp_validate_exp dp; dp_validate_nbf dp; dp_validate_iat dp] = repeat false 3
   /\ (forall j, ~ supported (dp_alg dp) j) /\ forall p, l8w8jwt_validate_decoding_params p (Some dp) = 100%Z).
Proof.
  assert (G : forall j, ~ supported (-2) j).
  { intros j (Hin & E). cbn [jwa_table In] in Hin. decompose [or] Hin; try contradiction; subst; discriminate E. }
  split; cbv zeta; repeat split; exact G.
Qed.
Print Assumptions C38_params_init.
Example C38_example :
  enc_required ep_sample /\ enc_lengths ep_sample
  /\ ~ enc_required l8w8jwt_encoding_params_init /\ ~ dec_required l8w8jwt_decoding_params_init.
Proof.
  split; [repeat split; discriminate|]. split; [split; [cbn; lia|]; split; intros _; discriminate|].
  split; intros H; apply H; reflexivity.
Qed.

(** ** C39 *)
Theorem C39_key_over_read_refuted :
  exists ep, (ep_secret_key_length ep = 8192)%N
    /\ l8w8jwt_validate_encoding_params (Some ep) = L8W8JWT_SUCCESS
    /\ (exists b m, ep_secret_key ep = Ptr b m /\ length m = N.to_nat 8192)
    /\ l8w8jwt_encode pe toy (Some ep) we = Undef OOBRead.
Proof.
  exists (ep_with (zstr "me") 2 (Ptr None (repeat x41 (N.to_nat 8192))) 8192 3).
  split; [reflexivity|]. split; [vm_compute; reflexivity|].
  split; [|vm_compute; reflexivity].
  do 2 eexists. split; [reflexivity|]. apply repeat_length.
Qed.
Print Assumptions C39_key_over_read_refuted.
(** With room for a terminating NUL (fewer than 8192 bytes, or a NUL at the end) the whole signing
    step is defined, for every algorithm, message and backend. Missing: 8192-byte keys without NUL. *)
Theorem C39_key_in_bounds_partial :
  forall p e ep key n,
    key_ok (ep_secret_key ep) (ep_secret_key_length ep) -> lawful_keys e ->
    load_key (ep_secret_key ep) (ep_secret_key_length ep) = OK key ->
    adjust_key_length key (ep_secret_key_length ep) = OK n ->
    (n <= 8192)%N /\ length key = N.to_nat 8192
    /\ forall msg, exists r, sign_switch p e ep key n msg = OK r.
Proof.
  intros p e ep key n Hk Hl Hload Hadj. split; [|split].
  - destruct Hk as (Hn & k & (b & m & Eq & Hm & Ek) & Hlast). rewrite Eq in Hload.
    rewrite load_key_ok in Hload by lia. assert (E : key = _) by (symmetry; exact (f_equal (fun u => match u with OK a => a | KO _ => [] end) Hload)).
    cbv beta iota in E. subst key. clear Hload.
    destruct (adjust_key_eq k (ep_secret_key_length ep)) as (kl & Ha & Hkl & _); [rewrite Ek, firstn_length; lia|lia|].
    rewrite <- Ek in Hadj. rewrite Ha in Hadj. assert (n = kl) as -> by congruence. rewrite Hkl.
    destruct (is_nul (last k x01)); [lia|]. destruct Hlast as [H|H]; [lia|discriminate].
  - destruct Hk as (Hn & k & (b & m & Eq & Hm & Ek) & Hlast). rewrite Eq in Hload.
    rewrite load_key_ok in Hload by lia. assert (E : key = _) by (symmetry; exact (f_equal (fun u => match u with OK a => a | KO _ => [] end) Hload)).
    cbv beta iota in E. subst key. clear Hload.
    rewrite app_length, firstn_length, repeat_length. change L8W8JWT_MAX_KEY_SIZE with 8192%N. lia.
  - intros msg. destruct (sign_switch_total p e ep key n msg Hk Hl Hload Hadj) as (r & buf & m & H & _). eauto.
Qed.
Print Assumptions C39_key_in_bounds_partial.

(** ** C40 *)
Definition with_key (ep : enc_params) (q : ptr) (n : N) : enc_params :=
  EncParams (ep_alg ep) (ep_iss ep) (ep_iss_length ep) (ep_sub ep) (ep_sub_length ep)
    (ep_aud ep) (ep_aud_length ep) (ep_jti ep) (ep_jti_length ep) (ep_exp ep) (ep_nbf ep) (ep_iat ep)
    (ep_header_claims ep) (ep_header_claims_count ep) (ep_payload_claims ep) (ep_payload_claims_count ep)
    q n (ep_secret_key_pw ep) (ep_secret_key_pw_length ep) (ep_out_nn ep) (ep_out_length_nn ep).

Lemma key_buffers_equal b1 b2 k r1 r2 :
  k <> [] -> last k x01 <> x00 -> (length k < N.to_nat 8192)%nat ->
  exists key kl,
    load_key (Ptr b1 (k ++ r1)) (N.of_nat (length k)) = OK key
    /\ adjust_key_length key (N.of_nat (length k)) = OK kl
    /\ load_key (Ptr b2 (k ++ [x00] ++ r2)) (N.of_nat (length k) + 1) = OK key
    /\ adjust_key_length key (N.of_nat (length k) + 1) = OK kl.
Proof.
  intros Hk Hl Hn. assert (L : (0 < length k)%nat) by (destruct k; [contradiction|simpl; lia]).
  exists (k ++ repeat x00 (N.to_nat (L8W8JWT_MAX_KEY_SIZE - N.of_nat (length k)))).
  assert (E : k ++ repeat x00 (N.to_nat (L8W8JWT_MAX_KEY_SIZE - N.of_nat (length k)))
    = (k ++ [x00]) ++ repeat x00 (N.to_nat (L8W8JWT_MAX_KEY_SIZE - (N.of_nat (length k) + 1)))).
  { rewrite <- app_assoc. f_equal. unfold L8W8JWT_MAX_KEY_SIZE.
    replace (N.to_nat (8192 - N.of_nat (length k)))
      with (S (N.to_nat (8192 - (N.of_nat (length k) + 1)))) by lia. reflexivity. }
  destruct (adjust_key_eq k (N.of_nat (length k))) as (kl & H1 & H2 & _); [lia|lia|].
  destruct (adjust_key_eq (k ++ [x00]) (N.of_nat (length k) + 1)) as (kl2 & H3 & H4 & _);
    [rewrite app_length; simpl; lia|lia|].
  rewrite last_last in H4. cbn [is_nul] in H4.
  destruct (is_nul (last k x01)) eqn:En; [apply is_nul_true in En; contradiction|].
  exists kl. split; [|split; [exact H1|split]].
  - rewrite load_key_ok by (rewrite ?app_length; lia). rewrite Nat2N.id, firstn_app_exact. reflexivity.
  - rewrite load_key_ok by (rewrite ?app_length; simpl; lia). rewrite E.
    replace (N.to_nat (N.of_nat (length k) + 1)) with (length (k ++ [x00])) by (rewrite app_length; simpl; lia).
    rewrite (app_assoc k), firstn_app_exact. reflexivity.
  - rewrite E, H3. f_equal. rewrite H2, H4. reflexivity.
Qed.

(** Signing with an HMAC key [k] given without and with a terminating NUL is the same computation
    (same results, same heap), whatever follows the key in memory. *)
Theorem C40_hmac_key_nul_sign :
  forall p e ep b1 b2 k r1 r2 w,
    (0 <= ep_alg ep <= 2)%Z -> k <> [] -> last k x01 <> x00 -> (length k < N.to_nat 8192)%nat ->
    l8w8jwt_encode p e (Some (with_key ep (Ptr b1 (k ++ r1)) (N.of_nat (length k)))) w
    = l8w8jwt_encode p e (Some (with_key ep (Ptr b2 (k ++ [x00] ++ r2)) (N.of_nat (length k) + 1))) w.
Proof.
  intros p e ep b1 b2 k r1 r2 w Ha Hk Hl Hn.
  destruct (key_buffers_equal b1 b2 k r1 r2 Hk Hl Hn) as (key & kl & L1 & A1 & L2 & A2).
  set (ep1 := with_key ep (Ptr b1 (k ++ r1)) (N.of_nat (length k))).
  set (ep2 := with_key ep (Ptr b2 (k ++ [x00] ++ r2)) (N.of_nat (length k) + 1)).
  assert (V : l8w8jwt_validate_encoding_params (Some ep1) = l8w8jwt_validate_encoding_params (Some ep2)).
  { assert (L : (0 < length k)%nat) by (destruct k; [contradiction|simpl; lia]).
    unfold l8w8jwt_validate_encoding_params, ep1, ep2, with_key.
    cbn [ep_secret_key ep_secret_key_length ep_out_nn ep_out_length_nn ep_payload_claims
         ep_payload_claims_count ep_header_claims ep_header_claims_count is_null].
    change L8W8JWT_MAX_KEY_SIZE with 8192%N.
    replace (N.of_nat (length k) =? 0)%N with false by lia.
    replace (N.of_nat (length k) + 1 =? 0)%N with false by lia.
    replace (8192 <? N.of_nat (length k))%N with false by lia.
    replace (8192 <? N.of_nat (length k) + 1)%N with false by lia. reflexivity. }
  assert (S : forall msg, sign_switch p e ep1 key kl msg = sign_switch p e ep2 key kl msg).
  { intros msg. unfold sign_switch. change (ep_alg ep1) with (ep_alg ep). change (ep_alg ep2) with (ep_alg ep).
    assert (E : ep_alg ep = 0%Z \/ ep_alg ep = 1%Z \/ ep_alg ep = 2%Z) by lia.
    destruct E as [->|[->| ->]]; reflexivity. }
  assert (B : forall sb, write_signature_body p e sb ep1 = write_signature_body p e sb ep2).
  { intros sb. unfold write_signature_body.
    change (ep_secret_key ep1) with (Ptr b1 (k ++ r1)).
    change (ep_secret_key_length ep1) with (N.of_nat (length k)).
    change (ep_secret_key ep2) with (Ptr b2 (k ++ [x00] ++ r2)).
    change (ep_secret_key_length ep2) with (N.of_nat (length k) + 1)%N.
    rewrite L1, L2. cbv beta iota delta [mbind lift]. rewrite A1, A2.
    cbv beta iota. rewrite S. reflexivity. }
  assert (W : forall sb, write_signature p e sb ep1 = write_signature p e sb ep2).
  { intros sb. unfold write_signature. rewrite B. reflexivity. }
  assert (Hh : forall sb, write_header_and_payload p sb ep1 = write_header_and_payload p sb ep2)
    by (intros; reflexivity).
  unfold l8w8jwt_encode. rewrite V.
  destruct (negb _); [reflexivity|]. unfold mbind at 1. unfold mbind at 3.
  destruct (cb_init byte w) as [[sb|] w1|]; try reflexivity.
  assert (E : encode_body p e sb ep1 w1 = encode_body p e sb ep2 w1).
  { unfold encode_body. rewrite Hh. unfold mbind at 1. unfold mbind at 3.
    destruct (write_header_and_payload p sb ep2 w1) as [[r sb1] w2|]; [|reflexivity].
    destruct (negb _); [reflexivity|]. change (ep_alg ep1) with (ep_alg ep2). rewrite W. reflexivity. }
  unfold mbind at 1. rewrite E. reflexivity.
Qed.
Print Assumptions C40_hmac_key_nul_sign.
Example C40_example :
  exists t, outcome (l8w8jwt_encode pe toy (Some (with_key ep_sample (Ptr None (lit "secret!junk")) 6)) we)
            = Some (L8W8JWT_SUCCESS, t)
  /\ outcome (l8w8jwt_encode pe toy (Some (with_key ep_sample (Ptr None (clit "secret")) 7)) we)
            = Some (L8W8JWT_SUCCESS, t).
Proof. eexists. split; vm_compute; reflexivity. Qed.

(** ** C41 *)
(** If only the signature buffer cannot be allocated, signing reports it and cleans up. *)
Theorem C41_signature_buffer_partial :
  forall p e sb ep w,
    wf w -> p_small_stack p = true ->
    w_alloc w (w_next w) = false -> w_alloc w (S (w_next w)) = true ->
    exists w', write_signature p e sb ep w = Ret (L8W8JWT_OUT_OF_MEM, sb) w'
      /\ forall i, w_live w' i = w_live w i.
Proof.
  intros p e sb ep w Hwf Hs H1 H2. unfold write_signature. rewrite Hs.
  unfold mbind at 1. rewrite calloc_eq, H1. unfold mbind at 1. rewrite calloc_eq.
  change (w_alloc (w_no w) (w_next (w_no w))) with (w_alloc w (S (w_next w))). rewrite H2.
  cbn [is_null orb]. unfold mbind at 1. cbn [mret]. unfold mbind at 1, zeroize.
  replace (negb _) with false by (rewrite repeat_length; symmetry; apply negb_false_iff, N.leb_le; lia).
  replace (w_live (w_ok (w_no w)) (w_next (w_no w))) with true
    by (cbn [w_ok w_live]; symmetry; apply upd_live_same).
  unfold mbind at 1. cbn [free]. cbn [mret]. unfold mbind at 1.
  rewrite free_id_eq by (cbn [w_ok w_live]; apply upd_live_same).
  unfold mbind, mret. eexists. split; [reflexivity|].
  intros i. cbn [w_free w_live w_ok w_no w_next]. unfold upd_live.
  destruct (Nat.eqb_spec i (S (w_next w))) as [->|]; [|reflexivity]. symmetry. apply Hwf. lia.
Qed.
Print Assumptions C41_signature_buffer_partial.
(** If the key buffer cannot be allocated, signing always clears through a NULL pointer, ... *)
Theorem C41_encode_key_buffer_refuted :
  forall p e sb ep w,
    p_small_stack p = true -> w_alloc w (S (w_next w)) = false ->
    write_signature p e sb ep w = Undef NullDeref.
Proof.
  intros p e sb ep w Hs H2. unfold write_signature. rewrite Hs.
  unfold mbind at 1. rewrite calloc_eq.
  assert (K : forall sigb w1, w_alloc w1 (w_next w1) = false ->
    (key <- calloc L8W8JWT_MAX_KEY_SIZE ;;
    '(r, sb, signature) <-
      (if is_null sigb || is_null key then mret (L8W8JWT_OUT_OF_MEM, sb, Null)
       else write_signature_body p e sb ep) ;;
    _ <- zeroize key L8W8JWT_MAX_KEY_SIZE ;;
    _ <- free signature ;; _ <- free key ;; _ <- free sigb ;; mret (r, sb)) w1 = Undef NullDeref).
  { intros sigb w1 Hw. unfold mbind at 1. rewrite calloc_eq, Hw. cbn [is_null]. rewrite orb_true_r.
    reflexivity. }
  destruct (w_alloc w (w_next w)); apply K; exact H2.
Qed.
Print Assumptions C41_encode_key_buffer_refuted.
(** ... and so does verifying, whose only buffer this is. *)
Theorem C41_decode_key_buffer_refuted :
  forall p e dp res blk sig n w,
    p_small_stack p = true -> w_alloc w (w_next w) = false -> dp_alg dp <> (-1)%Z -> n <> 0%N ->
    l8w8jwt_verify_signature p e dp res (Ptr blk sig) n w = Undef NullDeref.
Proof.
  intros p e dp res blk sig n w Hs Hw Ha Hn. unfold l8w8jwt_verify_signature.
  destruct (Z.eqb_spec (dp_alg dp) (-1)); [contradiction|]. destruct (N.eqb_spec n 0); [contradiction|].
  cbn [is_null orb]. rewrite Hs. unfold mbind at 1. rewrite calloc_eq, Hw. reflexivity.
Qed.
Print Assumptions C41_decode_key_buffer_refuted.
Example C41_example :
  exists w, outcome (l8w8jwt_encode pe_small toy (Some ep_sample)
              (World (fun k => negb (Nat.eqb k w)) (fun _ => true) (fun _ _ => xff) 1 0 (fun _ => false)))
            = Some (L8W8JWT_OUT_OF_MEM, [])
    /\ outcome (l8w8jwt_encode pe_small toy (Some ep_sample)
              (World (fun k => negb (Nat.eqb k (S w))) (fun _ => true) (fun _ _ => xff) 1 0 (fun _ => false)))
            = None.
Proof. exists 8%nat. split; vm_compute; reflexivity. Qed.

(** ** C42 *)
(** The decimal text encode writes for a time (C11: digits [d] with this value) is read back by
    strtoll as that time. Missing: negative times, which are written as huge positive numbers. *)
Theorem C42_time_text_partial :
  forall t d rest,
    (0 < t <= 9223372036854775807)%Z -> d <> [] -> Forall digit d ->
    dec_value d = Z.to_N (t mod 2 ^ 64) ->
    strtoll (d ++ x00 :: rest) = OK t.
Proof.
  intros t d rest Ht Hd Hdig Hv.
  assert (Dig : forall c, digit c -> is_digit c = true /\ is_space c = false
     /\ Byte.eqb c x2d = false /\ Byte.eqb c x2b = false /\ b2z c = Z.of_N (b2n c) /\ (48 <= b2n c)%N).
  { intros c Hc. unfold digit in Hc. vm_compute in Hc.
    decompose [or] Hc; try contradiction; subst; repeat split; try reflexivity; vm_compute; discriminate. }
  assert (Scan : forall s acc a, Forall digit s -> acc = Z.of_N a ->
    scan_digits (s ++ x00 :: rest) acc
    = OK (Z.of_N (fold_left (fun v c => (10 * v + (b2n c - 48))%N) s a))).
  { induction s as [|c s IH]; intros acc a Hs ->; [reflexivity|]. inversion Hs; subst.
    destruct (Dig c) as (D1 & _ & _ & _ & D5 & D6); auto.
    cbn [app scan_digits fold_left]. rewrite D1. apply IH; auto. rewrite D5. lia. }
  destruct d as [|c d]; [contradiction|]. inversion Hdig; subst.
  destruct (Dig c) as (D1 & D2 & D3 & D4 & _ & _); auto.
  change ((c :: d) ++ x00 :: rest) with (c :: d ++ x00 :: rest). cbn [strtoll]. rewrite D2, D3, D4.
  change (c :: d ++ x00 :: rest) with ((c :: d) ++ x00 :: rest).
  rewrite (Scan (c :: d) 0%Z 0%N) by auto. cbn [ubind]. fold (dec_value (c :: d)). rewrite Hv.
  f_equal. unfold clamp64, I64_MIN, I64_MAX. rewrite Z.mod_small by lia. lia.
Qed.
Print Assumptions C42_time_text_partial.
(** iat = -5 is written as 18446744073709551611 and read back as INT64_MAX. *)
Theorem C42_negative_time_refuted :
  exists t d, (t < 0)%Z /\ dec_value d = Z.to_N (t mod 2 ^ 64)
    /\ (exists a c, outcome (l8w8jwt_encode pe toy (Some
          (EncParams 0 Null 0 Null 0 Null 0 Null 0 0 0 t CNull 0 CNull 0 (zstr "secret") 6 Null 0 true true)) we)
        = Some (L8W8JWT_SUCCESS, a ++ lit "." ++ rfc4648_unpadded true (lit "{""iat"":" ++ d ++ lit "}") ++ lit "." ++ c))
    /\ forall rest, strtoll (d ++ x00 :: rest) = OK 9223372036854775807%Z.
Proof.
  exists (-5)%Z, (lit "18446744073709551611"). split; [lia|]. split; [vm_compute; reflexivity|].
  split; [|intros rest; vm_compute; reflexivity].
  exists (rfc4648_unpadded true (lit "{""alg"":""HS256"",""typ"":""JWT""}")),
    (rfc4648_unpadded true (lit "secreteyJhbGciOiJIUzI1NiIsInR5cC") ++ [x00]).
  vm_compute. reflexivity.
Qed.
Print Assumptions C42_negative_time_refuted.
Example C42_example : strtoll (clit "1700000000") = OK 1700000000%Z.
Proof. reflexivity. Qed.

(** ** C44 *)
(** Big-endian text of a number in exactly [n] bytes. *)
Definition be_text (n : nat) (x : N) (s : bytes) : Prop := length s = n /\ big_endian s = x.

Theorem C44_fixed_width_signatures :
  forall p e ep w res w' j curve bits width,
    (6 <= p_size_bits p)%N -> wf w -> appended w w' ->
    l8w8jwt_encode p e (Some ep) w = Ret res w' -> er_rc res = L8W8JWT_SUCCESS ->
    supported (ep_alg ep) j -> j_family j = ES curve bits width ->
    In (j_name j, (2 * width)%nat)
       [(lit "ES256", 64); (lit "ES256K", 64); (lit "ES384", 96); (lit "ES512", 132)]%nat
    /\ exists id a b key d r s rt st,
      er_out res = Some (Ptr (Some id) (a ++ lit "." ++ b ++ lit "." ++ rfc4648_unpadded true (rt ++ st) ++ [x00]))
      /\ e_ecdsa_sign e key d = Some (r, s) /\ e_group e key = curve
      /\ be_text width r rt /\ be_text width s st.
Proof.
  intros p e ep w res w' j curve bits width Hp Hwf Hg H Hrc Hj Hf.
  as_growing (local_encode p e (Some ep)) H Hg. split.
  { destruct Hj as [Hin _]. cbn [jwa_table In] in Hin.
    decompose [or] Hin; try contradiction; subst; try discriminate Hf; injection Hf as <- <- <-;
      vm_compute; tauto. }
  apply encode_inv in H as [(Hrc' & _)|(_ & _ & id & t & Ho & _ & _ & _ & _ & _ & Ht)]; auto; [congruence|].
  destruct (Ht Hg) as (ht & pt & sig & Hh & _ & _ & (j' & k & Hj' & _ & Hs) & ->).
  rewrite (supported_unique _ _ _ Hj' Hj) in Hs. unfold signed_by in Hs. rewrite Hf in Hs.
  destruct Hs as (key & d & r & s & _ & _ & _ & _ & Hgr & _ & Hsig & Hl & Hr & Hss).
  exists id, (b64url ht), (b64url pt), key, d, r, s, (firstn width sig), (skipn width sig).
  split; [rewrite Ho, firstn_skipn; unfold b64url; rewrite <- !app_assoc; reflexivity|].
  split; [exact Hsig|]. split; [exact Hgr|]. unfold be_text.
  rewrite firstn_length, skipn_length. split; split; auto; lia.
Qed.
Print Assumptions C44_fixed_width_signatures.

(** The verification switch hands exactly the two numbers to ECDSA, whatever follows the signature
    in its buffer. *)
Theorem C44_decoder_splits :
  forall p e alg j curve bits width crt key kl msg hash r s rt st z pk,
    supported alg j -> j_family j = ES curve bits width ->
    be_text width r rt -> be_text width s st ->
    public_key e crt key kl = OK (Some pk) -> e_pk_ec e pk = true -> e_ecdsa_from_keypair e pk = true ->
    verify_switch p e alg crt key kl msg hash (rt ++ st ++ z) (N.of_nat (length (rt ++ st)))
    = OK (VFlag (negb (e_ecdsa_verify e pk hash r s))).
Proof.
  intros p e alg j curve bits width crt key kl msg hash r s rt st z pk Hj Hf [L1 E1] [L2 E2] Hk H1 H2.
  assert (Ha : In alg [9; 10; 11; 12]%Z).
  { destruct Hj as [Hin <-]. cbn [jwa_table In] in Hin.
    decompose [or] Hin; try contradiction; subst; try discriminate Hf; vm_compute; tauto. }
  assert (Hh : (N.of_nat (length (rt ++ st)) / 2 = N.of_nat width)%N).
  { rewrite app_length, L1, L2. replace (N.of_nat (width + width)) with (N.of_nat width * 2)%N by lia.
    apply N.div_mul. lia. }
  assert (T1 : take (rt ++ st ++ z) (N.of_nat width) = OK rt).
  { unfold take. rewrite !app_length, Nat2N.id.
    replace (_ <=? _)%N with true by lia. rewrite <- L1, firstn_app_exact. reflexivity. }
  assert (T2 : take (skipn (N.to_nat (N.of_nat width)) (rt ++ st ++ z)) (N.of_nat width) = OK st).
  { rewrite Nat2N.id, <- L1 at 1. rewrite skipn_app, skipn_all, Nat.sub_diag. cbn [app skipn].
    unfold take. rewrite !app_length, Nat2N.id.
    replace (_ <=? _)%N with true by lia. rewrite <- L2, firstn_app_exact. reflexivity. }
  unfold verify_switch.
  destruct Ha as [<-|[<-|[<-|[<-|[]]]]]; cbn [dec_md_info_from_alg]; rewrite Hk; cbn [ubind];
    rewrite H1, H2, Hh; cbn [negb]; rewrite T1; cbn [ubind]; rewrite T2; cbn [ubind];
    rewrite !mpi_read_be, E1, E2; reflexivity.
Qed.
Print Assumptions C44_decoder_splits.
Example C44_example :
  be_text 32 7 (repeat x00 31 ++ [x07]) /\ be_text 66 (256 ^ 65) (x01 :: repeat x00 65).
Proof. repeat split; vm_compute; reflexivity. Qed.
