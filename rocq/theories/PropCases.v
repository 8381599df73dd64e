(** * Cases that meet the hypotheses of C05, C14, C33, C34, C39, C58 and C62 *)
From Verif Require Import Base BaseProofs HeapProofs Util UtilProofs Claim Base64 SpecB64
  Base64EncProofs Base64EncApi Base64DecProofs Base64Api Jsmn Env Encode Decode SpecJson SpecJwa ClaimProofs UnescapeProofs
  EncodeProofs SignProofs EncodeTotal SpecEnc JsonProofs PropBase64 LocalProofs PropEncode DecodeProofs DecodeInv JsmnProofs ParseProofs
  PropClaim ReadProofs ValidateProofs JsmnJson DecodeTotal PropVerify PropValidate PropTime PropSpelling PropJson PropKeys.
From Coq Require Import ZifyBool ZifyNat ZifyN.

(** C05: five bytes, as base64 and as base64url. *)
Example C05_example :
  (6 <= p_size_bits pe)%N /\ (5 < size_mod pe)%N /\ (5 * 4 < size_mod pe)%N /\ (5 <= N.of_nat (length (lit "hello")))%N
  /\ (4 * ((Z.of_N 5 + 2) / 3) <= INT_MAX)%Z
  /\ (exists r w, l8w8jwt_base64_encode pe true (Ptr None (lit "hello")) 5 true true we = Ret r w
        /\ b_rc r = L8W8JWT_SUCCESS /\ exists i z, b_out r = Some (Ptr (Some i) (lit "aGVsbG8" ++ x00 :: z))).
Proof.
  do 5 (split; [vm_compute; congruence|]).
  let a := eval vm_compute in (l8w8jwt_base64_encode pe true (Ptr None (lit "hello")) 5 true true we) in match a with Ret ?r ?w => exists r, w end.
  split; [vm_compute; reflexivity|]. split; [reflexivity|]. do 2 eexists. vm_compute. reflexivity.
Qed.

(** C14, C33, C34: a request with an issuer, an expiry date and a claim of each kind in header and payload. *)
Definition full_request (alg : Z) : enc_params :=
  EncParams alg (zstr "me") 2 Null 0 Null 0 Null 0 2000 0 0
    (CArr None [Claim (zstr "kid") 3 (zstr "k1") 2 0]) 1 (CArr None [Claim (zstr "admin") 5 (zstr "true") 4 3; Claim (zstr "n") 1 (zstr "1") 1 1]) 2
    (zstr "secret") 6 Null 0 true true.
Example C14_C34_example :
  exists r w, l8w8jwt_encode pe toy (Some (full_request 0)) we = Ret r w /\ er_rc r = L8W8JWT_SUCCESS
    /\ (6 <= p_size_bits pe)%N /\ wf we /\ appended we w
    /\ exists i sig, er_out r = Some (Ptr (Some i) (rfc4648_unpadded true (lit "{""alg"":""HS256"",""typ"":""JWT"",""kid"":""k1""}") ++ lit "."
                 ++ rfc4648_unpadded true (lit "{""exp"":2000,""iss"":""me"",""admin"":true,""n"":1}") ++ lit "." ++ sig)).
Proof.
  let a := eval vm_compute in (l8w8jwt_encode pe toy (Some (full_request 0)) we) in match a with Ret ?r ?w => exists r, w end.
  split; [vm_compute; reflexivity|]. split; [reflexivity|]. split; [vm_compute; congruence|]. split; [apply we_wf|]. split; [intros k _; reflexivity|].
  do 2 eexists. vm_compute. reflexivity.
Qed.
(** C33: one block more after this call, none after one that fails late, when signing. *)
Example C33_example :
  (exists r w i m, l8w8jwt_encode pe toy (Some (full_request 0)) we = Ret r w /\ er_rc r = L8W8JWT_SUCCESS /\ er_out r = Some (Ptr (Some i) m)
     /\ w_live we i = false /\ w_live w i = true)
  /\ (exists r w, l8w8jwt_encode pe toy (Some (full_request 13)) we = Ret r w /\ er_rc r <> L8W8JWT_SUCCESS /\ (w_next we < w_next w)%nat).
Proof.
  split.
  - let a := eval vm_compute in (l8w8jwt_encode pe toy (Some (full_request 0)) we) in
    match a with Ret ?r ?w => match r with EncRes _ (Some (Ptr (Some ?i) ?m)) _ => exists r, w, i, m end end.
    split; [vm_compute; reflexivity|]. repeat (split; [reflexivity|]). vm_compute. reflexivity.
  - let a := eval vm_compute in (l8w8jwt_encode pe toy (Some (full_request 13)) we) in match a with Ret ?r ?w => exists r, w end.
    split; [vm_compute; reflexivity|]. split; [vm_compute; discriminate|]. vm_compute. lia.
Qed.

(** C39: a key of six bytes without a NUL after it. *)
Example C39_example :
  exists key, key_ok (ep_secret_key (full_request 0)) 6 /\ lawful_keys toy
    /\ load_key (ep_secret_key (full_request 0)) 6 = OK key /\ adjust_key_length key 6 = OK 7%N.
Proof.
  let a := eval vm_compute in (load_key (ep_secret_key (full_request 0)) 6) in match a with OK ?k => exists k end.
  split; [split; [lia|exists (lit "secret"); split; [exists None; eexists; split; [reflexivity|]; split; [vm_compute; discriminate|reflexivity]|left; lia]]|].
  split; [apply C49_example|]. split; vm_compute; reflexivity.
Qed.

(** C58: a signed token, followed by a NUL or by other text. *)
Definition sample_start : bytes := rfc4648_unpadded true (lit plain_header) ++ lit "." ++ rfc4648_unpadded true (lit "{""sub"":""alice""}").
Example C58_example :
  two_parts sample_start /\ exists s, signed plain_header "{""sub"":""alice""}" = sample_start ++ lit "." ++ s
  /\ forall rest, In rest [[x00]; lit ".more"] ->
     match l8w8jwt_decode pe (toy_at 1000) (Some (placed (sub_params plain_header "{""sub"":""alice""}") None (sample_start ++ lit "." ++ s) rest)) true true true we with
     | Ret r _ => dr_rc r = 0%Z /\ dr_valid r = Some 0%N | Undef _ => False end.
Proof.
  split.
  - do 2 eexists. split; [reflexivity|]. repeat split; vm_compute; intuition discriminate.
  - eexists. split; [unfold signed, sample_start; rewrite <- !app_assoc; reflexivity|].
    intros rest [<-|[<-|[]]]; vm_compute; auto.
Qed.

(** C62: RS256 with a key the backend reads. *)
Example C62_example :
  let j := Jwa 3 (lit "RS256") RS SHA256 in
  exists r w', l8w8jwt_decode pe weak (Some (dp_plain (weak_token j) 3 (zstr "secret") 6)) true true true we = Ret r w'
    /\ dr_rc r = L8W8JWT_SUCCESS /\ dr_valid r = Some 0%N /\ supported 3 j /\ caller_key (zstr "secret") 6 (lit "secret") /\ hex_if_ed j (lit "secret")
    /\ parsed_key weak j (lit "secret").
Proof.
  cbv zeta.
  let a := eval vm_compute in (l8w8jwt_decode pe weak (Some (dp_plain (weak_token (Jwa 3 (lit "RS256") RS SHA256)) 3 (zstr "secret") 6)) true true true we) in
  match a with Ret ?r ?w => exists r, w; assert (E : l8w8jwt_decode pe weak (Some (dp_plain (weak_token (Jwa 3 (lit "RS256") RS SHA256)) 3 (zstr "secret") 6)) true true true we = Ret r w) by (vm_compute; reflexivity) end.
  assert (S : supported 3 (Jwa 3 (lit "RS256") RS SHA256)) by (split; [vm_compute; tauto|reflexivity]).
  assert (K : caller_key (zstr "secret") 6 (lit "secret")) by (exists None; eexists; split; [reflexivity|]; split; [vm_compute; discriminate|reflexivity]).
  assert (H : hex_if_ed (Jwa 3 (lit "RS256") RS SHA256) (lit "secret")) by (intros C; discriminate C).
  split; [exact E|]. do 2 (split; [reflexivity|]). do 3 (split; [assumption|]).
  eapply (C62_unsuitable_keys_partial pe weak _ true true we); [apply we_wf|exact E|reflexivity|reflexivity|reflexivity|exact S|exact K|exact H].
Qed.
