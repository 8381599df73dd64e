(** * Model of the tests in /repo/tests/tests.c that do not issue a token and read it back

    Each test is a program that returns whether all its assertions hold. Assertions are evaluated in the
    order of the source; a test goes on after one that fails (acutest stops there; the value is the same,
    unless the rest of the test is undefined). Simplified: out-parameters are the results of the calls. *)
From Verif Require Import Base Util Base64 Claim Jsmn Env Encode Decode Examples.

Definition both (a b : M bool) : M bool := x <- a ;; y <- b ;; mret (x && y).
(** The text of a C string. *)
Definition c_string (q : ptr) : U bytes := m <-u deref q ;; n <-u strlen m ;; take m n.
Fixpoint asserts (l : list (M bool)) : M bool := match l with [] => mret true | a :: l => both a (asserts l) end.
Definition pure (b : bool) : M bool := mret b.

(** tests.c:38-46: strcmp against the version string, in a buffer of 32 zero bytes. *)
Definition t_version : M bool :=
  s <- lift (l8w8jwt_get_version_string (Ptr None (repeat x00 32))) ;;
  mret ((l8w8jwt_get_version_number =? L8W8JWT_VERSION)%Z && bytes_eqb (firstn 6 s) (L8W8JWT_VERSION_STR ++ [x00])).

(** What the tests set of the parameters after l8w8jwt_encoding_params_init. *)
Definition set_enc (key : ptr) (key_length : N) (out out_length : bool) (hc pc : cptr) : enc_params :=
  let d := l8w8jwt_encoding_params_init in
  EncParams (ep_alg d) (ep_iss d) (ep_iss_length d) (ep_sub d) (ep_sub_length d) (ep_aud d) (ep_aud_length d) (ep_jti d) (ep_jti_length d)
    (ep_exp d) (ep_nbf d) (ep_iat d) hc 0 pc 0 key key_length (ep_secret_key_pw d) (ep_secret_key_pw_length d) out out_length.
Definition test_claim (k v : string) : claim := Claim (literal k) 3 (literal v) 0 L8W8JWT_CLAIM_TYPE_STRING.
Arguments test_claim (k v)%string_scope.
(** tests.c:48-122. *)
Definition t_validate_encoding : M bool :=
  let v x := l8w8jwt_validate_encoding_params x in
  let hc := CArr None [test_claim "kid" "some-key-id-here-012345"] in
  let pc := CArr None [test_claim "tst" "some-test-claim-here-012345"] in
  let is x rc := pure (v x =? rc)%Z in
  asserts
    [ is None L8W8JWT_NULL_ARG
    ; is (Some l8w8jwt_encoding_params_init) L8W8JWT_NULL_ARG
    ; is (Some (set_enc Null 0 false false CNull CNull)) L8W8JWT_NULL_ARG
    ; is (Some l8w8jwt_encoding_params_init) L8W8JWT_NULL_ARG
    ; is (Some l8w8jwt_encoding_params_init) L8W8JWT_NULL_ARG
    ; is (Some (set_enc (literal "test key") 0 true true CNull CNull)) L8W8JWT_INVALID_ARG
    ; is (Some (set_enc (literal "test key") (L8W8JWT_MAX_KEY_SIZE + 1) true true CNull CNull)) L8W8JWT_INVALID_ARG
    ; is (Some (set_enc (literal "test key") 0 true true hc CNull)) L8W8JWT_INVALID_ARG
    ; is (Some (set_enc (literal "test key") 0 true true CNull pc)) L8W8JWT_INVALID_ARG
    ; is (Some (set_enc (literal "test key") 8 true true CNull CNull)) L8W8JWT_SUCCESS ].

Definition set_dec (alg : Z) (jwt : ptr) (jwt_length : N) (key : ptr) (key_length : N) : dec_params :=
  let d := l8w8jwt_decoding_params_init in
  DecParams jwt jwt_length alg (dp_validate_iss d) (dp_validate_iss_length d) (dp_validate_sub d) (dp_validate_sub_length d)
    (dp_validate_aud d) (dp_validate_aud_length d) (dp_validate_jti d) (dp_validate_jti_length d)
    (dp_validate_exp d) (dp_validate_nbf d) (dp_validate_iat d) (dp_exp_tolerance d) (dp_nbf_tolerance d) (dp_iat_tolerance d)
    key key_length (dp_validate_typ d) (dp_validate_typ_length d).
(** tests.c:124-166. *)
Definition t_validate_decoding (p : platform) : M bool :=
  let is x rc := pure (l8w8jwt_validate_decoding_params p x =? rc)%Z in
  asserts
    [ is None L8W8JWT_NULL_ARG
    ; is (Some (set_dec (-2) Null 0 Null 0)) L8W8JWT_NULL_ARG
    ; is (Some (set_dec (-2) (literal "test jwt") 0 Null 0)) L8W8JWT_NULL_ARG
    ; is (Some (set_dec (-2) (literal "test jwt") 0 (literal "test key") 8)) L8W8JWT_INVALID_ARG
    ; is (Some (set_dec (-2) (literal "test jwt") 8 (literal "test key") 0)) L8W8JWT_INVALID_ARG
    ; is (Some (set_dec (-2) (literal "test jwt") 8 (literal "test key") 8)) L8W8JWT_SUCCESS ].

(** tests.c:168-184 (the call with NULL does nothing: decode.c:741-744, encode.c:607-610). *)
Definition t_params_init : M bool :=
  pure ((dp_alg l8w8jwt_decoding_params_init =? -2)%Z && (ep_alg l8w8jwt_encoding_params_init =? -2)%Z).

Definition six : ptr := Ptr None (map n2b [1; 2; 3; 4; 5; 6]%N).
Definition enc64 (p : platform) (url : bool) (data : ptr) (n : N) (out len : bool) (rc : Z) : M bool :=
  r <- l8w8jwt_base64_encode p url data n out len ;; mret (b_rc r =? rc)%Z.
(** tests.c:186-199. *)
Definition t_base64_encode_null (p : platform) : M bool :=
  asserts
    [ enc64 p true Null 16 true true L8W8JWT_NULL_ARG; enc64 p false Null 16 true true L8W8JWT_NULL_ARG
    ; enc64 p true six 6 false true L8W8JWT_NULL_ARG; enc64 p false six 6 false true L8W8JWT_NULL_ARG
    ; enc64 p true six 6 true false L8W8JWT_NULL_ARG; enc64 p false six 6 true false L8W8JWT_NULL_ARG ].
(** tests.c:201-209. *)
Definition t_base64_encode_invalid (p : platform) : M bool :=
  asserts [ enc64 p true six 0 true true L8W8JWT_INVALID_ARG; enc64 p false six 0 true true L8W8JWT_INVALID_ARG ].
(** tests.c:211-219: SIZE_MAX - 64. *)
Definition t_base64_encode_overflow (p : platform) : M bool :=
  asserts [ enc64 p true six (size_mod p - 1 - 64) true true L8W8JWT_OVERFLOW; enc64 p false six (size_mod p - 1 - 64) true true L8W8JWT_OVERFLOW ].
(** tests.c:221-230. *)
Definition t_base64_encode_success (p : platform) : M bool :=
  asserts [ enc64 p true six 6 true true L8W8JWT_SUCCESS; enc64 p false six 6 true true L8W8JWT_SUCCESS ].

Definition dec64 (data : ptr) (n : N) (out len : bool) (rc : Z) : M bool :=
  r <- l8w8jwt_base64_decode true data n out len ;; mret (b_rc r =? rc)%Z.
(** tests.c:232-239. *)
Definition t_base64_decode_null : M bool :=
  asserts [ dec64 Null 5 true true L8W8JWT_NULL_ARG; dec64 (literal "12345") 5 false true L8W8JWT_NULL_ARG; dec64 (literal "12345") 5 true false L8W8JWT_NULL_ARG ].
(** tests.c:241-250. [out] and [out_length] are uninitialised unless the call writes them. *)
Definition t_base64_decode_success : M bool :=
  r <- l8w8jwt_base64_decode false (literal "MTIz") 4 true true ;;
  match b_out r, b_len r with
  | Some out, Some n => m <- lift (deref out) ;; a <- lift (read_at m 0) ;; b <- lift (read_at m 1) ;; c <- lift (read_at m 2) ;;
      mret ((b_rc r =? L8W8JWT_SUCCESS)%Z && (n =? 3)%N && bytes_eqb [a; b; c] (lit "123"))
  | _, _ => mub UninitUse
  end.

(** tests.c:252-276 and 278-314: the parameters; the clock is read twice. *)
Definition issue_small (alg now1 now2 : Z) : enc_params :=
  let d := l8w8jwt_encoding_params_init in
  EncParams alg (literal "test iss") (ep_iss_length d) (ep_sub d) (ep_sub_length d) (literal "test sub") (ep_aud_length d) (ep_jti d) (ep_jti_length d)
    (now2 + 600) (ep_nbf d) now1 (ep_header_claims d) (ep_header_claims_count d) (ep_payload_claims d) (ep_payload_claims_count d)
    (literal "test key") 8 (ep_secret_key_pw d) (ep_secret_key_pw_length d) true true.
(** tests.c:252-276: out and out_length keep their values (NULL and 0) unless the call writes them. *)
Definition t_encode_invalid_alg (p : platform) (e : env) (now1 now2 : Z) : M bool :=
  r <- l8w8jwt_encode p e (Some (issue_small (-3) now1 now2)) ;;
  let out := match er_out r with Some q => q | None => Null end in
  let out_length := match er_len r with Some n => n | None => 0%N end in
  mret (is_null out && (out_length =? 0)%N && negb (er_rc r =? L8W8JWT_SUCCESS)%Z && (er_rc r =? L8W8JWT_INVALID_ARG)%Z).
Definition dots (s : bytes) : nat := length (filter (Byte.eqb x2e) s).
(** tests.c:278-314. *)
Definition t_encode_nul_terminated (p : platform) (e : env) (now1 now2 : Z) : M bool :=
  r <- l8w8jwt_encode p e (Some (issue_small L8W8JWT_ALG_HS256 now1 now2)) ;;
  if negb (er_rc r =? L8W8JWT_SUCCESS)%Z then mret false
  else match er_out r, er_len r with
       | Some out, Some n =>
           m <- lift (deref out) ;; a <- lift (read_at m 0) ;; z <- lift (read_at m n) ;; y <- lift (read_at m (n - 1)) ;;
           s <- lift (take m n) ;; _ <- free out ;;
           mret ((0 <? n)%N && Byte.eqb a x65 && Byte.eqb z x00 && negb (Byte.eqb y x00) && Nat.eqb (dots s) 2)
       | _, _ => mub UninitUse
       end.

(** tests.c:316-361. [validation_result] is -1 at first; the last assertion is about it. *)
Definition kept_verdict (old : Z) (v : option N) : Z := match v with Some v => Z.of_N v | None => old end.
Definition t_decode_null (p : platform) (e : env) : M bool :=
  let d := Some l8w8jwt_decoding_params_init in
  let is (r : Z) := (r =? L8W8JWT_NULL_ARG)%Z in
  r1 <- l8w8jwt_decode p e None true true true ;;
  r2 <- l8w8jwt_decode p e d false true true ;;
  r3 <- l8w8jwt_decode p e d true true false ;;
  r4 <- l8w8jwt_decode_raw p e d true false false false false false false ;;
  r5 <- l8w8jwt_decode_raw_no_validation p d false false false false false false ;;
  r6 <- l8w8jwt_decode_raw p e d true true false false false false false ;;
  r7 <- l8w8jwt_decode_raw p e d false false false false false false false ;;
  r8 <- l8w8jwt_decode_raw p e None false false false false false false false ;;
  r9 <- l8w8jwt_decode_raw_no_validation p None true true false false false false ;;
  r10 <- l8w8jwt_decode_raw_no_validation p d true false false false false false ;;
  let v := kept_verdict (kept_verdict (kept_verdict (kept_verdict (-1) (dr_valid r1)) (dr_valid r3)) (rr_valid r4)) (rr_valid r6) in
  mret (forallb is [dr_rc r1; dr_rc r2; dr_rc r3; rr_rc r4; rr_rc r5; rr_rc r6; rr_rc r7; rr_rc r8; rr_rc r9; rr_rc r10]
        && negb (v =? Z.of_N L8W8JWT_VALID)%Z).
(** tests.c:363-382. *)
Definition t_decode_null_verdict (p : platform) (e : env) : M bool :=
  r <- l8w8jwt_decode p e (Some (set_dec L8W8JWT_ALG_HS256 (literal "not a valid jwt") 15 (literal "test key") 8)) false true true ;;
  mret ((dr_rc r =? L8W8JWT_NULL_ARG)%Z && match dr_valid r with None => true | Some _ => false end).

(** tests.c:2858-2859. *)
Definition slashes_header : string := "eyJhbGciOiJSUzI1NiIsImtpZCI6IkE3NHBUeDlIMDdMd1kyaGFrZVdPS0ZOZTNtaDhaNjZ3ZlFnQUhyME5OLUEiLCJ0eXAiOiJKV1QifQ"%string.
Definition slashes_payload : string :=
  "eyJleHAiOjE2NzAxNjM4MjQsImZsaWdodF9vcGVyYXRpb25faWQiOiIzNDA4YmNlOS1kYmFiLTQ2NjUtYWJmYy04ZWEwM2IwYWQ4NzEiLCJmbGlnaHRfcGxhbl9pZCI6IjEyODE4ZTg3LTRjOTYtNGU0Yy04YzYzLTgyYjhlMTJjM2I3MyIsImlhdCI6MTY3MDE2MDIyNCwiaXNzIjoiaHR0cHM6XC9cL3Rlc3RcL2RvbWFpblwvIiwicGxhbl9maWxlX2hhc2giOiJhMmEyMDFlZmExMTFkZGU1YWFhOGY0MmI3YjQ2ZDE3YjU5NWUzOWQ4NTA1MDBkYmFjZDlmNzlhZWYwYmJmNjhlIiwic2NvcGUiOiIiLCJzdWIiOiJnMzdsWGlmQVFvQmZWdVFaeFQzVkpGalhJTWdkZlhJT3BhMkxkV0JRQGNsaWVudHMiLCJ0eXAiOiJCZWFyZXIifQ"%string.
Definition slashes_signature : string := "erPylOUbAxVz03P6f5dCyjWgRA1RDUW-5pC49OGTfDEEmM9HElXx2lH5_7-C-l0HoUjypaix_s2PC9jYUUIGBsdL_2Mfary2-cxOMDyGrbfP39rD-Fq7CWrvSlqz8k9dPEEhW06Jjq2ujvcY6277Po7pXrC7PyhL3En7B3b3sUC6gk-FXVAI9XzTpxnSN5w3g7vxEi1JgI8EyfeWT1usAST8UdKYrJEzmJOvIaloq1zz1oJb9jXFGj3hCABU4Ky58ibvaiveucf5Fq8essC2jIKUBfnAy43gsj6h6kPTy5PEugSLXoomNAXthnUFckmJjY0hNwQc5yLLRa--f9ObsgFO0dKquqwGlU0BbuBZU0Dyh5-IUqNfMEG76nnr5TlzjgMusVDjCSEdDBB2ef6xdBcMiWMA-8Po2Qyd9wsKhg4ud_Hxzmutp-sEb1fhH7QcSfdeNRWnhmuGgNPaYQtx46TN8sm0IWfcVa9EUTC7IdUBAOX-o0Ob8uHjFzq97YjHawZyosj5ajgHzc8gQDIyykXO1a45r0hdMOXw7eGQ_oOC_ZWHolvNmYg38mkbpErXTUHt_Wzl3B3xuMAwMPeBskI4l_zrvmgEcGzuM1B1Igqk3pbLqJIbRBHx-VcenwevId-kGIHzfKVYmtPRO9Y6k4_njvYFYc6TcvpscmPmfGM"%string.
Definition slashes_token : bytes := lit slashes_header ++ lit "." ++ lit slashes_payload ++ lit "." ++ lit slashes_signature.
(** tests.c:2855-2880. The return code is not asserted; if it were not SUCCESS, claims_count would be read
    uninitialised. *)
Definition t_slashes (p : platform) (e : env) (key : bytes) : M bool :=
  r <- l8w8jwt_decode p e (Some (set_dec L8W8JWT_ALG_RS256 (Ptr None (slashes_token ++ [x00])) (N.of_nat (length slashes_token))
         (Ptr None (key ++ [x00])) (N.of_nat (length key)))) true true true ;;
  match dr_claims r with
  | None => mub UninitUse
  | Some (cs, n) =>
      c <- lift (l8w8jwt_get_claim cs n (literal "iss") 3) ;;
      match c with
      | None => mub NullDeref
      | Some c => s <- lift (c_string (c_value c)) ;; mret (bytes_eqb s (lit "https://test/domain/"))
      end
  end.

Definition five_claims : list claim :=
  [ example_claim "ctx" "Unforseen Consequences" L8W8JWT_CLAIM_TYPE_STRING; example_claim "age" "27" L8W8JWT_CLAIM_TYPE_INTEGER
  ; example_claim "size" "1.85" L8W8JWT_CLAIM_TYPE_NUMBER; example_claim "alive" "true" L8W8JWT_CLAIM_TYPE_BOOLEAN
  ; example_claim "nulltest" "null" L8W8JWT_CLAIM_TYPE_NULL ].
(** claim.c:112-117: l8w8jwt_write_claims called with a string builder that may be NULL. *)
Definition write_claims_or_null (p : platform) (sb : option (chillbuff byte)) (claims : cptr) (n : N) : M (Z * option (chillbuff byte)) :=
  match sb with
  | None => mret (L8W8JWT_NULL_ARG, None)
  | Some sb => r <- l8w8jwt_write_claims p sb claims n ;; mret (fst r, Some (snd r))
  end.
(** tests.c:2999-3009. *)
Definition t_write_claims (p : platform) : M bool :=
  o <- cb_init byte ;;
  match o with
  | None => mub UninitUse
  | Some cb =>
      r0 <- write_claims_or_null p None (CArr None five_claims) 5 ;;
      r1 <- write_claims_or_null p (Some cb) CNull 1 ;;
      r2 <- write_claims_or_null p (Some cb) (CArr None five_claims) 0 ;;
      _ <- cb_free cb ;;
      mret ((fst r0 =? L8W8JWT_NULL_ARG)%Z && (fst r1 =? L8W8JWT_NULL_ARG)%Z && (fst r2 =? L8W8JWT_INVALID_ARG)%Z)
  end.
(** tests.c:3011-3022. *)
Definition t_get_claim : M bool :=
  let cs := CArr None five_claims in
  r1 <- lift (l8w8jwt_get_claim CNull 5 (literal "alive") 5) ;;
  r2 <- lift (l8w8jwt_get_claim cs 0 (literal "alive") 5) ;;
  r3 <- lift (l8w8jwt_get_claim cs 5 (literal "test") 4) ;;
  r4 <- lift (l8w8jwt_get_claim cs 5 (literal "alive") 5) ;;
  match r4 with
  | None => mub NullDeref
  | Some c =>
      k <- lift (c_string (c_key c)) ;; v <- lift (c_string (c_value c)) ;;
      mret (match r1, r2, r3 with None, None, None => true | _, _, _ => false end && bytes_eqb k (lit "alive") && bytes_eqb v (lit "true"))
  end.
