(** * Model of the project's tests in /repo/tests/tests.c that issue tokens and decode them

    The 56 tests of this kind are given as data: the parameters each test sets, in the order of the
    source. The texts of the keys in testkeys.h are an argument [keys : string -> bytes] (from the name of
    the constant), and so are the clock's readings. The other tests are in ArgTests.v and
    PropSha.v; what valid_signature_rs256 does after its call of l8w8jwt_decode (tests.c:1362-1389) is in
    TestRaw.v. Not modelled: acutest. *)
From Verif Require Import Base Util Claim Jsmn Env Encode Decode Examples.

(** A key: a constant of testkeys.h with strlen of it as its length, the same with the NUL counted, or a
    string literal with its strlen. *)
Inductive key_ref := Named (name : string) | NamedNul (name : string) | Inline (s : string).
Arguments Named name%string_scope.
Arguments NamedNul name%string_scope.
Arguments Inline s%string_scope.
Definition key_text (keys : string -> bytes) (k : key_ref) : bytes :=
  match k with Named n | NamedNul n => keys n | Inline s => lit s end.
Definition key_ptr (keys : string -> bytes) (k : key_ref) : ptr := Ptr None (key_text keys k ++ [x00]).
Definition key_len (keys : string -> bytes) (k : key_ref) : N :=
  (N.of_nat (length (key_text keys k)) + match k with NamedNul _ => 1 | _ => 0 end)%N.

(** What a test sets of the encoding parameters after l8w8jwt_encoding_params_init. Times: seconds after
    the clock's reading. Strings: literals, without their lengths. Claims: names and values, with their
    lengths and type string. *)
Record issue := Issue {
  i_alg : Z; i_key : key_ref; i_iat : option Z; i_nbf : option Z; i_exp : option Z;
  i_sub : option string; i_iss : option string; i_aud : option string; i_jti : option string;
  i_header : list (string * string); i_payload : list (string * string) }.
(** What a test asserts of the verdict: it is L8W8JWT_VALID, or it has this flag. *)
Inductive wanted := Valid | Flagged (flag : N).
(** What a test sets of the decoding parameters after l8w8jwt_decoding_params_init (times: the tolerance
    in seconds; validate_typ with the length 3), whether it asks for the claims, and what it asserts. *)
Record asking := Asking {
  a_alg : Z; a_key : key_ref;
  a_sub : option string; a_iss : option string; a_aud : option string; a_jti : option string;
  a_exp : option N; a_nbf : option N; a_iat : option N; a_typ : option string;
  a_claims : bool; a_want : wanted }.
Record test := Test { t_issue : issue; t_askings : list asking }.
(** The clock's readings: for iat, nbf and exp, and in the n-th call of l8w8jwt_decode. *)
Record clock := Clock { at_iat : Z; at_nbf : Z; at_exp : Z; at_asking : nat -> Z }.

Definition literal_or_null (s : option string) : ptr := match s with Some s => literal s | None => Null end.
Definition reading_or_zero (t : Z) (o : option Z) : Z := match o with Some d => t + d | None => 0 end%Z.
Definition test_claims (l : list (string * string)) : list claim :=
  map (fun kv => example_claim (fst kv) (snd kv) L8W8JWT_CLAIM_TYPE_STRING) l.
Definition claims_ptr (l : list (string * string)) : cptr := match l with [] => CNull | _ => CArr None (test_claims l) end.
(** E.g. tests.c:490-502, 1213-1231, 2666-2675. *)
Definition issue_params (keys : string -> bytes) (c : clock) (i : issue) : enc_params :=
  let d := l8w8jwt_encoding_params_init in
  EncParams (i_alg i)
    (literal_or_null (i_iss i)) (ep_iss_length d) (literal_or_null (i_sub i)) (ep_sub_length d)
    (literal_or_null (i_aud i)) (ep_aud_length d) (literal_or_null (i_jti i)) (ep_jti_length d)
    (reading_or_zero (at_exp c) (i_exp i)) (reading_or_zero (at_nbf c) (i_nbf i)) (reading_or_zero (at_iat c) (i_iat i))
    (claims_ptr (i_header i)) (N.of_nat (length (i_header i)))
    (claims_ptr (i_payload i)) (N.of_nat (length (i_payload i)))
    (key_ptr keys (i_key i)) (key_len keys (i_key i)) (ep_secret_key_pw d) (ep_secret_key_pw_length d) true true.
Definition tolerance (o : option N) : N := match o with Some n => n | None => 0%N end.
Definition asked (o : option N) : bool := match o with Some _ => true | None => false end.
(** E.g. tests.c:500-507, 2681-2690. *)
Definition asking_params (keys : string -> bytes) (jwt : ptr) (n : N) (a : asking) : dec_params :=
  let d := l8w8jwt_decoding_params_init in
  DecParams jwt n (a_alg a)
    (literal_or_null (a_iss a)) (dp_validate_iss_length d) (literal_or_null (a_sub a)) (dp_validate_sub_length d)
    (literal_or_null (a_aud a)) (dp_validate_aud_length d) (literal_or_null (a_jti a)) (dp_validate_jti_length d)
    (asked (a_exp a)) (asked (a_nbf a)) (asked (a_iat a)) (tolerance (a_exp a)) (tolerance (a_nbf a)) (tolerance (a_iat a))
    (key_ptr keys (a_key a)) (key_len keys (a_key a))
    (literal_or_null (a_typ a)) (match a_typ a with Some _ => 3 | None => dp_validate_typ_length d end)%N.
(** The backend when the clock shows [t]. *)
Definition with_clock (e : env) (t : Z) : env :=
  Env (e_seed_ok e) (e_hmac e) (e_md e) (e_parse_key e) (e_parse_public_key e) (e_x509_parse e) (e_can_do e) (e_bitlen e)
    (e_pk_sign e) (e_pk_verify e) (e_pk_rsa e) (e_rsa_len e) (e_pss_sign e) (e_pss_verify e) (e_pk_ec e)
    (e_ecdsa_from_keypair e) (e_group e) (e_ecdsa_sign e) (e_ecdsa_verify e) (e_ed_sign e) (e_ed_verify e) t
    (e_checknum e) (e_jsmn e) (e_tok_junk e).
(** The assertions on the verdict, e.g. tests.c:1246, 512. *)
Definition verdict_wanted (a : wanted) (v : N) : bool :=
  match a with Valid => (v =? L8W8JWT_VALID)%N | Flagged f => negb (N.land v f =? 0)%N end.
(** One call of l8w8jwt_decode with the assertions on it, e.g. tests.c:509-511, 1242-1246: whether they
    hold. [validation_result] is uninitialised unless the call writes it. *)
Definition ask (p : platform) (e : env) (keys : string -> bytes) (jwt : ptr) (n : N) (a : asking) : M bool :=
  r <- l8w8jwt_decode p e (Some (asking_params keys jwt n a)) true (a_claims a) (a_claims a) ;;
  if (dr_rc r =? L8W8JWT_SUCCESS)%Z
  then v <- lift (print_verdict (dr_valid r)) ;; mret (verdict_wanted (a_want a) v)
  else mret false.
Fixpoint ask_all (p : platform) (e : env) (keys : string -> bytes) (c : clock) (jwt : ptr) (n : N) (i : nat) (l : list asking) : M bool :=
  match l with
  | [] => mret true
  | a :: l' => ok <- ask p (with_clock e (at_asking c i)) keys jwt n a ;;
      if ok then ask_all p e keys c jwt n (S i) l' else mret false
  end.
(** A test, e.g. tests.c:1203-1248: whether it passes. *)
Definition run_test (p : platform) (e : env) (keys : string -> bytes) (c : clock) (t : test) : M bool :=
  r <- l8w8jwt_encode p e (Some (issue_params keys c (t_issue t))) ;;
  if (er_rc r =? L8W8JWT_SUCCESS)%Z
  then match er_out r, er_len r with
       | Some jwt, Some n => ok <- ask_all p e keys c jwt n 0 (t_askings t) ;;
           if ok then _ <- free jwt ;; mret true else mret false
       | _, _ => mub UninitUse
       end
  else mret false.

(** ** The tests *)
Local Open Scope string_scope.
Local Open Scope list_scope.
(** tests.c:463-514. *)
Definition invalid_signature_hs256 : test :=
  Test (Issue L8W8JWT_ALG_HS256 (Inline "YoUR sUpEr S3krEt 1337 HMAC kEy HeRE") (Some 0%Z) None (Some 600%Z) (Some "Gordon Freeman") (Some "Black Mesa") (Some "Administrator") None
      [] [])
    [ Asking L8W8JWT_ALG_HS256 (Inline "test key") None None None None None None None None true (Flagged L8W8JWT_SIGNATURE_VERIFICATION_FAILURE) ].
(** tests.c:516-567. *)
Definition invalid_signature_hs384 : test :=
  Test (Issue L8W8JWT_ALG_HS384 (Inline "YoUR sUpEr S3krEt 1337 HMAC kEy HeRE") (Some 0%Z) None (Some 600%Z) (Some "Gordon Freeman") (Some "Black Mesa") (Some "Administrator") None
      [] [])
    [ Asking L8W8JWT_ALG_HS384 (Inline "test key") None None None None None None None None true (Flagged L8W8JWT_SIGNATURE_VERIFICATION_FAILURE) ].
(** tests.c:569-620. *)
Definition invalid_signature_hs512 : test :=
  Test (Issue L8W8JWT_ALG_HS512 (Inline "YoUR sUpEr S3krEt 1337 HMAC kEy HeRE") (Some 0%Z) None (Some 600%Z) (Some "Gordon Freeman") (Some "Black Mesa") (Some "Administrator") None
      [] [])
    [ Asking L8W8JWT_ALG_HS512 (Inline "test key") None None None None None None None None true (Flagged L8W8JWT_SIGNATURE_VERIFICATION_FAILURE) ].
(** tests.c:622-658. *)
Definition invalid_signature_rs256 : test :=
  Test (Issue L8W8JWT_ALG_RS256 (Named "RSA_PRIVATE_KEY") (Some 0%Z) None (Some 600%Z) None None None None
      [] [])
    [ Asking L8W8JWT_ALG_RS256 (Named "RSA_PUBLIC_KEY_2") None None None None None None None None false (Flagged L8W8JWT_SIGNATURE_VERIFICATION_FAILURE) ].
(** tests.c:660-696. *)
Definition invalid_signature_rs384 : test :=
  Test (Issue L8W8JWT_ALG_RS384 (Named "RSA_PRIVATE_KEY") (Some 0%Z) None (Some 600%Z) None None None None
      [] [])
    [ Asking L8W8JWT_ALG_RS384 (Named "RSA_PUBLIC_KEY_2") None None None None None None None None false (Flagged L8W8JWT_SIGNATURE_VERIFICATION_FAILURE) ].
(** tests.c:698-734. *)
Definition invalid_signature_rs512 : test :=
  Test (Issue L8W8JWT_ALG_RS512 (Named "RSA_PRIVATE_KEY") (Some 0%Z) None (Some 600%Z) None None None None
      [] [])
    [ Asking L8W8JWT_ALG_RS512 (Named "RSA_PUBLIC_KEY_2") None None None None None None None None false (Flagged L8W8JWT_SIGNATURE_VERIFICATION_FAILURE) ].
(** tests.c:736-772. *)
Definition invalid_signature_ps256 : test :=
  Test (Issue L8W8JWT_ALG_PS256 (Named "RSA_PRIVATE_KEY") (Some 0%Z) None (Some 600%Z) None None None None
      [] [])
    [ Asking L8W8JWT_ALG_PS256 (Named "RSA_PUBLIC_KEY_2") None None None None None None None None false (Flagged L8W8JWT_SIGNATURE_VERIFICATION_FAILURE) ].
(** tests.c:774-810. *)
Definition invalid_signature_ps384 : test :=
  Test (Issue L8W8JWT_ALG_PS384 (Named "RSA_PRIVATE_KEY") (Some 0%Z) None (Some 600%Z) None None None None
      [] [])
    [ Asking L8W8JWT_ALG_PS384 (Named "RSA_PUBLIC_KEY_2") None None None None None None None None false (Flagged L8W8JWT_SIGNATURE_VERIFICATION_FAILURE) ].
(** tests.c:812-848. *)
Definition invalid_signature_ps512 : test :=
  Test (Issue L8W8JWT_ALG_PS512 (Named "RSA_PRIVATE_KEY") (Some 0%Z) None (Some 600%Z) None None None None
      [] [])
    [ Asking L8W8JWT_ALG_PS512 (Named "RSA_PUBLIC_KEY_2") None None None None None None None None false (Flagged L8W8JWT_SIGNATURE_VERIFICATION_FAILURE) ].
(** tests.c:850-886. *)
Definition invalid_signature_es256 : test :=
  Test (Issue L8W8JWT_ALG_ES256 (Named "ES256_PRIVATE_KEY") (Some 0%Z) None (Some 600%Z) None None None None
      [] [])
    [ Asking L8W8JWT_ALG_ES256 (Named "ES256_PUBLIC_KEY_2") None None None None None None None None false (Flagged L8W8JWT_SIGNATURE_VERIFICATION_FAILURE) ].
(** tests.c:888-924. *)
Definition invalid_signature_es256k : test :=
  Test (Issue L8W8JWT_ALG_ES256K (Named "ES256K_PRIVATE_KEY") (Some 0%Z) None (Some 600%Z) None None None None
      [] [])
    [ Asking L8W8JWT_ALG_ES256 (Named "ES256K_PUBLIC_KEY_2") None None None None None None None None false (Flagged L8W8JWT_SIGNATURE_VERIFICATION_FAILURE) ].
(** tests.c:1014-1050. *)
Definition invalid_signature_es384 : test :=
  Test (Issue L8W8JWT_ALG_ES384 (Named "ES384_PRIVATE_KEY") (Some 0%Z) None (Some 600%Z) None None None None
      [] [])
    [ Asking L8W8JWT_ALG_ES384 (Named "ES384_PUBLIC_KEY_2") None None None None None None None None false (Flagged L8W8JWT_SIGNATURE_VERIFICATION_FAILURE) ].
(** tests.c:1052-1088. *)
Definition invalid_signature_es512 : test :=
  Test (Issue L8W8JWT_ALG_ES512 (Named "ES512_PRIVATE_KEY") (Some 0%Z) None (Some 600%Z) None None None None
      [] [])
    [ Asking L8W8JWT_ALG_ES512 (Named "ES512_PUBLIC_KEY_2") None None None None None None None None false (Flagged L8W8JWT_SIGNATURE_VERIFICATION_FAILURE) ].
(** tests.c:1090-1126. *)
Definition invalid_signature_eddsa : test :=
  Test (Issue L8W8JWT_ALG_ED25519 (Named "ED25519_PRIVATE_KEY") (Some 0%Z) None (Some 600%Z) None None None None
      [] [])
    [ Asking L8W8JWT_ALG_ED25519 (Named "ED25519_PUBLIC_KEY_2") None None None None None None None None false (Flagged L8W8JWT_SIGNATURE_VERIFICATION_FAILURE) ].
(** tests.c:1203-1248. *)
Definition valid_signature_hs256 : test :=
  Test (Issue L8W8JWT_ALG_HS256 (Inline "the cake is a lie") (Some 0%Z) None (Some 600%Z) None None None None
      [("test", "value")]
      [("test ""bad chars that need escaping like \ this \ \ one \ omfg y """"", "value with hopefully "" escaped \ backslashes \ and double-quotes "" "" "" damn...")])
    [ Asking L8W8JWT_ALG_HS256 (Inline "the cake is a lie") None None None None None None None None false Valid ].
(** tests.c:1250-1286. *)
Definition valid_signature_hs384 : test :=
  Test (Issue L8W8JWT_ALG_HS384 (Inline "the cake is a lie") (Some 0%Z) None (Some 600%Z) None None None None
      [] [])
    [ Asking L8W8JWT_ALG_HS384 (Inline "the cake is a lie") None None None None None None None None false Valid ].
(** tests.c:1288-1324. *)
Definition valid_signature_hs512 : test :=
  Test (Issue L8W8JWT_ALG_HS512 (Inline "the cake is a lie") (Some 0%Z) None (Some 600%Z) None None None None
      [] [])
    [ Asking L8W8JWT_ALG_HS512 (Inline "the cake is a lie") None None None None None None None None false Valid ].
(** tests.c:1326-1392. *)
Definition valid_signature_rs256 : test :=
  Test (Issue L8W8JWT_ALG_RS256 (Named "RSA_PRIVATE_KEY") (Some 0%Z) None (Some 600%Z) None None None None
      [] [])
    [ Asking L8W8JWT_ALG_RS256 (Named "RSA_PUBLIC_KEY") None None None None None None None None false Valid ].
(** tests.c:1394-1430. *)
Definition valid_signature_rs256_with_x509_certificate : test :=
  Test (Issue L8W8JWT_ALG_RS256 (Named "X509_TEST_PRIVATE_KEY") (Some 0%Z) None (Some 600%Z) None None None None
      [] [])
    [ Asking L8W8JWT_ALG_RS256 (Named "X509_TEST_CERTIFICATE") None None None None None None None None false Valid ].
(** tests.c:1432-1468. *)
Definition valid_signature_rs384 : test :=
  Test (Issue L8W8JWT_ALG_RS384 (Named "RSA_PRIVATE_KEY") (Some 0%Z) None (Some 600%Z) None None None None
      [] [])
    [ Asking L8W8JWT_ALG_RS384 (Named "RSA_PUBLIC_KEY") None None None None None None None None false Valid ].
(** tests.c:1470-1506. *)
Definition valid_signature_rs384_with_x509_certificate : test :=
  Test (Issue L8W8JWT_ALG_RS384 (Named "X509_TEST_PRIVATE_KEY") (Some 0%Z) None (Some 600%Z) None None None None
      [] [])
    [ Asking L8W8JWT_ALG_RS384 (Named "X509_TEST_CERTIFICATE") None None None None None None None None false Valid ].
(** tests.c:1508-1544. *)
Definition valid_signature_rs512 : test :=
  Test (Issue L8W8JWT_ALG_RS512 (Named "RSA_PRIVATE_KEY") (Some 0%Z) None (Some 600%Z) None None None None
      [] [])
    [ Asking L8W8JWT_ALG_RS512 (Named "RSA_PUBLIC_KEY") None None None None None None None None false Valid ].
(** tests.c:1546-1582. *)
Definition valid_signature_rs512_with_x509_certificate : test :=
  Test (Issue L8W8JWT_ALG_RS512 (Named "X509_TEST_PRIVATE_KEY") (Some 0%Z) None (Some 600%Z) None None None None
      [] [])
    [ Asking L8W8JWT_ALG_RS512 (Named "X509_TEST_CERTIFICATE") None None None None None None None None false Valid ].
(** tests.c:1584-1620. *)
Definition valid_signature_ps256 : test :=
  Test (Issue L8W8JWT_ALG_PS256 (Named "RSA_PRIVATE_KEY") (Some 0%Z) None (Some 600%Z) None None None None
      [] [])
    [ Asking L8W8JWT_ALG_PS256 (Named "RSA_PUBLIC_KEY") None None None None None None None None false Valid ].
(** tests.c:1622-1658. *)
Definition valid_signature_ps256_with_x509_certificate : test :=
  Test (Issue L8W8JWT_ALG_PS256 (Named "X509_TEST_PRIVATE_KEY") (Some 0%Z) None (Some 600%Z) None None None None
      [] [])
    [ Asking L8W8JWT_ALG_PS256 (Named "X509_TEST_CERTIFICATE") None None None None None None None None false Valid ].
(** tests.c:1660-1696. *)
Definition valid_signature_ps384 : test :=
  Test (Issue L8W8JWT_ALG_PS384 (Named "RSA_PRIVATE_KEY") (Some 0%Z) None (Some 600%Z) None None None None
      [] [])
    [ Asking L8W8JWT_ALG_PS384 (Named "RSA_PUBLIC_KEY") None None None None None None None None false Valid ].
(** tests.c:1698-1734. *)
Definition valid_signature_ps384_with_x509_certificate : test :=
  Test (Issue L8W8JWT_ALG_PS384 (Named "X509_TEST_PRIVATE_KEY") (Some 0%Z) None (Some 600%Z) None None None None
      [] [])
    [ Asking L8W8JWT_ALG_PS384 (Named "X509_TEST_CERTIFICATE") None None None None None None None None false Valid ].
(** tests.c:1736-1772. *)
Definition valid_signature_ps512 : test :=
  Test (Issue L8W8JWT_ALG_PS512 (Named "RSA_PRIVATE_KEY") (Some 0%Z) None (Some 600%Z) None None None None
      [] [])
    [ Asking L8W8JWT_ALG_PS512 (Named "RSA_PUBLIC_KEY") None None None None None None None None false Valid ].
(** tests.c:1774-1810. *)
Definition valid_signature_ps512_with_x509_certificate : test :=
  Test (Issue L8W8JWT_ALG_PS512 (Named "X509_TEST_PRIVATE_KEY") (Some 0%Z) None (Some 600%Z) None None None None
      [] [])
    [ Asking L8W8JWT_ALG_PS512 (Named "X509_TEST_CERTIFICATE") None None None None None None None None false Valid ].
(** tests.c:1812-1848. *)
Definition valid_signature_eddsa : test :=
  Test (Issue L8W8JWT_ALG_ED25519 (Named "ED25519_PRIVATE_KEY") (Some 0%Z) None (Some 600%Z) None None None None
      [] [])
    [ Asking L8W8JWT_ALG_ED25519 (Named "ED25519_PUBLIC_KEY") None None None None None None None None false Valid ].
(** tests.c:1850-1886. *)
Definition valid_signature_eddsa_alt : test :=
  Test (Issue L8W8JWT_ALG_ED25519 (NamedNul "ED25519_PRIVATE_KEY_2") (Some 0%Z) None (Some 600%Z) None None None None
      [] [])
    [ Asking L8W8JWT_ALG_ED25519 (Named "ED25519_PUBLIC_KEY_2") None None None None None None None None false Valid ].
(** tests.c:1888-1924. *)
Definition valid_signature_es256 : test :=
  Test (Issue L8W8JWT_ALG_ES256 (Named "ES256_PRIVATE_KEY") (Some 0%Z) None (Some 600%Z) None None None None
      [] [])
    [ Asking L8W8JWT_ALG_ES256 (Named "ES256_PUBLIC_KEY") None None None None None None None None false Valid ].
(** tests.c:1926-1962. *)
Definition valid_signature_es256_with_x509_certificate : test :=
  Test (Issue L8W8JWT_ALG_ES256 (Named "X509_PRIME256v1_PRIVATE_KEY") (Some 0%Z) None (Some 600%Z) None None None None
      [] [])
    [ Asking L8W8JWT_ALG_ES256 (Named "X509_PRIME256v1_TEST_CERTIFICATE") None None None None None None None None false Valid ].
(** tests.c:1964-2000. *)
Definition valid_signature_es384 : test :=
  Test (Issue L8W8JWT_ALG_ES384 (Named "ES384_PRIVATE_KEY") (Some 0%Z) None (Some 600%Z) None None None None
      [] [])
    [ Asking L8W8JWT_ALG_ES384 (Named "ES384_PUBLIC_KEY") None None None None None None None None false Valid ].
(** tests.c:2002-2038. *)
Definition valid_signature_es384_with_x509_certificate : test :=
  Test (Issue L8W8JWT_ALG_ES384 (Named "X509_secp384r1_PRIVATE_KEY") (Some 0%Z) None (Some 600%Z) None None None None
      [] [])
    [ Asking L8W8JWT_ALG_ES384 (Named "X509_secp384r1_TEST_CERTIFICATE") None None None None None None None None false Valid ].
(** tests.c:2040-2076. *)
Definition valid_signature_es512 : test :=
  Test (Issue L8W8JWT_ALG_ES512 (Named "ES512_PRIVATE_KEY") (Some 0%Z) None (Some 600%Z) None None None None
      [] [])
    [ Asking L8W8JWT_ALG_ES512 (Named "ES512_PUBLIC_KEY") None None None None None None None None false Valid ].
(** tests.c:2078-2114. *)
Definition valid_signature_es512_with_x509_certificate : test :=
  Test (Issue L8W8JWT_ALG_ES512 (Named "X509_secp521r1_PRIVATE_KEY") (Some 0%Z) None (Some 600%Z) None None None None
      [] [])
    [ Asking L8W8JWT_ALG_ES512 (Named "X509_secp521r1_TEST_CERTIFICATE") None None None None None None None None false Valid ].
(** tests.c:2118-2156. *)
Definition invalid_exp : test :=
  Test (Issue L8W8JWT_ALG_PS512 (Named "RSA_PRIVATE_KEY") (Some (-300)%Z) None (Some (-180)%Z) None None None None
      [] [])
    [ Asking L8W8JWT_ALG_PS512 (Named "RSA_PUBLIC_KEY") None None None None (Some 10%N) None None None false (Flagged L8W8JWT_EXP_FAILURE) ].
(** tests.c:2158-2197. *)
Definition invalid_nbf : test :=
  Test (Issue L8W8JWT_ALG_PS512 (Named "RSA_PRIVATE_KEY") (Some 0%Z) (Some 300%Z) (Some 600%Z) None None None None
      [] [])
    [ Asking L8W8JWT_ALG_PS512 (Named "RSA_PUBLIC_KEY") None None None None None (Some 10%N) None None false (Flagged L8W8JWT_NBF_FAILURE) ].
(** tests.c:2199-2237. *)
Definition invalid_iat : test :=
  Test (Issue L8W8JWT_ALG_PS512 (Named "RSA_PRIVATE_KEY") (Some 600%Z) None (Some 900%Z) None None None None
      [] [])
    [ Asking L8W8JWT_ALG_PS512 (Named "RSA_PUBLIC_KEY") None None None None None None (Some 10%N) None false (Flagged L8W8JWT_IAT_FAILURE) ].
(** tests.c:2239-2286. *)
Definition invalid_sub : test :=
  Test (Issue L8W8JWT_ALG_PS512 (Named "RSA_PRIVATE_KEY") (Some 0%Z) None (Some 600%Z) (Some "test subject") None None None
      [] [])
    [ Asking L8W8JWT_ALG_PS512 (Named "RSA_PUBLIC_KEY") (Some "WRONG test subject &ç*#°§") None None None None None None None false (Flagged L8W8JWT_SUB_FAILURE);
      Asking L8W8JWT_ALG_PS512 (Named "RSA_PUBLIC_KEY") (Some "test ") None None None None None None None false (Flagged L8W8JWT_SUB_FAILURE) ].
(** tests.c:2288-2335. *)
Definition invalid_iss : test :=
  Test (Issue L8W8JWT_ALG_PS512 (Named "RSA_PRIVATE_KEY") (Some 0%Z) None (Some 600%Z) None (Some "test issuer") None None
      [] [])
    [ Asking L8W8JWT_ALG_PS512 (Named "RSA_PUBLIC_KEY") None (Some "WRONG test issuer &ç*#°§") None None None None None None false (Flagged L8W8JWT_ISS_FAILURE);
      Asking L8W8JWT_ALG_PS512 (Named "RSA_PUBLIC_KEY") None (Some "test ") None None None None None None false (Flagged L8W8JWT_ISS_FAILURE) ].
(** tests.c:2337-2384. *)
Definition invalid_aud : test :=
  Test (Issue L8W8JWT_ALG_PS512 (Named "RSA_PRIVATE_KEY") (Some 0%Z) None (Some 600%Z) None None (Some "test audience") None
      [] [])
    [ Asking L8W8JWT_ALG_PS512 (Named "RSA_PUBLIC_KEY") None None (Some "WRONG test audience &ç*#°§") None None None None None false (Flagged L8W8JWT_AUD_FAILURE);
      Asking L8W8JWT_ALG_PS512 (Named "RSA_PUBLIC_KEY") None None (Some "test au") None None None None None false (Flagged L8W8JWT_AUD_FAILURE) ].
(** tests.c:2386-2433. *)
Definition invalid_jti : test :=
  Test (Issue L8W8JWT_ALG_PS512 (Named "RSA_PRIVATE_KEY") (Some 0%Z) None (Some 600%Z) None None None (Some "test jti")
      [] [])
    [ Asking L8W8JWT_ALG_PS512 (Named "RSA_PUBLIC_KEY") None None None (Some "WRONG test jti &ç*#°§") None None None None false (Flagged L8W8JWT_JTI_FAILURE);
      Asking L8W8JWT_ALG_PS512 (Named "RSA_PUBLIC_KEY") None None None (Some "test j") None None None None false (Flagged L8W8JWT_JTI_FAILURE) ].
(** tests.c:2435-2472. *)
Definition invalid_typ : test :=
  Test (Issue L8W8JWT_ALG_PS512 (Named "RSA_PRIVATE_KEY") (Some 0%Z) None (Some 600%Z) None None None None
      [] [])
    [ Asking L8W8JWT_ALG_PS512 (Named "RSA_PUBLIC_KEY") None None None None None None None (Some "OKP") false (Flagged L8W8JWT_TYP_FAILURE) ].
(** tests.c:2476-2515. *)
Definition valid_exp : test :=
  Test (Issue L8W8JWT_ALG_PS512 (Named "RSA_PRIVATE_KEY") (Some 0%Z) None (Some 600%Z) None None None None
      [] [])
    [ Asking L8W8JWT_ALG_PS512 (Named "RSA_PUBLIC_KEY") None None None None (Some 10%N) None None None false Valid ].
(** tests.c:2517-2554. *)
Definition valid_nbf : test :=
  Test (Issue L8W8JWT_ALG_PS512 (Named "RSA_PRIVATE_KEY") None (Some (-300)%Z) None None None None None
      [] [])
    [ Asking L8W8JWT_ALG_PS512 (Named "RSA_PUBLIC_KEY") None None None None None (Some 0%N) None None false Valid ].
(** tests.c:2556-2596. *)
Definition valid_iat : test :=
  Test (Issue L8W8JWT_ALG_PS512 (Named "RSA_PRIVATE_KEY") (Some (-60)%Z) None (Some 900%Z) None None None None
      [] [])
    [ Asking L8W8JWT_ALG_PS512 (Named "RSA_PUBLIC_KEY") None None None None None None (Some 10%N) None false Valid ].
(** tests.c:2598-2656. *)
Definition valid_exp_tolerance : test :=
  Test (Issue L8W8JWT_ALG_PS512 (Named "RSA_PRIVATE_KEY") (Some (-60)%Z) None (Some (-30)%Z) None None None None
      [] [])
    [ Asking L8W8JWT_ALG_PS512 (Named "RSA_PUBLIC_KEY") None None None None (Some 60%N) None None None false Valid;
      Asking L8W8JWT_ALG_PS512 (Named "RSA_PUBLIC_KEY") None None None None (Some 20%N) None None None false (Flagged L8W8JWT_EXP_FAILURE) ].
(** tests.c:2658-2717. *)
Definition valid_nbf_tolerance : test :=
  Test (Issue L8W8JWT_ALG_PS512 (Named "RSA_PRIVATE_KEY") (Some 0%Z) (Some 60%Z) (Some 600%Z) None None None None
      [] [])
    [ Asking L8W8JWT_ALG_PS512 (Named "RSA_PUBLIC_KEY") None None None None None (Some 120%N) None None false Valid;
      Asking L8W8JWT_ALG_PS512 (Named "RSA_PUBLIC_KEY") None None None None None (Some 30%N) None None false (Flagged L8W8JWT_NBF_FAILURE) ].
(** tests.c:2719-2776. *)
Definition valid_iat_tolerance : test :=
  Test (Issue L8W8JWT_ALG_PS512 (Named "RSA_PRIVATE_KEY") (Some 60%Z) None (Some 900%Z) None None None None
      [] [])
    [ Asking L8W8JWT_ALG_PS512 (Named "RSA_PUBLIC_KEY") None None None None None None (Some 100%N) None false Valid;
      Asking L8W8JWT_ALG_PS512 (Named "RSA_PUBLIC_KEY") None None None None None None (Some 30%N) None false (Flagged L8W8JWT_IAT_FAILURE) ].
(** tests.c:2778-2815. *)
Definition valid_sub : test :=
  Test (Issue L8W8JWT_ALG_PS512 (Named "RSA_PRIVATE_KEY") (Some 0%Z) None (Some 600%Z) (Some "test subject") None None None
      [] [])
    [ Asking L8W8JWT_ALG_PS512 (Named "RSA_PUBLIC_KEY") (Some "test subject") None None None None None None None false Valid ].
(** tests.c:2817-2854. *)
Definition valid_iss : test :=
  Test (Issue L8W8JWT_ALG_PS512 (Named "RSA_PRIVATE_KEY") (Some 0%Z) None (Some 600%Z) None (Some "test issuer") None None
      [] [])
    [ Asking L8W8JWT_ALG_PS512 (Named "RSA_PUBLIC_KEY") None (Some "test issuer") None None None None None None false Valid ].
(** tests.c:2882-2919. *)
Definition valid_aud : test :=
  Test (Issue L8W8JWT_ALG_PS512 (Named "RSA_PRIVATE_KEY") (Some 0%Z) None (Some 600%Z) None None (Some "test audience") None
      [] [])
    [ Asking L8W8JWT_ALG_PS512 (Named "RSA_PUBLIC_KEY") None None (Some "test audience") None None None None None false Valid ].
(** tests.c:2921-2958. *)
Definition valid_jti : test :=
  Test (Issue L8W8JWT_ALG_PS512 (Named "RSA_PRIVATE_KEY") (Some 0%Z) None (Some 600%Z) None None None (Some "test jti")
      [] [])
    [ Asking L8W8JWT_ALG_PS512 (Named "RSA_PUBLIC_KEY") None None None (Some "test jti") None None None None false Valid ].
(** tests.c:2960-2997. *)
Definition valid_typ : test :=
  Test (Issue L8W8JWT_ALG_PS512 (Named "RSA_PRIVATE_KEY") (Some 0%Z) None (Some 600%Z) None None None None
      [] [])
    [ Asking L8W8JWT_ALG_PS512 (Named "RSA_PUBLIC_KEY") None None None None None None None (Some "jwt") false Valid ].
Definition suite : list test :=
  [ invalid_signature_hs256; invalid_signature_hs384; invalid_signature_hs512; invalid_signature_rs256;
    invalid_signature_rs384; invalid_signature_rs512; invalid_signature_ps256; invalid_signature_ps384;
    invalid_signature_ps512; invalid_signature_es256; invalid_signature_es256k; invalid_signature_es384;
    invalid_signature_es512; invalid_signature_eddsa; valid_signature_hs256; valid_signature_hs384;
    valid_signature_hs512; valid_signature_rs256; valid_signature_rs256_with_x509_certificate;
    valid_signature_rs384; valid_signature_rs384_with_x509_certificate; valid_signature_rs512;
    valid_signature_rs512_with_x509_certificate; valid_signature_ps256;
    valid_signature_ps256_with_x509_certificate; valid_signature_ps384;
    valid_signature_ps384_with_x509_certificate; valid_signature_ps512;
    valid_signature_ps512_with_x509_certificate; valid_signature_eddsa; valid_signature_eddsa_alt;
    valid_signature_es256; valid_signature_es256_with_x509_certificate; valid_signature_es384;
    valid_signature_es384_with_x509_certificate; valid_signature_es512;
    valid_signature_es512_with_x509_certificate; invalid_exp; invalid_nbf; invalid_iat; invalid_sub;
    invalid_iss; invalid_aud; invalid_jti; invalid_typ; valid_exp; valid_nbf; valid_iat;
    valid_exp_tolerance; valid_nbf_tolerance; valid_iat_tolerance; valid_sub; valid_iss; valid_aud;
    valid_jti; valid_typ ].

(** ** tests.c:1128-1199 [test_l8w8jwt_decode_invalid_signature_because_wrong_alg_type] *)
(** The first round of its loop: a token signed with HS256 is decoded as one with HS384. *)
Definition invalid_signature_because_wrong_alg_type : test :=
  Test (Issue L8W8JWT_ALG_HS256 (Inline "HMAC secret key 42") (Some 0%Z) None (Some 600%Z) None None None None [] [])
    [ Asking L8W8JWT_ALG_HS384 (Inline "HMAC secret key 42") None None None None None None None None false
        (Flagged L8W8JWT_SIGNATURE_VERIFICATION_FAILURE) ].
(** tests.c:926-1012: a key of one curve used to sign with the algorithm of another; encode must not succeed. *)
Definition wrong_curve (alg : Z) (key : String.string) : issue := Issue alg (Named key) (Some 0%Z) None (Some 600%Z) None None None None [] [].
Definition run_wrong_curve (p : platform) (e : env) (keys : string -> bytes) (c : clock) (i : issue) : M bool :=
  r <- l8w8jwt_encode p e (Some (issue_params keys c i)) ;;
  mret (negb (er_rc r =? L8W8JWT_SUCCESS)%Z).
Definition wrong_curves : list issue :=
  [ wrong_curve L8W8JWT_ALG_ES256K "ES256_PRIVATE_KEY"; wrong_curve L8W8JWT_ALG_ES256 "ES256K_PRIVATE_KEY";
    wrong_curve L8W8JWT_ALG_ES384 "ES256_PRIVATE_KEY"; wrong_curve L8W8JWT_ALG_ES512 "ES384_PRIVATE_KEY" ].
