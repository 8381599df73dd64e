(** * Model of the client programs in /repo/examples

    The keys and tokens the programs hard-code are arguments here: a theorem about them holds for
    every key and token a reader of the examples may put there. What printf writes besides the text
    behind a %s is left out. *)
From Verif Require Import Base Util Claim Jsmn Env Encode Decode.

(** ** examples/eddsa/keygen.c *)
(** keygen.c:53: [x *= y] on unsigned char. *)
Definition mul_byte (x y : byte) : byte := n2b (b2n x * b2n y).
Definition update (k : nat) (x : byte) (l : bytes) : bytes := firstn k l ++ x :: skipn (S k) l.
(** keygen.c:51-54: [for (int i = 0; i < 64; ++i) seed[i % 16] *= md[i];]. *)
Definition mix_step (md : bytes) (seed : bytes) (i : nat) : bytes :=
  update (i mod 16) (mul_byte (nth (i mod 16) seed x00) (nth i md x00)) seed.
Definition mix (seed md : bytes) : bytes := fold_left (mix_step md) (seq 0 64) seed.
(** keygen.c:32-57: the seed the key pair is made from. [sha512]: the digest of what was fed to it;
    all of argv is fed to it, the name of the program included. *)
Definition keygen_seed (sha512 : bytes -> bytes) (argv : list bytes) (seed : bytes) : bytes :=
  if (1 <? length argv)%nat then mix seed (sha512 (concat argv)) else seed.

(** ** examples/*/encode.c (the programs differ in algorithm and key; line numbers of hs256) *)
(** A string literal. *)
Definition literal (s : string) : ptr := Ptr None (clit s).
Definition literal_length (s : string) : N := N.of_nat (length (lit s)).
Arguments literal s%string_scope.
Arguments literal_length s%string_scope.
Definition example_claim (k v : string) (type : Z) : claim :=
  Claim (literal k) (literal_length k) (literal v) (literal_length v) type.
Arguments example_claim (k v)%string_scope type.
(** encode.c:26-35. *)
Definition example_header_claims : list claim :=
  [ example_claim "kid" "some-key-id-here-012345" L8W8JWT_CLAIM_TYPE_STRING ].
(** encode.c:37-74. *)
Definition example_payload_claims : list claim :=
  [ example_claim "ctx" "Unforseen Consequences" L8W8JWT_CLAIM_TYPE_STRING;
    example_claim "age" "27" L8W8JWT_CLAIM_TYPE_INTEGER;
    example_claim "size" "1.85" L8W8JWT_CLAIM_TYPE_NUMBER;
    example_claim "alive" "true" L8W8JWT_CLAIM_TYPE_BOOLEAN;
    example_claim "nulltest" "null" L8W8JWT_CLAIM_TYPE_NULL ].
(** encode.c:76-103. The clock is read twice. *)
Definition example_request (alg : Z) (key : bytes) (now1 now2 : Z) : enc_params :=
  let i := l8w8jwt_encoding_params_init in
  EncParams alg
    (literal "Black Mesa") (literal_length "Black Mesa")
    (literal "Gordon Freeman") (literal_length "Gordon Freeman")
    (literal "Administrator") (literal_length "Administrator")
    (ep_jti i) (ep_jti_length i)
    (now2 + 600) (ep_nbf i) now1
    (CArr None example_header_claims) (N.of_nat (length example_header_claims))
    (CArr None example_payload_claims) (N.of_nat (length example_payload_claims))
    (Ptr None (key ++ [x00])) (N.of_nat (length key))
    (ep_secret_key_pw i) (ep_secret_key_pw_length i)
    true true.
(** The C string at the start of [m]. *)
Definition text_at (m : bytes) : U bytes := n <-u strlen m ;; OK (firstn (N.to_nat n) m).
(** printf("%s", q): the characters up to the NUL. A NULL or dangling pointer is undefined behaviour. *)
Definition print_string (q : ptr) : M bytes :=
  fun w =>
    match q with
    | Ptr (Some id) m => if w_live w id then lift (text_at m) w else Undef OOBRead
    | Ptr None m => lift (text_at m) w
    | Null => Undef NullDeref
    end.
(** encode.c:21-110 [main]: the return code of encode and the token printed. [jwt] is an
    uninitialised local variable. *)
Definition example_encode (p : platform) (e : env) (alg : Z) (key : bytes) (now1 now2 : Z)
  : M (Z * bytes) :=
  r <- l8w8jwt_encode p e (Some (example_request alg key now1 now2)) ;;
  jwt <- (match er_out r with Some q => mret q | None => mub UninitUse end) ;;
  s <- print_string jwt ;;
  _ <- free jwt ;;
  mret (er_rc r, s).

(** ** examples/*/decode.c *)
(** hs384/decode.c:26-47. The programs differ in algorithm, key, token, the nbf check and the typ check. *)
Definition example_params (alg : Z) (jwt key : bytes) (nbf : bool) (typ : ptr) (typ_length : N) : dec_params :=
  let i := l8w8jwt_decoding_params_init in
  DecParams (Ptr None (jwt ++ [x00])) (N.of_nat (length jwt)) alg
    (literal "Black Mesa") (literal_length "Black Mesa")
    (literal "Gordon Freeman") (literal_length "Gordon Freeman")
    (dp_validate_aud i) (dp_validate_aud_length i) (dp_validate_jti i) (dp_validate_jti_length i)
    true nbf true 60 0 60
    (Ptr None (key ++ [x00])) (N.of_nat (length key))
    typ typ_length.
(** The algorithm a program passes: hs256/decode.c:31 passes -1. *)
Definition example_alg (name : Z) : Z := if (name =? L8W8JWT_ALG_HS256)%Z then (-1)%Z else name.
(** rs512/decode.c:112-113, with tolerance 0 (as l8w8jwt_decoding_params_init leaves it in the others). *)
Definition example_nbf (name : Z) : bool := (name =? L8W8JWT_ALG_RS512)%Z.
(** eddsa/decode.c:56-57. *)
Definition example_typ (name : Z) : ptr * N :=
  if (name =? L8W8JWT_ALG_ED25519)%Z then (literal "jwt", 3%N) else (Null, 0%N).
Definition example_dp (name : Z) (jwt key : bytes) : dec_params :=
  example_params (example_alg name) jwt key (example_nbf name) (fst (example_typ name)) (snd (example_typ name)).
(** What main prints of the verdict; [validation_result] is an uninitialised local variable. *)
Definition print_verdict (v : option N) : U N :=
  match v with Some n => OK n | None => KO UninitUse end.
(** hs384/decode.c:49-54 and the like, hs256/decode.c:51-59 (which asks for the claims),
    [main]: the return code and the verdict printed. *)
Definition example_decode (p : platform) (e : env) (name : Z) (jwt key : bytes) : M (Z * N) :=
  let claims := (name =? L8W8JWT_ALG_HS256)%Z in
  r <- l8w8jwt_decode p e (Some (example_dp name jwt key)) true claims claims ;;
  v <- lift (print_verdict (dr_valid r)) ;;
  mret (dr_rc r, v).
(** rs256/decode.c:121-151: a raw segment variable after a call, printed and freed. *)
Definition seg_var (old : ptr) (s : option seg) : ptr := match s with Some s => s_ptr s | None => old end.
(** rs256/decode.c:115-153 [main], which calls the three decode functions one after the other. The
    variables [header], [payload] and [signature] keep the freed pointers in between. *)
Definition example_decode_rs256 (p : platform) (e : env) (jwt key : bytes)
  : M ((Z * N) * (Z * bytes * bytes) * (Z * N * bytes * bytes)) :=
  let dp := example_dp L8W8JWT_ALG_RS256 jwt key in
  r1 <- l8w8jwt_decode p e (Some dp) true false false ;;
  v1 <- lift (print_verdict (dr_valid r1)) ;;
  r2 <- l8w8jwt_decode_raw_no_validation p (Some dp) true true true true true true ;;
  let header := seg_var Null (rr_header r2) in
  let payload := seg_var Null (rr_payload r2) in
  let signature := seg_var Null (rr_signature r2) in
  h2 <- print_string header ;;
  p2 <- print_string payload ;;
  _ <- free header ;;
  _ <- free payload ;;
  _ <- free signature ;;
  r3 <- l8w8jwt_decode_raw p e (Some dp) true true true true true true true ;;
  let header := seg_var header (rr_header r3) in
  let payload := seg_var payload (rr_payload r3) in
  let signature := seg_var signature (rr_signature r3) in
  v3 <- lift (print_verdict (match rr_valid r3 with Some v => Some v | None => Some v1 end)) ;;
  h3 <- print_string header ;;
  p3 <- print_string payload ;;
  _ <- free header ;;
  _ <- free payload ;;
  _ <- free signature ;;
  mret ((dr_rc r1, v1), (rr_rc r2, h2, p2), (rr_rc r3, v3, h3, p3)).
