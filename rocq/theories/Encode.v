(** * Model of src/encode.c *)
From Verif Require Import Base Base64 Util Claim Jsmn Env.

(** struct l8w8jwt_encoding_params (include/l8w8jwt/encode.h:44-178). [time_t] is a 64-bit signed
    integer. [ep_out_nn], [ep_out_length_nn]: are the output pointers non-NULL. *)
Record enc_params := EncParams {
  ep_alg : Z;
  ep_iss : ptr; ep_iss_length : N;
  ep_sub : ptr; ep_sub_length : N;
  ep_aud : ptr; ep_aud_length : N;
  ep_jti : ptr; ep_jti_length : N;
  ep_exp : Z; ep_nbf : Z; ep_iat : Z;
  ep_header_claims : cptr; ep_header_claims_count : N;
  ep_payload_claims : cptr; ep_payload_claims_count : N;
  ep_secret_key : ptr; ep_secret_key_length : N;
  ep_secret_key_pw : ptr; ep_secret_key_pw_length : N;
  ep_out_nn : bool; ep_out_length_nn : bool
}.

(** src/encode.c:37-72 [md_info_from_alg]: digest and its length; [None] = left at
    MBEDTLS_MD_NONE / NULL / 0. *)
Definition md_info_from_alg (alg : Z) : option md :=
  match alg with
  | 0 | 3 | 6 | 9 | 12 => Some SHA256
  | 1 | 4 | 7 | 10 => Some SHA384
  | 2 | 5 | 8 | 11 => Some SHA512
  | _ => None
  end%Z.

(** src/encode.c:86-133: the fixed part of the header. [None]: the default case. *)
Definition header_prefix (alg : Z) : option bytes :=
  match alg with
  | 0 => Some (firstn 26 (clit "{""alg"":""HS256"",""typ"":""JWT"""))
  | 1 => Some (firstn 26 (clit "{""alg"":""HS384"",""typ"":""JWT"""))
  | 2 => Some (firstn 26 (clit "{""alg"":""HS512"",""typ"":""JWT"""))
  | 3 => Some (firstn 26 (clit "{""alg"":""RS256"",""typ"":""JWT"""))
  | 4 => Some (firstn 26 (clit "{""alg"":""RS384"",""typ"":""JWT"""))
  | 5 => Some (firstn 26 (clit "{""alg"":""RS512"",""typ"":""JWT"""))
  | 6 => Some (firstn 26 (clit "{""alg"":""PS256"",""typ"":""JWT"""))
  | 7 => Some (firstn 26 (clit "{""alg"":""PS384"",""typ"":""JWT"""))
  | 8 => Some (firstn 26 (clit "{""alg"":""PS512"",""typ"":""JWT"""))
  | 9 => Some (firstn 26 (clit "{""alg"":""ES256"",""typ"":""JWT"""))
  | 10 => Some (firstn 26 (clit "{""alg"":""ES384"",""typ"":""JWT"""))
  | 11 => Some (firstn 26 (clit "{""alg"":""ES512"",""typ"":""JWT"""))
  | 12 => Some (firstn 56 (clit "{""alg"":""ES256K"",""typ"":""JWT"",""kty"":""EC"",""crv"":""secp256k1"""))
  | 13 => Some (firstn 53 (clit "{""alg"":""EdDSA"",""typ"":""JWT"",""kty"":""EC"",""crv"":""Ed25519"""))
  | _ => None
  end%Z.

(** printf "%" PRIu64: decimal digits, no leading zero; [fuel] = 20 digits suffice for a
    [uint64_t]. *)
Fixpoint dec_digits (fuel : nat) (n : N) (acc : bytes) : bytes :=
  match fuel with
  | O => acc
  | S f =>
      let acc := n2b (48 + n mod 10) :: acc in
      if (n <? 10)%N then acc else dec_digits f (n / 10) acc
  end.
Definition print_u64 (n : N) : bytes := dec_digits 20 n [].

(** [snprintf(buf + off, 21, "%" PRIu64, v)] on a buffer [buf]: at most 20 characters and a NUL. *)
Definition snprintf21 (buf : bytes) (off : nat) (v : N) : U bytes :=
  let s := firstn 20 (print_u64 v) ++ [x00] in
  if (off + length s <=? length buf)%nat
  then OK (firstn off buf ++ s ++ skipn (off + length s) buf)
  else KO OOBWrite.

(** [(uint64_t)t] for a [time_t]. *)
Definition to_u64 (t : Z) : N := Z.to_N (t mod 2 ^ 64).

(** src/encode.c:160-175: [char iatnbfexp[64]] and the three snprintf calls. *)
Definition iatnbfexp (ep : enc_params) : U bytes :=
  let buf := repeat x00 64 in
  buf <-u (if (ep_iat ep =? 0)%Z then OK buf else snprintf21 buf 0 (to_u64 (ep_iat ep))) ;;
  buf <-u (if (ep_nbf ep =? 0)%Z then OK buf else snprintf21 buf 21 (to_u64 (ep_nbf ep))) ;;
  (if (ep_exp ep =? 0)%Z then OK buf else snprintf21 buf 42 (to_u64 (ep_exp ep))).

(** A string literal as key pointer, or NULL. *)
Definition key_if (b : bool) (s : string) : ptr := if b then Ptr None (clit s) else Null.
Arguments key_if b s%string_scope.

(** src/encode.c:177-186: the array of registered claims. *)
Definition registered_claims (ep : enc_params) (buf : bytes) : list claim :=
  let time_claim off name :=
    let m := skipn off buf in
    Claim (key_if (negb (is_nul (nth 0 m x00))) name) 3 (Ptr None m) 0
          L8W8JWT_CLAIM_TYPE_INTEGER in
  let str_claim v n name :=
    Claim (key_if (negb (is_null v)) name) 3 v n L8W8JWT_CLAIM_TYPE_STRING in
  [ time_claim 0%nat "iat"%string; time_claim 21%nat "nbf"%string; time_claim 42%nat "exp"%string;
    str_claim (ep_sub ep) (ep_sub_length ep) "sub"%string;
    str_claim (ep_iss ep) (ep_iss_length ep) "iss"%string;
    str_claim (ep_aud ep) (ep_aud_length ep) "aud"%string;
    str_claim (ep_jti ep) (ep_jti_length ep) "jti"%string ].

(** [l8w8jwt_base64_encode(1, buff.array, buff.length, &segment, &segment_length)] and, on
    success, the [segment_length] bytes of [segment] together with its block. *)
Definition encode_segment (p : platform) (data : ptr) (n : N) : M (Z * ptr * bytes) :=
  r <- l8w8jwt_base64_encode p true data n true true ;;
  if negb (b_rc r =? L8W8JWT_SUCCESS)%Z then mret (b_rc r, Null, [])
  else
    match b_out r, b_len r with
    | Some seg, Some len =>
        m <- lift (deref seg) ;;
        s <- lift (take m len) ;;
        mret (L8W8JWT_SUCCESS, seg, s)
    | _, _ => mub UninitUse
    end.

Definition cb_ptr (b : chillbuff byte) : ptr := Ptr (Some (cb_id b)) (cb_elems b).
Definition cb_len {A} (b : chillbuff A) : N := N.of_nat (length (cb_elems b)).

(** src/encode.c:75-216 [write_header_and_payload]. *)
Definition write_header_and_payload (p : platform) (sb : chillbuff byte) (ep : enc_params)
  : M (Z * chillbuff byte) :=
  o <- cb_init byte ;;
  match o with
  | None => mret (L8W8JWT_OUT_OF_MEM, sb)
  | Some buff =>
      match header_prefix (ep_alg ep) with
      | None => _ <- cb_free buff ;; mret (L8W8JWT_INVALID_ARG, sb)
      | Some h =>
          buff <- cb_push buff h ;;
          (* 135-139 *)
          buff <- (if (0 <? ep_header_claims_count ep)%N
                   then
                     buff <- cb_push buff (lit ",") ;;
                     r <- l8w8jwt_write_claims p buff (ep_header_claims ep)
                            (ep_header_claims_count ep) ;;
                     mret (snd r)
                   else mret buff) ;;
          buff <- cb_push buff (lit "}") ;;
          (* 146-158 *)
          '(r, segment, s) <- encode_segment p (cb_ptr buff) (cb_len buff) ;;
          if negb (r =? L8W8JWT_SUCCESS)%Z then _ <- cb_free buff ;; mret (r, sb)
          else
            sb <- cb_push sb s ;;
            let buff := cb_clear buff in
            _ <- free segment ;;
            tbuf <- lift (iatnbfexp ep) ;;
            let claims := registered_claims ep tbuf in
            buff <- cb_push buff (lit "{") ;;
            r <- l8w8jwt_write_claims p buff (CArr None claims) 7 ;;
            let buff := snd r in
            (* 192-198 *)
            buff <- (if (0 <? ep_payload_claims_count ep)%N
                     then
                       buff <- (if negb (ep_iat ep =? 0)%Z || negb (ep_exp ep =? 0)%Z
                                   || negb (ep_nbf ep =? 0)%Z || negb (ep_iss_length ep =? 0)%N
                                   || negb (ep_sub_length ep =? 0)%N
                                   || negb (ep_jti_length ep =? 0)%N
                                   || negb (ep_aud_length ep =? 0)%N
                                then cb_push buff (lit ",") else mret buff) ;;
                       r <- l8w8jwt_write_claims p buff (ep_payload_claims ep)
                              (ep_payload_claims_count ep) ;;
                       mret (snd r)
                     else mret buff) ;;
            buff <- cb_push buff (lit "}") ;;
            (* 202-215 *)
            '(r, segment, s) <- encode_segment p (cb_ptr buff) (cb_len buff) ;;
            if negb (r =? L8W8JWT_SUCCESS)%Z then _ <- cb_free buff ;; mret (r, sb)
            else
              sb <- cb_push sb (lit ".") ;;
              sb <- cb_push sb s ;;
              _ <- free segment ;;
              _ <- cb_free buff ;;
              mret (L8W8JWT_SUCCESS, sb)
      end
  end.

(** [key] after [memcpy(key, src, n)] into the zero-initialised L8W8JWT_MAX_KEY_SIZE-byte buffer
    (src/encode.c:245-250, src/decode.c:488-494). *)
Definition load_key (src : ptr) (n : N) : U bytes :=
  m <-u deref src ;;
  k <-u take m n ;;
  if (n <=? L8W8JWT_MAX_KEY_SIZE)%N
  then OK (k ++ repeat x00 (N.to_nat (L8W8JWT_MAX_KEY_SIZE - n)))
  else KO OOBWrite.

(** [key_length += key[key_length - 1] != '\0'] (src/encode.c:257, src/decode.c:497).
    [n = 0] (excluded by the validators) would index before the buffer. *)
Definition adjust_key_length (key : bytes) (n : N) : U N :=
  if (n =? 0)%N then KO OOBRead else
  last <-u read_at key (n - 1) ;;
  OK (if is_nul last then n else n + 1)%N.

(** Outcome of the algorithm switch: an error code ([goto exit]) or the bytes of the signature
    buffer and how many of them are the signature. *)
Definition sig_or_err := (Z * bytes * N)%type.
Definition sig_fail (r : Z) : sig_or_err := (r, [], 0%N).
Definition SIGBUF : N := 4096.

(** src/encode.c:276-295: HS256/384/512. *)
Definition sign_hs (e : env) (alg : Z) (key : bytes) (key_length : N) (msg : bytes)
  : U sig_or_err :=
  match md_info_from_alg alg with
  | None => KO NullDeref
  | Some h =>
      k <-u take key (key_length - 1) ;;
      match e_hmac e h k msg with
      | None => OK (sig_fail L8W8JWT_SIGNATURE_CREATION_FAILURE)
      | Some mac =>
          OK (L8W8JWT_SUCCESS, fit SIGBUF (fit (md_size h) mac), Z.to_N (32 + 16 * alg))
      end
  end.

(** src/encode.c:296-340: RS256/384/512. *)
Definition sign_rs (e : env) (ep : enc_params) (key : bytes) (key_length : N) (msg : bytes)
  : U sig_or_err :=
  match md_info_from_alg (ep_alg ep) with
  | None => KO NullDeref
  | Some h =>
      k <-u take key key_length ;;
      match e_parse_key e k (ep_secret_key_pw ep) (ep_secret_key_pw_length ep) with
      | None => OK (sig_fail L8W8JWT_KEY_PARSE_FAILURE)
      | Some pk =>
          if negb (e_can_do e pk PK_RSA) && negb (e_can_do e pk PK_RSA_ALT)
          then OK (sig_fail L8W8JWT_WRONG_KEY_TYPE)
          else if (e_bitlen e pk <? 2048)%N then OK (sig_fail L8W8JWT_WRONG_KEY_TYPE)
          else
            match e_md e h msg with
            | None => OK (sig_fail L8W8JWT_SHA2_FAILURE)
            | Some d =>
                match e_pk_sign e pk h (fit (md_size h) d) with
                | None => OK (sig_fail L8W8JWT_SIGNATURE_CREATION_FAILURE)
                | Some s =>
                    let s := firstn (N.to_nat SIGBUF) s in
                    OK (L8W8JWT_SUCCESS, fit SIGBUF s, N.of_nat (length s))
                end
            end
      end
  end.

(** src/encode.c:341-383: PS256/384/512. *)
Definition sign_ps (e : env) (ep : enc_params) (key : bytes) (key_length : N) (msg : bytes)
  : U sig_or_err :=
  match md_info_from_alg (ep_alg ep) with
  | None => KO NullDeref
  | Some h =>
      k <-u take key key_length ;;
      match e_parse_key e k (ep_secret_key_pw ep) (ep_secret_key_pw_length ep) with
      | None => OK (sig_fail L8W8JWT_KEY_PARSE_FAILURE)
      | Some pk =>
          if negb (e_can_do e pk PK_RSASSA_PSS) then OK (sig_fail L8W8JWT_WRONG_KEY_TYPE)
          else if (e_bitlen e pk <? 2048)%N then OK (sig_fail L8W8JWT_WRONG_KEY_TYPE)
          else
            match e_md e h msg with
            | None => OK (sig_fail L8W8JWT_SHA2_FAILURE)
            | Some d =>
                if negb (e_pk_rsa e pk) then KO NullDeref
                else if (SIGBUF <? e_rsa_len e pk)%N then KO OOBWrite
                else
                  match e_pss_sign e pk h (fit (md_size h) d) with
                  | None => OK (sig_fail L8W8JWT_SIGNATURE_CREATION_FAILURE)
                  | Some s =>
                      OK (L8W8JWT_SUCCESS, fit SIGBUF (fit (e_rsa_len e pk) s),
                          (e_bitlen e pk / 8)%N)
                  end
            end
      end
  end.

(** src/encode.c:418-472: the curve, signature size and key size each ES* algorithm demands. *)
Definition es_params (alg : Z) : option (ecp_group * N * N) :=
  match alg with
  | 9 => Some (SECP256R1, 64%N, 256%N)
  | 12 => Some (SECP256K1, 64%N, 256%N)
  | 10 => Some (SECP384R1, 96%N, 384%N)
  | 11 => Some (SECP521R1, 132%N, 521%N)
  | _ => None
  end%Z.

(** src/encode.c:384-522: ES256/384/512/256K. *)
Definition sign_es (e : env) (ep : enc_params) (key : bytes) (key_length : N) (msg : bytes)
  : U sig_or_err :=
  match md_info_from_alg (ep_alg ep) with
  | None => KO NullDeref
  | Some h =>
      k <-u take key key_length ;;
      match e_parse_key e k (ep_secret_key_pw ep) (ep_secret_key_pw_length ep) with
      | None => OK (sig_fail L8W8JWT_KEY_PARSE_FAILURE)
      | Some pk =>
          if negb (e_can_do e pk PK_ECDSA) then OK (sig_fail L8W8JWT_WRONG_KEY_TYPE)
          else if negb (e_pk_ec e pk) then KO NullDeref
          else if negb (e_ecdsa_from_keypair e pk) then OK (sig_fail L8W8JWT_KEY_PARSE_FAILURE)
          else
            match e_md e h msg with
            | None => OK (sig_fail L8W8JWT_SHA2_FAILURE)
            | Some d =>
                match es_params (ep_alg ep) with
                | None => OK (sig_fail L8W8JWT_WRONG_KEY_TYPE)
                | Some (grp, len, bits) =>
                    if negb (ecp_group_eqb (e_group e pk) grp)
                    then OK (sig_fail L8W8JWT_WRONG_KEY_TYPE)
                    else if negb (e_bitlen e pk =? bits)%N
                    then OK (sig_fail L8W8JWT_WRONG_KEY_TYPE)
                    else
                      match e_ecdsa_sign e pk (fit (md_size h) d) with
                      | None => OK (sig_fail L8W8JWT_SIGNATURE_CREATION_FAILURE)
                      | Some (sig_r, sig_s) =>
                          let half := N.to_nat (len / 2) in
                          match mpi_write_binary sig_r half with
                          | None => OK (sig_fail L8W8JWT_SIGNATURE_CREATION_FAILURE)
                          | Some br =>
                              match mpi_write_binary sig_s half with
                              | None => OK (sig_fail L8W8JWT_SIGNATURE_CREATION_FAILURE)
                              | Some bs =>
                                  OK (L8W8JWT_SUCCESS, fit SIGBUF (br ++ bs), len)
                              end
                          end
                      end
                end
            end
      end
  end.

(** src/encode.c:523-549: EdDSA. The checks are on the caller's key, not the copy. *)
Definition sign_ed (p : platform) (e : env) (ep : enc_params) (msg : bytes) : U sig_or_err :=
  if negb (p_eddsa p) then OK (sig_fail L8W8JWT_UNSUPPORTED_ALG) else
  m <-u deref (ep_secret_key ep) ;;
  let n := ep_secret_key_length ep in
  ok <-u (if (n =? 128)%N then OK true
          else if (n =? 129)%N then (b <-u read_at m 128 ;; OK (is_nul b))
          else OK false) ;;
  if negb ok then OK (sig_fail L8W8JWT_WRONG_KEY_TYPE)
  else
    '(r, out, _) <-u l8w8jwt_hexstr2bin p (ep_secret_key ep) n (Ptr None (repeat x00 65)) 65 false ;;
    if negb (r =? 0)%Z then OK (sig_fail L8W8JWT_WRONG_KEY_TYPE)
    else
      match out with
      | None => KO UninitUse
      | Some k => OK (L8W8JWT_SUCCESS, fit SIGBUF (fit 64 (e_ed_sign e msg (firstn 64 k))), 64%N)
      end.

(** src/encode.c:274-554: the algorithm switch. *)
Definition sign_switch (p : platform) (e : env) (ep : enc_params) (key : bytes) (key_length : N)
           (msg : bytes) : U sig_or_err :=
  match ep_alg ep with
  | 0 | 1 | 2 => sign_hs e (ep_alg ep) key key_length msg
  | 3 | 4 | 5 => sign_rs e ep key key_length msg
  | 6 | 7 | 8 => sign_ps e ep key key_length msg
  | 9 | 10 | 11 | 12 => sign_es e ep key key_length msg
  | 13 => sign_ed p e ep msg
  | _ => OK (sig_fail L8W8JWT_INVALID_ARG)
  end%Z.

(** src/encode.c:249-573: the body between the buffers and the [exit] label. Returns the code,
    the string builder and the base64 [signature] to be freed. *)
Definition write_signature_body (p : platform) (e : env) (sb : chillbuff byte) (ep : enc_params)
  : M (Z * chillbuff byte * ptr) :=
  key <- lift (load_key (ep_secret_key ep) (ep_secret_key_length ep)) ;;
  key_length <- lift (adjust_key_length key (ep_secret_key_length ep)) ;;
  if negb (e_seed_ok e) then mret (L8W8JWT_MBEDTLS_CTR_DRBG_SEED_FAILURE, sb, Null)
  else
    '(r, sigbuf, n) <- lift (sign_switch p e ep key key_length (cb_elems sb)) ;;
    if negb (r =? L8W8JWT_SUCCESS)%Z then mret (r, sb, Null)
    else if (n =? 0)%N then mret (L8W8JWT_SIGNATURE_CREATION_FAILURE, sb, Null)
    else
      '(r, signature, s) <- encode_segment p (Ptr None sigbuf) n ;;
      if negb (r =? L8W8JWT_SUCCESS)%Z then mret (L8W8JWT_BASE64_FAILURE, sb, Null)
      else
        sb <- cb_push sb (lit ".") ;;
        sb <- cb_push sb s ;;
        mret (L8W8JWT_SUCCESS, sb, signature).

(** src/encode.c:219-587 [write_signature]. In the L8W8JWT_SMALL_STACK build the two buffers are
    heap blocks (235-243, freed at 581-584); the [exit] code zeroizes [key] unconditionally. *)
Definition write_signature (p : platform) (e : env) (sb : chillbuff byte) (ep : enc_params)
  : M (Z * chillbuff byte) :=
  if p_small_stack p then
    sigb <- calloc SIGBUF ;;
    key <- calloc L8W8JWT_MAX_KEY_SIZE ;;
    '(r, sb, signature) <-
      (if is_null sigb || is_null key then mret (L8W8JWT_OUT_OF_MEM, sb, Null)
       else write_signature_body p e sb ep) ;;
    _ <- zeroize key L8W8JWT_MAX_KEY_SIZE ;;
    _ <- free signature ;;
    _ <- free key ;;
    _ <- free sigb ;;
    mret (r, sb)
  else
    '(r, sb, signature) <- write_signature_body p e sb ep ;;
    _ <- free signature ;;
    mret (r, sb).

(** What encode stores through its output pointers: [None] = not written. *)
Record enc_res := EncRes { er_rc : Z; er_out : option ptr; er_len : option N }.

(** src/encode.c:590-603 [write_token]: the NUL is stored first, then the text copied before it.
    The [length + 1] of the allocation cannot wrap: the builder's array is an existing object. *)
Definition write_token (sb : chillbuff byte) : M enc_res :=
  o <- malloc (cb_len sb + 1) ;;
  match o with
  | Null => mret (EncRes L8W8JWT_OUT_OF_MEM (Some Null) None)
  | Ptr blk buf =>
      c <- lift (cur_puts (cur_start buf) (cb_elems sb)) ;;
      c <- lift (cur_set c x00) ;;
      mret (EncRes L8W8JWT_SUCCESS (Some (Ptr blk (cur_buf c))) (Some (cb_len sb)))
  end.

(** src/encode.c:605-613 [l8w8jwt_encoding_params_init]: all fields zero, alg = -2. *)
Definition l8w8jwt_encoding_params_init : enc_params :=
  EncParams (-2) Null 0 Null 0 Null 0 Null 0 0 0 0 CNull 0 CNull 0 Null 0 Null 0 false false.

Definition is_cnull (c : cptr) : bool := match c with CNull => true | _ => false end.

(** src/encode.c:615-638 [l8w8jwt_validate_encoding_params]; [None] = NULL. *)
Definition l8w8jwt_validate_encoding_params (params : option enc_params) : Z :=
  match params with
  | None => L8W8JWT_NULL_ARG
  | Some ep =>
      if is_null (ep_secret_key ep) || negb (ep_out_nn ep) || negb (ep_out_length_nn ep)
      then L8W8JWT_NULL_ARG
      else if (ep_secret_key_length ep =? 0)%N
              || (L8W8JWT_MAX_KEY_SIZE <? ep_secret_key_length ep)%N
      then L8W8JWT_INVALID_ARG
      else if negb (is_cnull (ep_payload_claims ep)) && (ep_payload_claims_count ep =? 0)%N
      then L8W8JWT_INVALID_ARG
      else if negb (is_cnull (ep_header_claims ep)) && (ep_header_claims_count ep =? 0)%N
      then L8W8JWT_INVALID_ARG
      else L8W8JWT_SUCCESS
  end.

(** src/encode.c:655-676: between the string builder and the [exit] label. *)
Definition encode_body (p : platform) (e : env) (sb : chillbuff byte) (ep : enc_params)
  : M (enc_res * chillbuff byte) :=
  '(r, sb) <- write_header_and_payload p sb ep ;;
  if negb (r =? L8W8JWT_SUCCESS)%Z then mret (EncRes r None None, sb)
  else
    '(r, sb) <- (if negb (ep_alg ep =? -1)%Z then write_signature p e sb ep
                 else mret (L8W8JWT_SUCCESS, sb)) ;;
    if negb (r =? L8W8JWT_SUCCESS)%Z then mret (EncRes r None None, sb)
    else
      res <- write_token sb ;;
      mret (res, sb).

(** src/encode.c:640-681 [l8w8jwt_encode]. *)
Definition l8w8jwt_encode (p : platform) (e : env) (params : option enc_params) : M enc_res :=
  let r := l8w8jwt_validate_encoding_params params in
  match params with
  | None => mret (EncRes r None None)
  | Some ep =>
      if negb (r =? L8W8JWT_SUCCESS)%Z then mret (EncRes r None None)
      else
        o <- cb_init byte ;;
        match o with
        | None => mret (EncRes L8W8JWT_OUT_OF_MEM None None)
        | Some sb =>
            '(res, sb) <- encode_body p e sb ep ;;
            _ <- cb_free sb ;;
            mret res
        end
  end.
