(** * Model of src/decode.c *)
From Verif Require Import Base Base64 Util Claim Jsmn Env Encode.

(** struct l8w8jwt_decoding_params (include/l8w8jwt/decode.h:99-229). *)
Record dec_params := DecParams {
  dp_jwt : ptr; dp_jwt_length : N; dp_alg : Z;
  dp_validate_iss : ptr; dp_validate_iss_length : N;
  dp_validate_sub : ptr; dp_validate_sub_length : N;
  dp_validate_aud : ptr; dp_validate_aud_length : N;
  dp_validate_jti : ptr; dp_validate_jti_length : N;
  dp_validate_exp : bool; dp_validate_nbf : bool; dp_validate_iat : bool;
  dp_exp_tolerance : N; dp_nbf_tolerance : N; dp_iat_tolerance : N; (* uint8_t seconds *)
  dp_verification_key : ptr; dp_verification_key_length : N;
  dp_validate_typ : ptr; dp_validate_typ_length : N
}.

(** enum l8w8jwt_validation_result (decode.h:46-94). *)
Definition L8W8JWT_VALID : N := 0.
Definition L8W8JWT_ISS_FAILURE : N := 1.
Definition L8W8JWT_SUB_FAILURE : N := 2.
Definition L8W8JWT_AUD_FAILURE : N := 4.
Definition L8W8JWT_JTI_FAILURE : N := 8.
Definition L8W8JWT_EXP_FAILURE : N := 16.
Definition L8W8JWT_NBF_FAILURE : N := 32.
Definition L8W8JWT_IAT_FAILURE : N := 64.
Definition L8W8JWT_SIGNATURE_VERIFICATION_FAILURE : N := 128.
Definition L8W8JWT_TYP_FAILURE : N := 256.
(** [~L8W8JWT_VALID] as a 32-bit value. *)
Definition NOT_VALID : N := 4294967295.

(** src/decode.c:42-78 [md_info_from_alg] (the decoder's copy, which also knows ED25519). *)
Definition dec_md_info_from_alg (alg : Z) : option md :=
  match alg with
  | 0 | 3 | 6 | 9 | 12 => Some SHA256
  | 1 | 4 | 7 | 10 => Some SHA384
  | 2 | 5 | 8 | 11 | 13 => Some SHA512
  | _ => None
  end%Z.

(** src/decode.c:85-123: the character a two-character escape stands for. *)
Definition unescape_char (e : byte) : option byte :=
  match e with
  | x22 => Some x22 | x5c => Some x5c | x2f => Some x2f
  | x62 => Some x08 | x66 => Some x0c | x6e => Some x0a | x72 => Some x0d | x74 => Some x09
  | _ => None
  end.

(** src/decode.c:80-128 [l8w8jwt_unescape_string] on the [n] input characters [s]. *)
Fixpoint l8w8jwt_unescape_string (c : cursor) (s : bytes) : U cursor :=
  match s with
  | [] => OK c
  | ch :: t =>
      if Byte.eqb ch x5c then
        match t with
        | [] => cur_put c ch
        | e :: t' =>
            match unescape_char e with
            | Some u => c <-u cur_put c u ;; l8w8jwt_unescape_string c t'
            | None => c <-u cur_put c ch ;; l8w8jwt_unescape_string c t
            end
        end
      else c <-u cur_put c ch ;; l8w8jwt_unescape_string c t
  end.

(** [strncpy(dst, src, n)]: copies up to the first NUL, then pads with NULs, [n] bytes in all. *)
Fixpoint strncpy_bytes (src : bytes) (n : nat) : U bytes :=
  match n with
  | O => OK []
  | S k =>
      match src with
      | [] => KO OOBRead
      | c :: t => if is_nul c then OK (repeat x00 n) else (r <-u strncpy_bytes t k ;; OK (c :: r))
      end
  end.

(** src/decode.c:130-163 [l8w8jwt_unescape_claim]. [key], [value]: the JSON text from there on;
    [type]: claim->type as set by the caller. Returns the code and the claim (on success). *)
Definition l8w8jwt_unescape_claim (p : platform) (type : Z) (key : bytes) (key_length : N)
           (value : bytes) (value_length : N) : M (Z * option claim) :=
  k <- calloc ((key_length + 1) mod size_mod p) ;;
  v <- calloc ((value_length + 1) mod size_mod p) ;;
  match k, v with
  | Ptr kid kbuf, Ptr vid vbuf =>
      ks <- lift (take key key_length) ;;
      c <- lift (l8w8jwt_unescape_string (cur_start kbuf) ks) ;;
      c <- lift (cur_set c x00) ;;
      let kp := Ptr kid (cur_buf c) in
      let kl := cur_off c in
      if (type =? L8W8JWT_CLAIM_TYPE_STRING)%Z then
        vs <- lift (take value value_length) ;;
        c <- lift (l8w8jwt_unescape_string (cur_start vbuf) vs) ;;
        c <- lift (cur_set c x00) ;;
        mret (L8W8JWT_SUCCESS, Some (Claim kp kl (Ptr vid (cur_buf c)) (cur_off c) type))
      else
        vs <- lift (strncpy_bytes value (N.to_nat value_length)) ;;
        c <- lift (cur_puts (cur_start vbuf) vs) ;;
        c <- lift (cur_set c x00) ;;
        mret (L8W8JWT_SUCCESS, Some (Claim kp kl (Ptr vid (cur_buf c)) value_length type))
  | _, _ =>
      _ <- free k ;;
      _ <- free v ;;
      mret (L8W8JWT_OUT_OF_MEM, None)
  end.

(** One decoded segment: pointer and length as stored by the callers (NULL, 0 initially). *)
Record seg := Seg { s_ptr : ptr; s_len : N }.
Definition seg0 : seg := Seg Null 0.
Record segs := Segs { sg_header : seg; sg_payload : seg; sg_signature : seg }.

(** Effect of a base64 call on [*out], [*out_length]. *)
Definition seg_upd (s : seg) (r : b64res) : seg :=
  Seg (match b_out r with Some q => q | None => s_ptr s end)
      (match b_len r with Some n => n | None => s_len s end).
(** src/decode.c:184-189 and its two repetitions. *)
Definition b64_err (rc : Z) : Z :=
  if (rc =? L8W8JWT_OUT_OF_MEM)%Z then rc else L8W8JWT_BASE64_FAILURE.

(** src/decode.c:165-226 [l8w8jwt_decode_segments]. *)
Definition l8w8jwt_decode_segments (p : platform) (dp : dec_params) : M (Z * segs) :=
  let s0 := Segs seg0 seg0 seg0 in
  jwt <- lift (deref (dp_jwt dp)) ;;
  next <- lift (strchr jwt x2e) ;;
  match next with
  | None => mret (L8W8JWT_DECODE_FAILED_INVALID_TOKEN_FORMAT, s0)
  | Some n1 =>
      r <- l8w8jwt_base64_decode true (Ptr None jwt) (N.of_nat n1) true true ;;
      let h := seg_upd seg0 r in
      if negb (b_rc r =? L8W8JWT_SUCCESS)%Z then mret (b64_err (b_rc r), Segs h seg0 seg0)
      else
        let cur := skipn (S n1) jwt in
        next2 <- lift (strchr cur x2e) ;;
        if match next2 with None => true | _ => false end && negb (dp_alg dp =? -1)%Z
        then mret (L8W8JWT_DECODE_FAILED_MISSING_SIGNATURE, Segs h seg0 seg0)
        else
          let current_length :=
            match next2 with
            | Some n2 => N.of_nat n2
            | None => to_size p (Z.of_N (dp_jwt_length dp) - Z.of_nat (S n1))
            end in
          r <- l8w8jwt_base64_decode true (Ptr None cur) current_length true true ;;
          let pl := seg_upd seg0 r in
          if negb (b_rc r =? L8W8JWT_SUCCESS)%Z then mret (b64_err (b_rc r), Segs h pl seg0)
          else
            match next2 with
            | None => mret (L8W8JWT_SUCCESS, Segs h pl seg0)
            | Some n2 =>
                let cur2 := skipn (S n2) cur in
                let current_length :=
                  to_size p (Z.of_N (dp_jwt_length dp) - Z.of_nat (S n1 + S n2)) in
                r <- l8w8jwt_base64_decode true (Ptr None cur2) current_length true true ;;
                let sg := seg_upd seg0 r in
                if negb (b_rc r =? L8W8JWT_SUCCESS)%Z
                then mret (b64_err (b_rc r), Segs h pl sg)
                else mret (L8W8JWT_SUCCESS, Segs h pl sg)
            end
  end.

(** The token array: the tokens jsmn filled in, [cap] elements in all, the rest indeterminate. *)
Record tokarr := TokArr { ta_toks : list tok; ta_cap : Z; ta_junk : Z -> tok }.
Definition tok_at (a : tokarr) (i : Z) : U tok :=
  if (i <? 0)%Z || (ta_cap a <=? i)%Z then KO OOBRead
  else OK (nth (Z.to_nat i) (ta_toks a) (ta_junk a i)).

(** src/decode.c:294-297 and 305-308: [while (tokens[i + 1].end <= value.end && i < r) ++i]. *)
Fixpoint skip_nested (fuel : nat) (a : tokarr) (r vend i : Z) : U Z :=
  match fuel with
  | O => KO OutOfFuel
  | S f =>
      t <-u tok_at a (i + 1) ;;
      if (t_end t <=? vend)%Z && (i <? r)%Z then skip_nested f a r vend (i + 1) else OK i
  end.

(** src/decode.c:279-349: the claim type of a value token and the index after skipping a
    container's tokens; [None] = the error exits. *)
Definition claim_type (e : env) (json : bytes) (a : tokarr) (r i : Z) (value : tok)
  : U (option (Z * Z)) :=
  match t_type value with
  | JUndefined => OK (Some (L8W8JWT_CLAIM_TYPE_OTHER, i))
  | JString => OK (Some (L8W8JWT_CLAIM_TYPE_STRING, i))
  | JObject =>
      i' <-u skip_nested (S (S (Z.to_nat r))) a r (t_end value) i ;;
      OK (Some (L8W8JWT_CLAIM_TYPE_OBJECT, i'))
  | JArray =>
      i' <-u skip_nested (S (S (Z.to_nat r))) a r (t_end value) i ;;
      OK (Some (L8W8JWT_CLAIM_TYPE_ARRAY, i'))
  | JPrimitive =>
      let value_length := (t_end value - t_start value)%Z in
      m <-u at_off json (t_start value) ;;
      is_bool <-u
        (if (value_length <=? 5)%Z then
           c <-u strncmp m (clit "true") 4 ;;
           if (c =? 0)%Z then OK true
           else (c <-u strncmp m (clit "false") 5 ;; OK (c =? 0)%Z)
         else OK false) ;;
      if is_bool : bool then OK (Some (L8W8JWT_CLAIM_TYPE_BOOLEAN, i))
      else
        is_null <-u
          (if (value_length =? 4)%Z then (c <-u strncmp m (clit "null") 4 ;; OK (c =? 0)%Z)
           else OK false) ;;
        if is_null : bool then OK (Some (L8W8JWT_CLAIM_TYPE_NULL, i))
        else
          s <-u (if (value_length <? 0)%Z then KO OOBRead else take m (Z.to_N value_length)) ;;
          let n := e_checknum e s in
          if (n =? 1)%Z then OK (Some (L8W8JWT_CLAIM_TYPE_INTEGER, i))
          else if (n =? 2)%Z then OK (Some (L8W8JWT_CLAIM_TYPE_NUMBER, i))
          else OK None
  end.

(** src/decode.c:266-362: the loop over key/value token pairs. Returns the final code and the
    claims buffer. *)
Fixpoint claims_loop (fuel : nat) (p : platform) (e : env) (json : bytes) (a : tokarr) (r i : Z)
         (buffer : chillbuff claim) : M (Z * chillbuff claim) :=
  match fuel with
  | O => mub OutOfFuel
  | S f =>
      if negb (i <? r)%Z then mret (L8W8JWT_SUCCESS, buffer)
      else
        key <- lift (tok_at a i) ;;
        let i := (i + 1)%Z in
        value <- lift (tok_at a i) ;;
        if (r <=? i)%Z || negb (jtype_eqb (t_type key) JString)
        then mret (L8W8JWT_DECODE_FAILED_INVALID_TOKEN_FORMAT, buffer)
        else
          ct <- lift (claim_type e json a r i value) ;;
          match ct with
          | None => mret (L8W8JWT_DECODE_FAILED_INVALID_TOKEN_FORMAT, buffer)
          | Some (type, i) =>
              km <- lift (at_off json (t_start key)) ;;
              vm <- lift (at_off json (t_start value)) ;;
              '(ur, c) <- l8w8jwt_unescape_claim p type
                            km (to_size p (t_end key - t_start key))
                            vm (to_size p (t_end value - t_start value)) ;;
              match c with
              | None => mret (ur, buffer)
              | Some c =>
                  buffer <- cb_push buffer [c] ;;
                  claims_loop f p e json a r (i + 1)%Z buffer
              end
          end
  end.

(** src/decode.c:228-371 [l8w8jwt_parse_claims]. Texts of 2^31 bytes or more are outside the
    model (jsmn's [int] offsets overflow) and yield [SignedOverflow]. *)
Definition l8w8jwt_parse_claims (p : platform) (e : env) (buffer : chillbuff claim) (json : ptr)
           (json_length : N) : M (Z * chillbuff claim) :=
  mem <- lift (deref json) ;;
  js <- lift (take mem json_length) ;;
  if (INT_MAX <? Z.of_N json_length)%Z then mub SignedOverflow else
  let r := fst (e_jsmn e js None) in
  if (r =? 0)%Z then mret (L8W8JWT_SUCCESS, buffer)
  else if (r <? 0)%Z then mret (L8W8JWT_DECODE_FAILED_INVALID_TOKEN_FORMAT, buffer)
  else
    o <- (if (r <=? 64)%Z then mret (Some None)
          else (o <- alloc ;; mret (option_map Some o))) ;;
    match o with
    | None => mret (L8W8JWT_OUT_OF_MEM, buffer)
    | Some blk =>
        let '(r2, toks) := e_jsmn e js (Some r) in
        if (r2 <? 0)%Z then mret (L8W8JWT_DECODE_FAILED_INVALID_TOKEN_FORMAT, buffer)
        else
          let a := TokArr toks (if (r <=? 64)%Z then 64 else r) (e_tok_junk e) in
          t0 <- lift (tok_at a 0) ;;
          '(rc, buffer) <-
            (if negb (jtype_eqb (t_type t0) JObject)
             then mret (L8W8JWT_DECODE_FAILED_INVALID_TOKEN_FORMAT, buffer)
             else claims_loop (S (Z.to_nat r2)) p e mem a r2 1 buffer) ;;
          _ <- (match blk with Some id => free_id id | None => mret tt end) ;;
          mret (rc, buffer)
    end.

(** src/decode.c:377-387 and its three repetitions: does the [expected] string check fail? *)
Definition string_check (claims : cptr) (count : N) (name : string) (expected : ptr)
           (expected_length : N) : U bool :=
  c <-u l8w8jwt_get_claim claims count (Ptr None (clit name)) 3 ;;
  validation_length <-u length_or_strlen expected_length expected ;;
  match c with
  | None => OK true
  | Some c =>
      if negb (c_value_length c =? validation_length)%N then OK true
      else
        m <-u deref (c_value c) ;;
        x <-u deref expected ;;
        r <-u strncmp m x validation_length ;;
        OK (negb (r =? 0)%Z)
  end.

Arguments string_check claims count name%string_scope expected expected_length.

(** 64-bit signed arithmetic on [time_t]. *)
Definition i64 (z : Z) : U Z :=
  if ((I64_MIN <=? z) && (z <=? I64_MAX))%Z then OK z else KO SignedOverflow.

(** src/decode.c:427-434, 436-443, 445-452: does a time check fail? [late now v] is the failing
    comparison. *)
Definition time_check (claims : cptr) (count : N) (name : string) (now : Z)
           (fails : Z -> Z -> bool) : U bool :=
  c <-u l8w8jwt_get_claim claims count (Ptr None (clit name)) 3 ;;
  match c with
  | None => OK true
  | Some c =>
      n <-u i64 now ;;
      m <-u deref (c_value c) ;;
      v <-u strtoll m ;;
      OK (fails n v)
  end.

Arguments time_check claims count name%string_scope now fails.

(** src/decode.c:454-461. *)
Definition typ_check (p : platform) (claims : cptr) (count : N) (expected : ptr) (n : N) : U bool :=
  c <-u l8w8jwt_get_claim claims count (Ptr None (clit "typ")) 3 ;;
  match c with
  | None => OK true
  | Some c => r <-u l8w8jwt_strncmpic p (c_value c) expected n ;; OK (negb (r =? 0)%Z)
  end.

(** [if (enabled) { if (check) *res |= flag; }] *)
Definition flag_if (enabled : bool) (check : U bool) (flag : N) (res : N) : U N :=
  if enabled then (b <-u check ;; OK (if b : bool then N.lor res flag else res)) else OK res.

(** src/decode.c:373-462 [l8w8jwt_validate_claims]. *)
Definition l8w8jwt_validate_claims (p : platform) (e : env) (dp : dec_params) (claims : cptr)
           (count : N) (res : N) : U N :=
  let ct := e_time e in
  res <-u flag_if (negb (is_null (dp_validate_sub dp)))
            (string_check claims count "sub" (dp_validate_sub dp) (dp_validate_sub_length dp))
            L8W8JWT_SUB_FAILURE res ;;
  res <-u flag_if (negb (is_null (dp_validate_aud dp)))
            (string_check claims count "aud" (dp_validate_aud dp) (dp_validate_aud_length dp))
            L8W8JWT_AUD_FAILURE res ;;
  res <-u flag_if (negb (is_null (dp_validate_iss dp)))
            (string_check claims count "iss" (dp_validate_iss dp) (dp_validate_iss_length dp))
            L8W8JWT_ISS_FAILURE res ;;
  res <-u flag_if (negb (is_null (dp_validate_jti dp)))
            (string_check claims count "jti" (dp_validate_jti dp) (dp_validate_jti_length dp))
            L8W8JWT_JTI_FAILURE res ;;
  res <-u flag_if (dp_validate_exp dp)
            (time_check claims count "exp" (ct - Z.of_N (dp_exp_tolerance dp))%Z
               (fun now v => (v <? now)%Z))
            L8W8JWT_EXP_FAILURE res ;;
  res <-u flag_if (dp_validate_nbf dp)
            (time_check claims count "nbf" (ct + Z.of_N (dp_nbf_tolerance dp))%Z
               (fun now v => (now <? v)%Z))
            L8W8JWT_NBF_FAILURE res ;;
  res <-u flag_if (dp_validate_iat dp)
            (time_check claims count "iat" (ct + Z.of_N (dp_iat_tolerance dp))%Z
               (fun now v => (now <? v)%Z))
            L8W8JWT_IAT_FAILURE res ;;
  flag_if (negb (is_null (dp_validate_typ dp)))
    (typ_check p claims count (dp_validate_typ dp) (dp_validate_typ_length dp))
    L8W8JWT_TYP_FAILURE res.

(** Outcome of the verification switch: [goto exit] with a code, or does the signature check
    raise the failure flag? *)
Inductive verdict := VExit (r : Z) | VFlag (fails : bool).

(** src/decode.c:499-509: certificate detection and parsing. [None]: parse failure;
    [Some None]: not a certificate. *)
Definition load_cert (e : env) (key : bytes) (key_length : N) : U (option (option pk)) :=
  is_cert <-u strstr_found key (lit "-----BEGIN CERTIFICATE-----") ;;
  if is_cert : bool then
    k <-u take key key_length ;;
    OK (match e_x509_parse e k with None => None | Some pk => Some (Some pk) end)
  else OK (Some None).

(** src/decode.c:586-594 and its repetitions: the public key to use. *)
Definition public_key (e : env) (crt : option pk) (key : bytes) (key_length : N) : U (option pk) :=
  match crt with
  | Some pk => OK (Some pk)
  | None => k <-u take key key_length ;; OK (e_parse_public_key e k)
  end.

(** src/decode.c:536-559: hash for the asymmetric algorithms. [None] = SHA2 failure. *)
Definition verify_hash (e : env) (alg : Z) (msg : bytes) : option bytes :=
  if ((3 <=? alg) && (alg <=? 12))%Z then
    match dec_md_info_from_alg alg with
    | None => None
    | Some h => option_map (fit (md_size h)) (e_md e h msg)
    end
  else Some (repeat x00 64).

(** src/decode.c:561-720: the verification switch. [sig]: the signature buffer's bytes (its whole
    allocation), [signature_length] of which are the signature; [msg]: the bytes before the second
    dot. *)
Definition verify_switch (p : platform) (e : env) (alg : Z) (crt : option pk) (key : bytes)
           (key_length : N) (msg hash sig : bytes) (signature_length : N) : U verdict :=
  match dec_md_info_from_alg alg with
  | None => OK (VFlag false)                       (* default: break *)
  | Some h =>
      match alg with
      | 0 | 1 | 2 =>
          k <-u take key (key_length - 1) ;;
          match e_hmac e h k msg with
          | None => OK (VFlag true)
          | Some mac =>
              eq <-u memcmp_eq sig (fit 64 (fit (md_size h) mac)) (Z.to_N (32 + 16 * alg)) ;;
              OK (VFlag (negb eq))
          end
      | 3 | 4 | 5 =>
          o <-u public_key e crt key key_length ;;
          match o with
          | None => OK (VExit L8W8JWT_KEY_PARSE_FAILURE)
          | Some pk =>
              s <-u take sig signature_length ;;
              OK (VFlag (negb (e_pk_verify e pk h hash s)))
          end
      | 6 | 7 | 8 =>
          o <-u public_key e crt key key_length ;;
          match o with
          | None => OK (VExit L8W8JWT_KEY_PARSE_FAILURE)
          | Some pk =>
              if negb (e_pk_rsa e pk) then KO NullDeref
              else
                s <-u take sig (e_rsa_len e pk) ;;
                OK (VFlag (negb (e_pss_verify e pk h hash s)))
          end
      | 9 | 10 | 11 | 12 =>
          o <-u public_key e crt key key_length ;;
          match o with
          | None => OK (VExit L8W8JWT_KEY_PARSE_FAILURE)
          | Some pk =>
              let half := (signature_length / 2)%N in
              if negb (e_pk_ec e pk) then KO NullDeref
              else if negb (e_ecdsa_from_keypair e pk) then OK (VExit L8W8JWT_KEY_PARSE_FAILURE)
              else
                r <-u take sig half ;;
                s <-u take (skipn (N.to_nat half) sig) half ;;
                OK (VFlag (negb (e_ecdsa_verify e pk hash (mpi_read_binary r) (mpi_read_binary s))))
          end
      | 13 =>
          if negb (p_eddsa p) then OK (VExit L8W8JWT_UNSUPPORTED_ALG)
          else
            ok <-u (if (key_length =? 64)%N then OK true
                    else if (key_length =? 65)%N
                    then (b <-u read_at key 64 ;; OK (is_nul b)) else OK false) ;;
            if negb ok then OK (VExit L8W8JWT_WRONG_KEY_TYPE)
            else
              '(r, out, _) <-u l8w8jwt_hexstr2bin p (Ptr None key) key_length
                                 (Ptr None (repeat x00 33)) 33 false ;;
              if negb (r =? 0)%Z then OK (VExit L8W8JWT_WRONG_KEY_TYPE)
              else
                match out with
                | None => KO UninitUse
                | Some pub =>
                    s <-u take sig 64 ;;
                    OK (VFlag (negb (e_ed_verify e s msg (firstn 32 pub))))
                end
      | _ => OK (VFlag false)
      end%Z
  end.

(** src/decode.c:494-722: between the key buffer and the [exit] label. *)
Definition verify_body (p : platform) (e : env) (dp : dec_params) (sig : bytes)
           (signature_length : N) : U verdict :=
  key <-u load_key (dp_verification_key dp) (dp_verification_key_length dp) ;;
  key_length <-u adjust_key_length key (dp_verification_key_length dp) ;;
  crt <-u load_cert e key key_length ;;
  match crt with
  | None => OK (VExit L8W8JWT_KEY_PARSE_FAILURE)
  | Some crt =>
      jwt <-u deref (dp_jwt dp) ;;
      n1 <-u strchr jwt x2e ;;
      match n1 with
      | None => OK (VExit L8W8JWT_DECODE_FAILED_INVALID_TOKEN_FORMAT)
      | Some n1 =>
          n2 <-u strchr (skipn (S n1) jwt) x2e ;;
          match n2 with
          | None => OK (VExit L8W8JWT_DECODE_FAILED_INVALID_TOKEN_FORMAT)
          | Some n2 =>
              let msg := firstn (S n1 + n2) jwt in
              match verify_hash e (dp_alg dp) msg with
              | None => OK (VExit L8W8JWT_SHA2_FAILURE)
              | Some hash =>
                  verify_switch p e (dp_alg dp) crt key key_length msg hash sig signature_length
              end
          end
      end
  end.

(** src/decode.c:464-737 [l8w8jwt_verify_signature]. Returns the code and the updated validation
    result. In the L8W8JWT_SMALL_STACK build [key] is a heap block, zeroized even if NULL. *)
Definition l8w8jwt_verify_signature (p : platform) (e : env) (dp : dec_params) (res : N)
           (signature : ptr) (signature_length : N) : M (Z * N) :=
  if (dp_alg dp =? -1)%Z || is_null signature || (signature_length =? 0)%N
  then mret (L8W8JWT_SUCCESS, res)
  else
    let finish v :=
      match v with
      | VExit r => (r, res)
      | VFlag f => (L8W8JWT_SUCCESS,
                    if f : bool then N.lor res L8W8JWT_SIGNATURE_VERIFICATION_FAILURE else res)
      end in
    if p_small_stack p then
      key <- calloc L8W8JWT_MAX_KEY_SIZE ;;
      v <- (if is_null key then mret (VExit L8W8JWT_OUT_OF_MEM)
            else
              sig <- lift (deref signature) ;;
              lift (verify_body p e dp sig signature_length)) ;;
      _ <- zeroize key L8W8JWT_MAX_KEY_SIZE ;;
      _ <- free key ;;
      mret (finish v)
    else
      sig <- lift (deref signature) ;;
      v <- lift (verify_body p e dp sig signature_length) ;;
      mret (finish v).

(** src/decode.c:739-747 [l8w8jwt_decoding_params_init]. *)
Definition l8w8jwt_decoding_params_init : dec_params :=
  DecParams Null 0 (-2) Null 0 Null 0 Null 0 Null 0 false false false 0 0 0 Null 0 Null 0.

(** src/decode.c:749-769 [l8w8jwt_validate_decoding_params]; [None] = NULL. *)
Definition l8w8jwt_validate_decoding_params (p : platform) (params : option dec_params) : Z :=
  match params with
  | None => L8W8JWT_NULL_ARG
  | Some dp =>
      if is_null (dp_jwt dp) || is_null (dp_verification_key dp) then L8W8JWT_NULL_ARG
      else if (dp_jwt_length dp =? 0)%N || (dp_verification_key_length dp =? 0)%N
              || (L8W8JWT_MAX_KEY_SIZE <? dp_verification_key_length dp)%N
      then L8W8JWT_INVALID_ARG
      else if negb (p_eddsa p) && (dp_alg dp =? L8W8JWT_ALG_ED25519)%Z
      then L8W8JWT_UNSUPPORTED_ALG
      else L8W8JWT_SUCCESS
  end.

(** The claims buffer on the stack: initialised, or left by a failing chillbuff_init. *)
Definition free_claims_buffer (p : platform) (b : option (chillbuff claim)) : M unit :=
  match b with
  | Some b => l8w8jwt_free_claims (CArr (Some (cb_id b)) (cb_elems b)) (cb_len b)
  | None => if p_cb_init_clears p then mret tt else mub UninitUse
  end.

(** State at the [exit] label of the decode functions. *)
Record dec_state := DecState {
  ds_rc : Z; ds_segs : segs; ds_claims : chillbuff claim; ds_res : N
}.

(** src/decode.c:809-841: from decode_segments to validate_claims in l8w8jwt_decode. *)
Definition decode_body (p : platform) (e : env) (dp : dec_params) (claims : chillbuff claim)
  : M dec_state :=
  '(r, sg) <- l8w8jwt_decode_segments p dp ;;
  if negb (r =? L8W8JWT_SUCCESS)%Z then mret (DecState r sg claims L8W8JWT_VALID)
  else
    '(r, res) <- l8w8jwt_verify_signature p e dp L8W8JWT_VALID
                   (s_ptr (sg_signature sg)) (s_len (sg_signature sg)) ;;
    if negb (r =? L8W8JWT_SUCCESS)%Z then mret (DecState r sg claims res)
    else
      '(r, claims) <- l8w8jwt_parse_claims p e claims (s_ptr (sg_header sg)) (s_len (sg_header sg)) ;;
      if negb (r =? L8W8JWT_SUCCESS)%Z
      then mret (DecState L8W8JWT_DECODE_FAILED_INVALID_TOKEN_FORMAT sg claims res)
      else
        '(r, claims) <- l8w8jwt_parse_claims p e claims
                          (s_ptr (sg_payload sg)) (s_len (sg_payload sg)) ;;
        if negb (r =? L8W8JWT_SUCCESS)%Z
        then mret (DecState L8W8JWT_DECODE_FAILED_INVALID_TOKEN_FORMAT sg claims res)
        else
          res <- lift (l8w8jwt_validate_claims p e dp
                         (CArr (Some (cb_id claims)) (cb_elems claims)) (cb_len claims) res) ;;
          mret (DecState L8W8JWT_SUCCESS sg claims res).

(** What l8w8jwt_decode stores through its output pointers ([None] = not written). *)
Record dec_res := DecRes {
  dr_rc : Z; dr_valid : option N; dr_claims : option (cptr * N)
}.

(** src/decode.c:771-858 [l8w8jwt_decode]. [vr_nn], [claims_nn], [len_nn]: are the output
    pointers non-NULL. *)
Definition l8w8jwt_decode (p : platform) (e : env) (params : option dec_params)
           (vr_nn claims_nn len_nn : bool) : M dec_res :=
  match params with
  | None => mret (DecRes L8W8JWT_NULL_ARG None None)
  | Some dp =>
      if claims_nn && negb len_nn then mret (DecRes L8W8JWT_NULL_ARG None None)
      else
        let r := l8w8jwt_validate_decoding_params p params in
        if negb (r =? L8W8JWT_SUCCESS)%Z then mret (DecRes r None None)
        else if negb vr_nn then mret (DecRes L8W8JWT_NULL_ARG None None)
        else
          o <- cb_init claim ;;
          match o with
          | None =>
              _ <- free_claims_buffer p None ;;
              mret (DecRes L8W8JWT_OUT_OF_MEM (Some NOT_VALID) None)
          | Some claims =>
              st <- decode_body p e dp claims ;;
              let ok := (ds_rc st =? L8W8JWT_SUCCESS)%Z in
              _ <- free (s_ptr (sg_header (ds_segs st))) ;;
              _ <- free (s_ptr (sg_payload (ds_segs st))) ;;
              _ <- free (s_ptr (sg_signature (ds_segs st))) ;;
              let b := ds_claims st in
              _ <- (if negb claims_nn || negb ok then free_claims_buffer p (Some b)
                    else mret tt) ;;
              mret (DecRes (ds_rc st)
                      (Some (if ok then ds_res st else NOT_VALID))
                      (if ok && claims_nn && len_nn
                       then Some (CArr (Some (cb_id b)) (cb_elems b), cb_len b) else None))
          end
  end.

(** src/decode.c:903-935: the same stretch of l8w8jwt_decode_raw (a separate copy in C). *)
Definition decode_raw_body (p : platform) (e : env) (dp : dec_params) (claims : chillbuff claim)
  : M dec_state :=
  '(r, sg) <- l8w8jwt_decode_segments p dp ;;
  if negb (r =? L8W8JWT_SUCCESS)%Z then mret (DecState r sg claims L8W8JWT_VALID)
  else
    '(r, res) <- l8w8jwt_verify_signature p e dp L8W8JWT_VALID
                   (s_ptr (sg_signature sg)) (s_len (sg_signature sg)) ;;
    if negb (r =? L8W8JWT_SUCCESS)%Z then mret (DecState r sg claims res)
    else
      '(r, claims) <- l8w8jwt_parse_claims p e claims (s_ptr (sg_header sg)) (s_len (sg_header sg)) ;;
      if negb (r =? L8W8JWT_SUCCESS)%Z
      then mret (DecState L8W8JWT_DECODE_FAILED_INVALID_TOKEN_FORMAT sg claims res)
      else
        '(r, claims) <- l8w8jwt_parse_claims p e claims
                          (s_ptr (sg_payload sg)) (s_len (sg_payload sg)) ;;
        if negb (r =? L8W8JWT_SUCCESS)%Z
        then mret (DecState L8W8JWT_DECODE_FAILED_INVALID_TOKEN_FORMAT sg claims res)
        else
          res <- lift (l8w8jwt_validate_claims p e dp
                         (CArr (Some (cb_id claims)) (cb_elems claims)) (cb_len claims) res) ;;
          mret (DecState L8W8JWT_SUCCESS sg claims res).

(** What the raw functions store: a segment is [None] if its output pointer is NULL or the
    function returned before the [exit] label. *)
Record raw_res := RawRes {
  rr_rc : Z; rr_valid : option N;
  rr_header : option seg; rr_payload : option seg; rr_signature : option seg
}.

(** src/decode.c:938-967: hand a segment out or free it. *)
Definition give_or_free (nn : bool) (s : seg) : M (option seg) :=
  if nn then mret (Some s) else (_ <- free (s_ptr s) ;; mret None).

(** src/decode.c:860-970 [l8w8jwt_decode_raw]. *)
Definition l8w8jwt_decode_raw (p : platform) (e : env) (params : option dec_params) (vr_nn : bool)
           (h_nn hl_nn p_nn pl_nn s_nn sl_nn : bool) : M raw_res :=
  match params with
  | None => mret (RawRes L8W8JWT_NULL_ARG None None None None)
  | Some dp =>
      if negb vr_nn || (h_nn && negb hl_nn) || (p_nn && negb pl_nn) || (s_nn && negb sl_nn)
      then mret (RawRes L8W8JWT_NULL_ARG None None None None)
      else
        let r := l8w8jwt_validate_decoding_params p params in
        if negb (r =? L8W8JWT_SUCCESS)%Z then mret (RawRes r None None None None)
        else
          o <- cb_init claim ;;
          '(rc, sg, res, b) <-
            (match o with
             | None => mret (L8W8JWT_OUT_OF_MEM, Segs seg0 seg0 seg0, L8W8JWT_VALID, None)
             | Some claims =>
                 st <- decode_raw_body p e dp claims ;;
                 mret (ds_rc st, ds_segs st, ds_res st, Some (ds_claims st))
             end) ;;
          h <- give_or_free h_nn (sg_header sg) ;;
          pl <- give_or_free p_nn (sg_payload sg) ;;
          s <- give_or_free s_nn (sg_signature sg) ;;
          _ <- free_claims_buffer p b ;;
          mret (RawRes rc
                  (Some (if (rc =? L8W8JWT_SUCCESS)%Z then res else NOT_VALID)) h pl s)
  end.

(** src/decode.c:972-1045 [l8w8jwt_decode_raw_no_validation]. *)
Definition l8w8jwt_decode_raw_no_validation (p : platform) (params : option dec_params)
           (h_nn hl_nn p_nn pl_nn s_nn sl_nn : bool) : M raw_res :=
  match params with
  | None => mret (RawRes L8W8JWT_NULL_ARG None None None None)
  | Some dp =>
      if (negb h_nn && negb p_nn && negb s_nn)
         || (h_nn && negb hl_nn) || (p_nn && negb pl_nn) || (s_nn && negb sl_nn)
      then mret (RawRes L8W8JWT_NULL_ARG None None None None)
      else
        let r := l8w8jwt_validate_decoding_params p params in
        if negb (r =? L8W8JWT_SUCCESS)%Z then mret (RawRes r None None None None)
        else
          '(r, sg) <- l8w8jwt_decode_segments p dp ;;
          h <- give_or_free h_nn (sg_header sg) ;;
          pl <- give_or_free p_nn (sg_payload sg) ;;
          s <- give_or_free s_nn (sg_signature sg) ;;
          mret (RawRes r None h pl s)
  end.
