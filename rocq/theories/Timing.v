(** * Decoding with a clock: how much of the signature is looked at when MACs are compared *)
(** The functions of Decode.v on the way to the [memcmp] of decode.c:577, returning in addition the
    number of byte pairs it examines. ISO C leaves open how memcmp goes about it; modelled is the
    straightforward one, which goes from the first byte on and stops at the first difference. Nothing else
    is counted; what Mbed TLS and lib25519 do with the signatures of other algorithms is theirs. *)
From Verif Require Import Base Util Claim Base64 Jsmn Env Encode Decode.

(** The pairs examined. *)
Fixpoint looked (a b : bytes) : nat :=
  match a, b with
  | x :: a', y :: b' => if Byte.eqb x y then S (looked a' b') else 1
  | _, _ => 0
  end.
(** [memcmp(a, b, n) != 0] (Base.v, [memcmp_eq]). *)
Definition memcmp_t (a b : bytes) (n : N) : U (bool * nat) :=
  x <-u take a n ;; y <-u take b n ;; OK (bytes_eqb x y, looked x y).

(** src/decode.c:561-722, of which 563-584 are timed. *)
Definition verify_switch_t (p : platform) (e : env) (alg : Z) (crt : option pk) (key : bytes)
           (key_length : N) (msg hash sig : bytes) (signature_length : N) : U (verdict * nat) :=
  let untimed := v <-u verify_switch p e alg crt key key_length msg hash sig signature_length ;; OK (v, 0%nat) in
  match dec_md_info_from_alg alg with
  | None => untimed
  | Some h =>
      match alg with
      | 0 | 1 | 2 =>
          k <-u take key (key_length - 1) ;;
          match e_hmac e h k msg with
          | None => OK (VFlag true, 0%nat)
          | Some mac =>
              '(eq, t) <-u memcmp_t sig (fit 64 (fit (md_size h) mac)) (Z.to_N (32 + 16 * alg)) ;;
              OK (VFlag (negb eq), t)
          end
      | _ => untimed
      end%Z
  end.

(** src/decode.c:494-722. *)
Definition verify_body_t (p : platform) (e : env) (dp : dec_params) (sig : bytes)
           (signature_length : N) : U (verdict * nat) :=
  key <-u load_key (dp_verification_key dp) (dp_verification_key_length dp) ;;
  key_length <-u adjust_key_length key (dp_verification_key_length dp) ;;
  crt <-u load_cert e key key_length ;;
  match crt with
  | None => OK (VExit L8W8JWT_KEY_PARSE_FAILURE, 0)
  | Some crt =>
      jwt <-u deref (dp_jwt dp) ;;
      n1 <-u strchr jwt x2e ;;
      match n1 with
      | None => OK (VExit L8W8JWT_DECODE_FAILED_INVALID_TOKEN_FORMAT, 0)
      | Some n1 =>
          n2 <-u strchr (skipn (S n1) jwt) x2e ;;
          match n2 with
          | None => OK (VExit L8W8JWT_DECODE_FAILED_INVALID_TOKEN_FORMAT, 0)
          | Some n2 =>
              let msg := firstn (S n1 + n2) jwt in
              match verify_hash e (dp_alg dp) msg with
              | None => OK (VExit L8W8JWT_SHA2_FAILURE, 0)
              | Some hash =>
                  verify_switch_t p e (dp_alg dp) crt key key_length msg hash sig signature_length
              end
          end
      end
  end.

(** src/decode.c:464-737. *)
Definition l8w8jwt_verify_signature_t (p : platform) (e : env) (dp : dec_params) (res : N)
           (signature : ptr) (signature_length : N) : M (Z * N * nat) :=
  if (dp_alg dp =? -1)%Z || is_null signature || (signature_length =? 0)%N
  then mret (L8W8JWT_SUCCESS, res, 0)
  else
    let finish v :=
      match v with
      | VExit r => (r, res)
      | VFlag f => (L8W8JWT_SUCCESS,
                    if f : bool then N.lor res L8W8JWT_SIGNATURE_VERIFICATION_FAILURE else res)
      end in
    if p_small_stack p then
      key <- calloc L8W8JWT_MAX_KEY_SIZE ;;
      '(v, t) <- (if is_null key then mret (VExit L8W8JWT_OUT_OF_MEM, 0)
                  else
                    sig <- lift (deref signature) ;;
                    lift (verify_body_t p e dp sig signature_length)) ;;
      _ <- zeroize key L8W8JWT_MAX_KEY_SIZE ;;
      _ <- free key ;;
      mret (finish v, t)
    else
      sig <- lift (deref signature) ;;
      '(v, t) <- lift (verify_body_t p e dp sig signature_length) ;;
      mret (finish v, t).

(** src/decode.c:771-858: between the claims' buffer and the [exit] label. *)
Definition decode_body_t (p : platform) (e : env) (dp : dec_params) (claims : chillbuff claim)
  : M (dec_state * nat) :=
  '(r, sg) <- l8w8jwt_decode_segments p dp ;;
  if negb (r =? L8W8JWT_SUCCESS)%Z then mret (DecState r sg claims L8W8JWT_VALID, 0)
  else
    '(r, res, t) <- l8w8jwt_verify_signature_t p e dp L8W8JWT_VALID
                   (s_ptr (sg_signature sg)) (s_len (sg_signature sg)) ;;
    if negb (r =? L8W8JWT_SUCCESS)%Z then mret (DecState r sg claims res, t)
    else
      '(r, claims) <- l8w8jwt_parse_claims p e claims (s_ptr (sg_header sg)) (s_len (sg_header sg)) ;;
      if negb (r =? L8W8JWT_SUCCESS)%Z
      then mret (DecState L8W8JWT_DECODE_FAILED_INVALID_TOKEN_FORMAT sg claims res, t)
      else
        '(r, claims) <- l8w8jwt_parse_claims p e claims
                          (s_ptr (sg_payload sg)) (s_len (sg_payload sg)) ;;
        if negb (r =? L8W8JWT_SUCCESS)%Z
        then mret (DecState L8W8JWT_DECODE_FAILED_INVALID_TOKEN_FORMAT sg claims res, t)
        else
          res <- lift (l8w8jwt_validate_claims p e dp
                         (CArr (Some (cb_id claims)) (cb_elems claims)) (cb_len claims) res) ;;
          mret (DecState L8W8JWT_SUCCESS sg claims res, t).

(** src/decode.c:771-858 [l8w8jwt_decode]. *)
Definition decode_t (p : platform) (e : env) (params : option dec_params)
           (vr_nn claims_nn len_nn : bool) : M (dec_res * nat) :=
  match params with
  | None => mret (DecRes L8W8JWT_NULL_ARG None None, 0)
  | Some dp =>
      if claims_nn && negb len_nn then mret (DecRes L8W8JWT_NULL_ARG None None, 0)
      else
        let r := l8w8jwt_validate_decoding_params p params in
        if negb (r =? L8W8JWT_SUCCESS)%Z then mret (DecRes r None None, 0)
        else if negb vr_nn then mret (DecRes L8W8JWT_NULL_ARG None None, 0)
        else
          o <- cb_init claim ;;
          match o with
          | None =>
              _ <- free_claims_buffer p None ;;
              mret (DecRes L8W8JWT_OUT_OF_MEM (Some NOT_VALID) None, 0)
          | Some claims =>
              '(st, t) <- decode_body_t p e dp claims ;;
              let ok := (ds_rc st =? L8W8JWT_SUCCESS)%Z in
              _ <- free (s_ptr (sg_header (ds_segs st))) ;;
              _ <- free (s_ptr (sg_payload (ds_segs st))) ;;
              _ <- free (s_ptr (sg_signature (ds_segs st))) ;;
              let b := ds_claims st in
              _ <- (if negb claims_nn || negb ok then free_claims_buffer p (Some b)
                    else mret tt) ;;
              mret (DecRes (ds_rc st)
                      (Some (if ok then ds_res st else NOT_VALID))
                      (if ok && claims_nn && len_nn
                       then Some (CArr (Some (cb_id b)) (cb_elems b), cb_len b) else None), t)
          end
  end.
