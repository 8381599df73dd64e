(** * The type of the clock

    include/l8w8jwt/timehelper.h:8 makes l8w8jwt_time_t the system's time_t, of which ISO C only says that it is a real
    type. Decode.v has the common one, a signed integer of 64 bits. Here are the functions that compute with it, once
    more, for signed and unsigned integers of 32 and 64 bits. The encoder converts its dates to uint64_t
    (src/encode.c:164-174), which gives the same digits for all four. *)
From Verif Require Import Base Base64 Util Claim Jsmn Env Encode Decode.

Inductive time_type := Int32 | Int64 | UInt32 | UInt64.
Definition time_min (t : time_type) : Z := match t with Int32 => - 2 ^ 31 | Int64 => I64_MIN | UInt32 | UInt64 => 0 end.
Definition time_max (t : time_type) : Z := match t with Int32 => 2 ^ 31 - 1 | Int64 => I64_MAX | UInt32 => 2 ^ 32 - 1 | UInt64 => 2 ^ 64 - 1 end.

(** The result of an addition or subtraction, one operand of the type, the other a uint8_t promoted to int (ISO C 6.3.1.8):
    signed overflow is undefined, unsigned arithmetic wraps. *)
Definition time_arith (t : time_type) (z : Z) : U Z :=
  match t with
  | Int32 | Int64 => if (time_min t <=? z)%Z && (z <=? time_max t)%Z then OK z else KO SignedOverflow
  | UInt32 => OK (z mod 2 ^ 32)%Z
  | UInt64 => OK (z mod 2 ^ 64)%Z
  end.
(** The other side of the comparison, a long long: converted to unsigned if the type is as wide and unsigned. *)
Definition time_other (t : time_type) (v : Z) : Z := match t with UInt64 => (v mod 2 ^ 64)%Z | _ => v end.

(** src/decode.c:427-434, 436-443, 445-452. *)
Definition time_check_t (t : time_type) (claims : cptr) (count : N) (name : string) (now : Z)
           (fails : Z -> Z -> bool) : U bool :=
  c <-u l8w8jwt_get_claim claims count (Ptr None (clit name)) 3 ;;
  match c with
  | None => OK true
  | Some c =>
      n <-u time_arith t now ;;
      m <-u deref (c_value c) ;;
      v <-u strtoll m ;;
      OK (fails n (time_other t v))
  end.
Arguments time_check_t t claims count name%string_scope now fails.

(** src/decode.c:373-462 [l8w8jwt_validate_claims]. *)
Definition validate_claims_t (t : time_type) (p : platform) (e : env) (dp : dec_params) (claims : cptr)
           (count : N) (res : N) : U N :=
  let ct := e_time e in
  res <-u flag_if (negb (is_null (dp_validate_sub dp)))
            (string_check claims count "sub" (dp_validate_sub dp) (dp_validate_sub_length dp))
            L8W8JWT_SUB_FAILURE res ;;
  res <-u flag_if (negb (is_null (dp_validate_aud dp)))
            (string_check claims count "aud" (dp_validate_aud dp) (dp_validate_aud_length dp))
            L8W8JWT_AUD_FAILURE res ;;
  res <-u flag_if (negb (is_null (dp_validate_iss dp)))
            (string_check claims count "iss" (dp_validate_iss dp) (dp_validate_iss_length dp))
            L8W8JWT_ISS_FAILURE res ;;
  res <-u flag_if (negb (is_null (dp_validate_jti dp)))
            (string_check claims count "jti" (dp_validate_jti dp) (dp_validate_jti_length dp))
            L8W8JWT_JTI_FAILURE res ;;
  res <-u flag_if (dp_validate_exp dp)
            (time_check_t t claims count "exp" (ct - Z.of_N (dp_exp_tolerance dp))%Z
               (fun now v => (v <? now)%Z))
            L8W8JWT_EXP_FAILURE res ;;
  res <-u flag_if (dp_validate_nbf dp)
            (time_check_t t claims count "nbf" (ct + Z.of_N (dp_nbf_tolerance dp))%Z
               (fun now v => (now <? v)%Z))
            L8W8JWT_NBF_FAILURE res ;;
  res <-u flag_if (dp_validate_iat dp)
            (time_check_t t claims count "iat" (ct + Z.of_N (dp_iat_tolerance dp))%Z
               (fun now v => (now <? v)%Z))
            L8W8JWT_IAT_FAILURE res ;;
  flag_if (negb (is_null (dp_validate_typ dp)))
    (typ_check p claims count (dp_validate_typ dp) (dp_validate_typ_length dp))
    L8W8JWT_TYP_FAILURE res.

(** src/decode.c:809-841. *)
Definition decode_body_t (t : time_type) (p : platform) (e : env) (dp : dec_params) (claims : chillbuff claim)
  : M dec_state :=
  '(r, sg) <- l8w8jwt_decode_segments p dp ;;
  if negb (r =? L8W8JWT_SUCCESS)%Z then mret (DecState r sg claims L8W8JWT_VALID)
  else
    '(r, res) <- l8w8jwt_verify_signature p e dp L8W8JWT_VALID
                   (s_ptr (sg_signature sg)) (s_len (sg_signature sg)) ;;
    if negb (r =? L8W8JWT_SUCCESS)%Z then mret (DecState r sg claims res)
    else
      '(r, claims) <- l8w8jwt_parse_claims p e claims (s_ptr (sg_header sg)) (s_len (sg_header sg)) ;;
      if negb (r =? L8W8JWT_SUCCESS)%Z
      then mret (DecState L8W8JWT_DECODE_FAILED_INVALID_TOKEN_FORMAT sg claims res)
      else
        '(r, claims) <- l8w8jwt_parse_claims p e claims
                          (s_ptr (sg_payload sg)) (s_len (sg_payload sg)) ;;
        if negb (r =? L8W8JWT_SUCCESS)%Z
        then mret (DecState L8W8JWT_DECODE_FAILED_INVALID_TOKEN_FORMAT sg claims res)
        else
          res <- lift (validate_claims_t t p e dp
                         (CArr (Some (cb_id claims)) (cb_elems claims)) (cb_len claims) res) ;;
          mret (DecState L8W8JWT_SUCCESS sg claims res).

(** src/decode.c:771-858 [l8w8jwt_decode]. *)
Definition l8w8jwt_decode_t (t : time_type) (p : platform) (e : env) (params : option dec_params)
           (vr_nn claims_nn len_nn : bool) : M dec_res :=
  match params with
  | None => mret (DecRes L8W8JWT_NULL_ARG None None)
  | Some dp =>
      if claims_nn && negb len_nn then mret (DecRes L8W8JWT_NULL_ARG None None)
      else
        let r := l8w8jwt_validate_decoding_params p params in
        if negb (r =? L8W8JWT_SUCCESS)%Z then mret (DecRes r None None)
        else if negb vr_nn then mret (DecRes L8W8JWT_NULL_ARG None None)
        else
          o <- cb_init claim ;;
          match o with
          | None =>
              _ <- free_claims_buffer p None ;;
              mret (DecRes L8W8JWT_OUT_OF_MEM (Some NOT_VALID) None)
          | Some claims =>
              st <- decode_body_t t p e dp claims ;;
              let ok := (ds_rc st =? L8W8JWT_SUCCESS)%Z in
              _ <- free (s_ptr (sg_header (ds_segs st))) ;;
              _ <- free (s_ptr (sg_payload (ds_segs st))) ;;
              _ <- free (s_ptr (sg_signature (ds_segs st))) ;;
              let b := ds_claims st in
              _ <- (if negb claims_nn || negb ok then free_claims_buffer p (Some b)
                    else mret tt) ;;
              mret (DecRes (ds_rc st)
                      (Some (if ok then ds_res st else NOT_VALID))
                      (if ok && claims_nn && len_nn
                       then Some (CArr (Some (cb_id b)) (cb_elems b), cb_len b) else None))
          end
  end.

(** src/decode.c:903-935. *)
Definition decode_raw_body_t (t : time_type) (p : platform) (e : env) (dp : dec_params) (claims : chillbuff claim)
  : M dec_state :=
  '(r, sg) <- l8w8jwt_decode_segments p dp ;;
  if negb (r =? L8W8JWT_SUCCESS)%Z then mret (DecState r sg claims L8W8JWT_VALID)
  else
    '(r, res) <- l8w8jwt_verify_signature p e dp L8W8JWT_VALID
                   (s_ptr (sg_signature sg)) (s_len (sg_signature sg)) ;;
    if negb (r =? L8W8JWT_SUCCESS)%Z then mret (DecState r sg claims res)
    else
      '(r, claims) <- l8w8jwt_parse_claims p e claims (s_ptr (sg_header sg)) (s_len (sg_header sg)) ;;
      if negb (r =? L8W8JWT_SUCCESS)%Z
      then mret (DecState L8W8JWT_DECODE_FAILED_INVALID_TOKEN_FORMAT sg claims res)
      else
        '(r, claims) <- l8w8jwt_parse_claims p e claims
                          (s_ptr (sg_payload sg)) (s_len (sg_payload sg)) ;;
        if negb (r =? L8W8JWT_SUCCESS)%Z
        then mret (DecState L8W8JWT_DECODE_FAILED_INVALID_TOKEN_FORMAT sg claims res)
        else
          res <- lift (validate_claims_t t p e dp
                         (CArr (Some (cb_id claims)) (cb_elems claims)) (cb_len claims) res) ;;
          mret (DecState L8W8JWT_SUCCESS sg claims res).

(** src/decode.c:860-970 [l8w8jwt_decode_raw]. *)
Definition l8w8jwt_decode_raw_t (t : time_type) (p : platform) (e : env) (params : option dec_params) (vr_nn : bool)
           (h_nn hl_nn p_nn pl_nn s_nn sl_nn : bool) : M raw_res :=
  match params with
  | None => mret (RawRes L8W8JWT_NULL_ARG None None None None)
  | Some dp =>
      if negb vr_nn || (h_nn && negb hl_nn) || (p_nn && negb pl_nn) || (s_nn && negb sl_nn)
      then mret (RawRes L8W8JWT_NULL_ARG None None None None)
      else
        let r := l8w8jwt_validate_decoding_params p params in
        if negb (r =? L8W8JWT_SUCCESS)%Z then mret (RawRes r None None None None)
        else
          o <- cb_init claim ;;
          '(rc, sg, res, b) <-
            (match o with
             | None => mret (L8W8JWT_OUT_OF_MEM, Segs seg0 seg0 seg0, L8W8JWT_VALID, None)
             | Some claims =>
                 st <- decode_raw_body_t t p e dp claims ;;
                 mret (ds_rc st, ds_segs st, ds_res st, Some (ds_claims st))
             end) ;;
          h <- give_or_free h_nn (sg_header sg) ;;
          pl <- give_or_free p_nn (sg_payload sg) ;;
          s <- give_or_free s_nn (sg_signature sg) ;;
          _ <- free_claims_buffer p b ;;
          mret (RawRes rc
                  (Some (if (rc =? L8W8JWT_SUCCESS)%Z then res else NOT_VALID)) h pl s)
  end.
