(** * The locale

    Util.v and Base.v model tolower and strtoll in the "C" locale. A program may have called setlocale before; then
    tolower follows the locale (ISO C 7.4.2.1), strtoll skips what isspace of the locale says and may accept further
    forms (7.22.1.4, 5). Here are the functions of the library that call the two, once more, with the locale as an
    argument. snprintf with PRIu64 (src/encode.c:164-174) does not look at the locale. *)
From Verif Require Import Base Base64 Util Claim Jsmn Env Encode Decode.

(** [lo_lower]: tolower on the values of unsigned char. [lo_space]: isspace. [lo_number m]: what strtoll takes for the
    number that [m] begins with by a form of the locale, if any. *)
Record locale := Locale { lo_lower : byte -> byte; lo_space : byte -> bool; lo_number : bytes -> option Z }.

(** What ISO C demands of all locales: ASCII other than capital letters is left as it is by tolower, white space is still
    white space, digits, signs and the terminator are none (7.4.1.10), and an optional minus sign with decimal digits
    is the number it is. *)
Definition conforms (l : locale) : Prop :=
  (forall c, (b2n c < 128)%N -> ~ (65 <= b2n c <= 90)%N -> lo_lower l c = c)
  /\ (forall c, is_space c = true -> lo_space l c = true)
  /\ (forall c, is_digit c = true \/ c = x2d \/ c = x2b \/ c = x00 -> lo_space l c = false)
  /\ (forall sg ds rest, sg = [] \/ sg = [x2d] -> ds <> [] -> Forall (fun c => is_digit c = true) ds ->
        lo_number l (sg ++ ds ++ x00 :: rest) = None).

(** ISO C [tolower]. *)
Definition tolower_l (l : locale) (z : Z) : U Z :=
  if (z <? -1)%Z then KO BadCtype
  else if (z =? -1)%Z then OK z else OK (b2z (lo_lower l (n2b (Z.to_N z)))).

(** ISO C [strtoll(m, NULL, 10)]. *)
Fixpoint strtoll_std (sp : byte -> bool) (m : bytes) : U Z :=
  match m with
  | [] => KO OOBRead
  | c :: t =>
      if sp c then strtoll_std sp t
      else if Byte.eqb c x2d (* - *) then (v <-u scan_digits t 0 ;; OK (clamp64 (- v)))
      else if Byte.eqb c x2b (* + *) then (v <-u scan_digits t 0 ;; OK (clamp64 v))
      else (v <-u scan_digits m 0 ;; OK (clamp64 v))
  end.
Definition strtoll_l (l : locale) (m : bytes) : U Z :=
  match lo_number l m with Some z => OK z | None => strtoll_std (lo_space l) m end.

(** src/util.c:70-80. *)
Fixpoint strncmpic_loop_l (l : locale) (p : platform) (s1 s2 : bytes) (n : N) (ret : Z) : U Z :=
  match s1 with
  | [] => KO OOBRead
  | a :: t1 =>
      match s2 with
      | [] => if is_nul a then KO OOBRead else if (n =? 0)%N then OK ret else KO OOBRead
      | b :: t2 =>
          if is_nul a && is_nul b then OK ret
          else if (n =? 0)%N then OK ret
          else
            x <-u tolower_l l (char_val p a) ;;
            y <-u tolower_l l (char_val p b) ;;
            let ret := (x - y)%Z in
            if negb (ret =? 0)%Z then OK ret else strncmpic_loop_l l p t1 t2 (n - 1)%N ret
      end
  end.

(** src/util.c:60-83 [l8w8jwt_strncmpic]. *)
Definition l8w8jwt_strncmpic_l (l : locale) (p : platform) (str1 str2 : ptr) (n : N) : U Z :=
  match str1, str2 with
  | Ptr _ m1, Ptr _ m2 => strncmpic_loop_l l p m1 m2 n (-1)%Z
  | _, _ => OK (-1)%Z
  end.

(** src/decode.c:427-434, 436-443, 445-452. *)
Definition time_check_l (l : locale) (claims : cptr) (count : N) (name : string) (now : Z)
           (fails : Z -> Z -> bool) : U bool :=
  c <-u l8w8jwt_get_claim claims count (Ptr None (clit name)) 3 ;;
  match c with
  | None => OK true
  | Some c =>
      n <-u i64 now ;;
      m <-u deref (c_value c) ;;
      v <-u strtoll_l l m ;;
      OK (fails n v)
  end.
Arguments time_check_l l claims count name%string_scope now fails.

(** src/decode.c:454-461. *)
Definition typ_check_l (l : locale) (p : platform) (claims : cptr) (count : N) (expected : ptr) (n : N) : U bool :=
  c <-u l8w8jwt_get_claim claims count (Ptr None (clit "typ")) 3 ;;
  match c with
  | None => OK true
  | Some c => r <-u l8w8jwt_strncmpic_l l p (c_value c) expected n ;; OK (negb (r =? 0)%Z)
  end.

(** src/decode.c:373-462 [l8w8jwt_validate_claims]. *)
Definition validate_claims_l (l : locale) (p : platform) (e : env) (dp : dec_params) (claims : cptr)
           (count : N) (res : N) : U N :=
  let ct := e_time e in
  res <-u flag_if (negb (is_null (dp_validate_sub dp)))
            (string_check claims count "sub" (dp_validate_sub dp) (dp_validate_sub_length dp))
            L8W8JWT_SUB_FAILURE res ;;
  res <-u flag_if (negb (is_null (dp_validate_aud dp)))
            (string_check claims count "aud" (dp_validate_aud dp) (dp_validate_aud_length dp))
            L8W8JWT_AUD_FAILURE res ;;
  res <-u flag_if (negb (is_null (dp_validate_iss dp)))
            (string_check claims count "iss" (dp_validate_iss dp) (dp_validate_iss_length dp))
            L8W8JWT_ISS_FAILURE res ;;
  res <-u flag_if (negb (is_null (dp_validate_jti dp)))
            (string_check claims count "jti" (dp_validate_jti dp) (dp_validate_jti_length dp))
            L8W8JWT_JTI_FAILURE res ;;
  res <-u flag_if (dp_validate_exp dp)
            (time_check_l l claims count "exp" (ct - Z.of_N (dp_exp_tolerance dp))%Z
               (fun now v => (v <? now)%Z))
            L8W8JWT_EXP_FAILURE res ;;
  res <-u flag_if (dp_validate_nbf dp)
            (time_check_l l claims count "nbf" (ct + Z.of_N (dp_nbf_tolerance dp))%Z
               (fun now v => (now <? v)%Z))
            L8W8JWT_NBF_FAILURE res ;;
  res <-u flag_if (dp_validate_iat dp)
            (time_check_l l claims count "iat" (ct + Z.of_N (dp_iat_tolerance dp))%Z
               (fun now v => (now <? v)%Z))
            L8W8JWT_IAT_FAILURE res ;;
  flag_if (negb (is_null (dp_validate_typ dp)))
    (typ_check_l l p claims count (dp_validate_typ dp) (dp_validate_typ_length dp))
    L8W8JWT_TYP_FAILURE res.

(** src/decode.c:809-841. *)
Definition decode_body_l (l : locale) (p : platform) (e : env) (dp : dec_params) (claims : chillbuff claim)
  : M dec_state :=
  '(r, sg) <- l8w8jwt_decode_segments p dp ;;
  if negb (r =? L8W8JWT_SUCCESS)%Z then mret (DecState r sg claims L8W8JWT_VALID)
  else
    '(r, res) <- l8w8jwt_verify_signature p e dp L8W8JWT_VALID
                   (s_ptr (sg_signature sg)) (s_len (sg_signature sg)) ;;
    if negb (r =? L8W8JWT_SUCCESS)%Z then mret (DecState r sg claims res)
    else
      '(r, claims) <- l8w8jwt_parse_claims p e claims (s_ptr (sg_header sg)) (s_len (sg_header sg)) ;;
      if negb (r =? L8W8JWT_SUCCESS)%Z
      then mret (DecState L8W8JWT_DECODE_FAILED_INVALID_TOKEN_FORMAT sg claims res)
      else
        '(r, claims) <- l8w8jwt_parse_claims p e claims
                          (s_ptr (sg_payload sg)) (s_len (sg_payload sg)) ;;
        if negb (r =? L8W8JWT_SUCCESS)%Z
        then mret (DecState L8W8JWT_DECODE_FAILED_INVALID_TOKEN_FORMAT sg claims res)
        else
          res <- lift (validate_claims_l l p e dp
                         (CArr (Some (cb_id claims)) (cb_elems claims)) (cb_len claims) res) ;;
          mret (DecState L8W8JWT_SUCCESS sg claims res).

(** src/decode.c:771-858 [l8w8jwt_decode]. *)
Definition l8w8jwt_decode_l (l : locale) (p : platform) (e : env) (params : option dec_params)
           (vr_nn claims_nn len_nn : bool) : M dec_res :=
  match params with
  | None => mret (DecRes L8W8JWT_NULL_ARG None None)
  | Some dp =>
      if claims_nn && negb len_nn then mret (DecRes L8W8JWT_NULL_ARG None None)
      else
        let r := l8w8jwt_validate_decoding_params p params in
        if negb (r =? L8W8JWT_SUCCESS)%Z then mret (DecRes r None None)
        else if negb vr_nn then mret (DecRes L8W8JWT_NULL_ARG None None)
        else
          o <- cb_init claim ;;
          match o with
          | None =>
              _ <- free_claims_buffer p None ;;
              mret (DecRes L8W8JWT_OUT_OF_MEM (Some NOT_VALID) None)
          | Some claims =>
              st <- decode_body_l l p e dp claims ;;
              let ok := (ds_rc st =? L8W8JWT_SUCCESS)%Z in
              _ <- free (s_ptr (sg_header (ds_segs st))) ;;
              _ <- free (s_ptr (sg_payload (ds_segs st))) ;;
              _ <- free (s_ptr (sg_signature (ds_segs st))) ;;
              let b := ds_claims st in
              _ <- (if negb claims_nn || negb ok then free_claims_buffer p (Some b)
                    else mret tt) ;;
              mret (DecRes (ds_rc st)
                      (Some (if ok then ds_res st else NOT_VALID))
                      (if ok && claims_nn && len_nn
                       then Some (CArr (Some (cb_id b)) (cb_elems b), cb_len b) else None))
          end
  end.

(** src/decode.c:903-935. *)
Definition decode_raw_body_l (l : locale) (p : platform) (e : env) (dp : dec_params) (claims : chillbuff claim)
  : M dec_state :=
  '(r, sg) <- l8w8jwt_decode_segments p dp ;;
  if negb (r =? L8W8JWT_SUCCESS)%Z then mret (DecState r sg claims L8W8JWT_VALID)
  else
    '(r, res) <- l8w8jwt_verify_signature p e dp L8W8JWT_VALID
                   (s_ptr (sg_signature sg)) (s_len (sg_signature sg)) ;;
    if negb (r =? L8W8JWT_SUCCESS)%Z then mret (DecState r sg claims res)
    else
      '(r, claims) <- l8w8jwt_parse_claims p e claims (s_ptr (sg_header sg)) (s_len (sg_header sg)) ;;
      if negb (r =? L8W8JWT_SUCCESS)%Z
      then mret (DecState L8W8JWT_DECODE_FAILED_INVALID_TOKEN_FORMAT sg claims res)
      else
        '(r, claims) <- l8w8jwt_parse_claims p e claims
                          (s_ptr (sg_payload sg)) (s_len (sg_payload sg)) ;;
        if negb (r =? L8W8JWT_SUCCESS)%Z
        then mret (DecState L8W8JWT_DECODE_FAILED_INVALID_TOKEN_FORMAT sg claims res)
        else
          res <- lift (validate_claims_l l p e dp
                         (CArr (Some (cb_id claims)) (cb_elems claims)) (cb_len claims) res) ;;
          mret (DecState L8W8JWT_SUCCESS sg claims res).

(** src/decode.c:860-970 [l8w8jwt_decode_raw]. *)
Definition l8w8jwt_decode_raw_l (l : locale) (p : platform) (e : env) (params : option dec_params) (vr_nn : bool)
           (h_nn hl_nn p_nn pl_nn s_nn sl_nn : bool) : M raw_res :=
  match params with
  | None => mret (RawRes L8W8JWT_NULL_ARG None None None None)
  | Some dp =>
      if negb vr_nn || (h_nn && negb hl_nn) || (p_nn && negb pl_nn) || (s_nn && negb sl_nn)
      then mret (RawRes L8W8JWT_NULL_ARG None None None None)
      else
        let r := l8w8jwt_validate_decoding_params p params in
        if negb (r =? L8W8JWT_SUCCESS)%Z then mret (RawRes r None None None None)
        else
          o <- cb_init claim ;;
          '(rc, sg, res, b) <-
            (match o with
             | None => mret (L8W8JWT_OUT_OF_MEM, Segs seg0 seg0 seg0, L8W8JWT_VALID, None)
             | Some claims =>
                 st <- decode_raw_body_l l p e dp claims ;;
                 mret (ds_rc st, ds_segs st, ds_res st, Some (ds_claims st))
             end) ;;
          h <- give_or_free h_nn (sg_header sg) ;;
          pl <- give_or_free p_nn (sg_payload sg) ;;
          s <- give_or_free s_nn (sg_signature sg) ;;
          _ <- free_claims_buffer p b ;;
          mret (RawRes rc
                  (Some (if (rc =? L8W8JWT_SUCCESS)%Z then res else NOT_VALID)) h pl s)
  end.
