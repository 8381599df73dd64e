(** * The crypto contexts and key copies of encode.c and decode.c, as a trace of events.

    Encode.v and Decode.v leave out what does not influence results: the life of the mbedtls
    contexts ([mbedtls_pk_init] ... [mbedtls_pk_free]), the random generator, and the copies of key
    material. Here the same functions are transcribed again, emitting an event for each of these
    operations. ContextProofs.v shows that without the events they are the functions of Encode.v and
    Decode.v. *)
From Verif Require Import Base Base64 Util Claim Jsmn Env Encode Decode.

(** The contexts that are local variables of write_signature (src/encode.c:227-229, 389-393) and of
    l8w8jwt_verify_signature (src/decode.c:477-481, 644-648). *)
Inductive ctx := Pk | Crt | Entropy | Drbg | Ecdsa | SigR | SigS.
(** The local copies of key material: [key] (encode.c:235-246, decode.c:483-492) and
    [private_key_ref10] (encode.c:532). *)
Inductive keybuf := KeyCopy | Ref10.

(** [Load c]: the operation may make [c] own memory, whether it succeeds or not. *)
Inductive event :=
| Init (c : ctx) | Load (c : ctx) | Use (c : ctx) | Free (c : ctx)
| Borrow              (* pk = crt.pk (decode.c:509) *)
| Seeded              (* mbedtls_ctr_drbg_seed returned 0 *)
| Random              (* mbedtls_ctr_drbg_random is handed to an operation *)
| Store (b : keybuf)  (* key material is written to [b] *)
| Wipe (b : keybuf).  (* mbedtls_platform_zeroize over all of [b] *)

(** [U] and [M] with a trace. *)
Definition T (A : Type) := (list event * U A)%type.
Definition tret {A} (a : A) : T A := ([], OK a).
Definition tub {A} (u : ub) : T A := ([], KO u).
Definition tlog (es : list event) : T unit := (es, OK tt).
Definition tlift {A} (m : U A) : T A := ([], m).
Definition tbind {A B} (m : T A) (k : A -> T B) : T B :=
  match snd m with
  | OK a => (fst m ++ fst (k a), snd (k a))
  | KO u => (fst m, KO u)
  end.
Notation "x <-t m ;; k" := (tbind m (fun x => k))
  (at level 61, m at next level, right associativity).
Notation "' p <-t m ;; k" := (tbind m (fun x => match x with p => k end))
  (at level 61, p pattern, m at next level, right associativity).

Definition W (A : Type) := world -> (list event * res A)%type.
Definition wret {A} (a : A) : W A := fun w => ([], Ret a w).
Definition wlog (es : list event) : W unit := fun w => (es, Ret tt w).
Definition wlift {A} (m : M A) : W A := fun w => ([], m w).
Definition wlift_t {A} (m : T A) : W A := fun w => (fst m, lift (snd m) w).
Definition wbind {A B} (m : W A) (k : A -> W B) : W B :=
  fun w => match snd (m w) with
           | Ret a w' => (fst (m w) ++ fst (k a w'), snd (k a w'))
           | Undef u => (fst (m w), Undef u)
           end.
Notation "x <-w m ;; k" := (wbind m (fun x => k))
  (at level 61, m at next level, right associativity).
Notation "' p <-w m ;; k" := (wbind m (fun x => match x with p => k end))
  (at level 61, p pattern, m at next level, right associativity).

(** src/encode.c:276-295 uses no context. *)
Definition sign_hs_t (e : env) (alg : Z) (key : bytes) (key_length : N) (msg : bytes)
  : T sig_or_err := tlift (sign_hs e alg key key_length msg).

(** src/encode.c:296-340. *)
Definition sign_rs_t (e : env) (ep : enc_params) (key : bytes) (key_length : N) (msg : bytes)
  : T sig_or_err :=
  match md_info_from_alg (ep_alg ep) with
  | None => tub NullDeref
  | Some h =>
      k <-t tlift (take key key_length) ;;
      _ <-t tlog [Random; Load Pk] ;;
      match e_parse_key e k (ep_secret_key_pw ep) (ep_secret_key_pw_length ep) with
      | None => tret (sig_fail L8W8JWT_KEY_PARSE_FAILURE)
      | Some pk =>
          _ <-t tlog [Use Pk] ;;
          if negb (e_can_do e pk PK_RSA) && negb (e_can_do e pk PK_RSA_ALT)
          then tret (sig_fail L8W8JWT_WRONG_KEY_TYPE)
          else
            _ <-t tlog [Use Pk] ;;
            if (e_bitlen e pk <? 2048)%N then tret (sig_fail L8W8JWT_WRONG_KEY_TYPE)
            else
              match e_md e h msg with
              | None => tret (sig_fail L8W8JWT_SHA2_FAILURE)
              | Some d =>
                  _ <-t tlog [Use Pk; Random] ;;
                  match e_pk_sign e pk h (fit (md_size h) d) with
                  | None => tret (sig_fail L8W8JWT_SIGNATURE_CREATION_FAILURE)
                  | Some s =>
                      let s := firstn (N.to_nat SIGBUF) s in
                      tret (L8W8JWT_SUCCESS, fit SIGBUF s, N.of_nat (length s))
                  end
              end
      end
  end.

(** src/encode.c:341-383. *)
Definition sign_ps_t (e : env) (ep : enc_params) (key : bytes) (key_length : N) (msg : bytes)
  : T sig_or_err :=
  match md_info_from_alg (ep_alg ep) with
  | None => tub NullDeref
  | Some h =>
      k <-t tlift (take key key_length) ;;
      _ <-t tlog [Random; Load Pk] ;;
      match e_parse_key e k (ep_secret_key_pw ep) (ep_secret_key_pw_length ep) with
      | None => tret (sig_fail L8W8JWT_KEY_PARSE_FAILURE)
      | Some pk =>
          _ <-t tlog [Use Pk] ;;
          if negb (e_can_do e pk PK_RSASSA_PSS) then tret (sig_fail L8W8JWT_WRONG_KEY_TYPE)
          else
            _ <-t tlog [Use Pk] ;;
            if (e_bitlen e pk <? 2048)%N then tret (sig_fail L8W8JWT_WRONG_KEY_TYPE)
            else
              match e_md e h msg with
              | None => tret (sig_fail L8W8JWT_SHA2_FAILURE)
              | Some d =>
                  _ <-t tlog [Use Pk] ;;
                  if negb (e_pk_rsa e pk) then tub NullDeref
                  else if (SIGBUF <? e_rsa_len e pk)%N then tub OOBWrite
                  else
                    _ <-t tlog [Use Pk; Random] ;;
                    match e_pss_sign e pk h (fit (md_size h) d) with
                    | None => tret (sig_fail L8W8JWT_SIGNATURE_CREATION_FAILURE)
                    | Some s =>
                        tret (L8W8JWT_SUCCESS, fit SIGBUF (fit (e_rsa_len e pk) s),
                              (e_bitlen e pk / 8)%N)
                    end
              end
      end
  end.

(** src/encode.c:384-522. All the [goto ecdsa_exit] end in the three frees (513-516). *)
Definition sign_es_t (e : env) (ep : enc_params) (key : bytes) (key_length : N) (msg : bytes)
  : T sig_or_err :=
  match md_info_from_alg (ep_alg ep) with
  | None => tub NullDeref
  | Some h =>
      _ <-t tlog [Init Ecdsa; Init SigR; Init SigS] ;;
      k <-t tlift (take key key_length) ;;
      _ <-t tlog [Random; Load Pk] ;;
      res <-t
        (match e_parse_key e k (ep_secret_key_pw ep) (ep_secret_key_pw_length ep) with
         | None => tret (sig_fail L8W8JWT_KEY_PARSE_FAILURE)
         | Some pk =>
             _ <-t tlog [Use Pk] ;;
             if negb (e_can_do e pk PK_ECDSA) then tret (sig_fail L8W8JWT_WRONG_KEY_TYPE)
             else
               _ <-t tlog [Use Pk] ;;
               if negb (e_pk_ec e pk) then tub NullDeref
               else
                 _ <-t tlog [Use Pk; Load Ecdsa] ;;
                 if negb (e_ecdsa_from_keypair e pk)
                 then tret (sig_fail L8W8JWT_KEY_PARSE_FAILURE)
                 else
                   match e_md e h msg with
                   | None => tret (sig_fail L8W8JWT_SHA2_FAILURE)
                   | Some d =>
                       match es_params (ep_alg ep) with
                       | None => tret (sig_fail L8W8JWT_WRONG_KEY_TYPE)
                       | Some (grp, len, bits) =>
                           _ <-t tlog [Use Ecdsa] ;;
                           if negb (ecp_group_eqb (e_group e pk) grp)
                           then tret (sig_fail L8W8JWT_WRONG_KEY_TYPE)
                           else
                             _ <-t tlog [Use Pk] ;;
                             if negb (e_bitlen e pk =? bits)%N
                             then tret (sig_fail L8W8JWT_WRONG_KEY_TYPE)
                             else
                               _ <-t tlog [Use Ecdsa; Load SigR; Load SigS; Random] ;;
                               match e_ecdsa_sign e pk (fit (md_size h) d) with
                               | None => tret (sig_fail L8W8JWT_SIGNATURE_CREATION_FAILURE)
                               | Some (sig_r, sig_s) =>
                                   let half := N.to_nat (len / 2) in
                                   _ <-t tlog [Use SigR] ;;
                                   match mpi_write_binary sig_r half with
                                   | None => tret (sig_fail L8W8JWT_SIGNATURE_CREATION_FAILURE)
                                   | Some br =>
                                       _ <-t tlog [Use SigS] ;;
                                       match mpi_write_binary sig_s half with
                                       | None =>
                                           tret (sig_fail L8W8JWT_SIGNATURE_CREATION_FAILURE)
                                       | Some bs =>
                                           tret (L8W8JWT_SUCCESS, fit SIGBUF (br ++ bs), len)
                                       end
                                   end
                               end
                       end
                   end
         end) ;;
      _ <-t tlog [Free SigR; Free SigS; Free Ecdsa] ;;
      tret res
  end.

(** src/encode.c:523-549. *)
Definition sign_ed_t (p : platform) (e : env) (ep : enc_params) (msg : bytes) : T sig_or_err :=
  if negb (p_eddsa p) then tret (sig_fail L8W8JWT_UNSUPPORTED_ALG) else
  m <-t tlift (deref (ep_secret_key ep)) ;;
  let n := ep_secret_key_length ep in
  ok <-t tlift (if (n =? 128)%N then OK true
                else if (n =? 129)%N then (b <-u read_at m 128 ;; OK (is_nul b))
                else OK false) ;;
  if negb ok then tret (sig_fail L8W8JWT_WRONG_KEY_TYPE)
  else
    '(r, out, _) <-t tlift (l8w8jwt_hexstr2bin p (ep_secret_key ep) n
                              (Ptr None (repeat x00 65)) 65 false) ;;
    (* [out]: was the object written to? *)
    _ <-t tlog (match out with Some _ => [Store Ref10] | None => [] end) ;;
    if negb (r =? 0)%Z then tret (sig_fail L8W8JWT_WRONG_KEY_TYPE)
    else
      match out with
      | None => tub UninitUse
      | Some k =>
          let s := fit 64 (e_ed_sign e msg (firstn 64 k)) in
          _ <-t tlog [Wipe Ref10] ;;
          tret (L8W8JWT_SUCCESS, fit SIGBUF s, 64%N)
      end.

(** src/encode.c:274-554. *)
Definition sign_switch_t (p : platform) (e : env) (ep : enc_params) (key : bytes) (key_length : N)
           (msg : bytes) : T sig_or_err :=
  match ep_alg ep with
  | 0 | 1 | 2 => sign_hs_t e (ep_alg ep) key key_length msg
  | 3 | 4 | 5 => sign_rs_t e ep key key_length msg
  | 6 | 7 | 8 => sign_ps_t e ep key key_length msg
  | 9 | 10 | 11 | 12 => sign_es_t e ep key key_length msg
  | 13 => sign_ed_t p e ep msg
  | _ => tret (sig_fail L8W8JWT_INVALID_ARG)
  end%Z.

(** src/encode.c:249-573. *)
Definition write_signature_body_w (p : platform) (e : env) (sb : chillbuff byte) (ep : enc_params)
  : W (Z * chillbuff byte * ptr) :=
  key <-w wlift (lift (load_key (ep_secret_key ep) (ep_secret_key_length ep))) ;;
  _ <-w wlog [Store KeyCopy] ;;
  key_length <-w wlift (lift (adjust_key_length key (ep_secret_key_length ep))) ;;
  _ <-w wlog [Load Entropy; Load Drbg] ;;
  if negb (e_seed_ok e) then wret (L8W8JWT_MBEDTLS_CTR_DRBG_SEED_FAILURE, sb, Null)
  else
    _ <-w wlog [Seeded] ;;
    '(r, sigbuf, n) <-w wlift_t (sign_switch_t p e ep key key_length (cb_elems sb)) ;;
    if negb (r =? L8W8JWT_SUCCESS)%Z then wret (r, sb, Null)
    else if (n =? 0)%N then wret (L8W8JWT_SIGNATURE_CREATION_FAILURE, sb, Null)
    else
      '(r, signature, s) <-w wlift (encode_segment p (Ptr None sigbuf) n) ;;
      if negb (r =? L8W8JWT_SUCCESS)%Z then wret (L8W8JWT_BASE64_FAILURE, sb, Null)
      else
        sb <-w wlift (cb_push sb (lit ".")) ;;
        sb <-w wlift (cb_push sb s) ;;
        wret (L8W8JWT_SUCCESS, sb, signature).

(** src/encode.c:219-587. The contexts are initialised at 231-233 and freed at 577-579. *)
Definition write_signature_w (p : platform) (e : env) (sb : chillbuff byte) (ep : enc_params)
  : W (Z * chillbuff byte) :=
  _ <-w wlog [Init Pk; Init Entropy; Init Drbg] ;;
  if p_small_stack p then
    sigb <-w wlift (calloc SIGBUF) ;;
    key <-w wlift (calloc L8W8JWT_MAX_KEY_SIZE) ;;
    '(r, sb, signature) <-w
      (if is_null sigb || is_null key then wret (L8W8JWT_OUT_OF_MEM, sb, Null)
       else write_signature_body_w p e sb ep) ;;
    _ <-w wlift (zeroize key L8W8JWT_MAX_KEY_SIZE) ;;
    _ <-w wlog [Wipe KeyCopy; Free Drbg; Free Entropy; Free Pk] ;;
    _ <-w wlift (free signature) ;;
    _ <-w wlift (free key) ;;
    _ <-w wlift (free sigb) ;;
    wret (r, sb)
  else
    '(r, sb, signature) <-w write_signature_body_w p e sb ep ;;
    _ <-w wlog [Wipe KeyCopy; Free Drbg; Free Entropy; Free Pk] ;;
    _ <-w wlift (free signature) ;;
    wret (r, sb).

(** src/encode.c:655-676. *)
Definition encode_body_w (p : platform) (e : env) (sb : chillbuff byte) (ep : enc_params)
  : W (enc_res * chillbuff byte) :=
  '(r, sb) <-w wlift (write_header_and_payload p sb ep) ;;
  if negb (r =? L8W8JWT_SUCCESS)%Z then wret (EncRes r None None, sb)
  else
    '(r, sb) <-w (if negb (ep_alg ep =? -1)%Z then write_signature_w p e sb ep
                  else wret (L8W8JWT_SUCCESS, sb)) ;;
    if negb (r =? L8W8JWT_SUCCESS)%Z then wret (EncRes r None None, sb)
    else
      res <-w wlift (write_token sb) ;;
      wret (res, sb).

(** src/encode.c:640-681. *)
Definition l8w8jwt_encode_w (p : platform) (e : env) (params : option enc_params) : W enc_res :=
  let r := l8w8jwt_validate_encoding_params params in
  match params with
  | None => wret (EncRes r None None)
  | Some ep =>
      if negb (r =? L8W8JWT_SUCCESS)%Z then wret (EncRes r None None)
      else
        o <-w wlift (cb_init byte) ;;
        match o with
        | None => wret (EncRes L8W8JWT_OUT_OF_MEM None None)
        | Some sb =>
            '(res, sb) <-w encode_body_w p e sb ep ;;
            _ <-w wlift (cb_free sb) ;;
            wret res
        end
  end.

(** src/decode.c:499-509. Returns also [is_cert], which decides what is freed (728-735). *)
Definition load_cert_t (e : env) (key : bytes) (key_length : N) : T (bool * option (option pk)) :=
  is_cert <-t tlift (strstr_found key (lit "-----BEGIN CERTIFICATE-----")) ;;
  if is_cert : bool then
    k <-t tlift (take key key_length) ;;
    _ <-t tlog [Load Crt] ;;
    match e_x509_parse e k with
    | None => tret (true, None)
    | Some pk => _ <-t tlog [Borrow] ;; tret (true, Some (Some pk))
    end
  else tret (false, Some None).

(** src/decode.c:586-594 and its repetitions. *)
Definition public_key_t (e : env) (crt : option pk) (key : bytes) (key_length : N)
  : T (option pk) :=
  match crt with
  | Some pk => tret (Some pk)
  | None =>
      k <-t tlift (take key key_length) ;;
      _ <-t tlog [Load Pk] ;;
      tret (e_parse_public_key e k)
  end.

(** src/decode.c:561-720. *)
Definition verify_switch_t (p : platform) (e : env) (alg : Z) (crt : option pk) (key : bytes)
           (key_length : N) (msg hash sig : bytes) (signature_length : N) : T verdict :=
  match dec_md_info_from_alg alg with
  | None => tret (VFlag false)
  | Some h =>
      match alg with
      | 0 | 1 | 2 =>
          k <-t tlift (take key (key_length - 1)) ;;
          match e_hmac e h k msg with
          | None => tret (VFlag true)
          | Some mac =>
              eq <-t tlift (memcmp_eq sig (fit 64 (fit (md_size h) mac))
                              (Z.to_N (32 + 16 * alg))) ;;
              tret (VFlag (negb eq))
          end
      | 3 | 4 | 5 =>
          o <-t public_key_t e crt key key_length ;;
          match o with
          | None => tret (VExit L8W8JWT_KEY_PARSE_FAILURE)
          | Some pk =>
              s <-t tlift (take sig signature_length) ;;
              _ <-t tlog [Use Pk] ;;
              tret (VFlag (negb (e_pk_verify e pk h hash s)))
          end
      | 6 | 7 | 8 =>
          o <-t public_key_t e crt key key_length ;;
          match o with
          | None => tret (VExit L8W8JWT_KEY_PARSE_FAILURE)
          | Some pk =>
              _ <-t tlog [Use Pk] ;;
              if negb (e_pk_rsa e pk) then tub NullDeref
              else
                s <-t tlift (take sig (e_rsa_len e pk)) ;;
                _ <-t tlog [Use Pk] ;;
                tret (VFlag (negb (e_pss_verify e pk h hash s)))
          end
      | 9 | 10 | 11 | 12 =>
          o <-t public_key_t e crt key key_length ;;
          match o with
          | None => tret (VExit L8W8JWT_KEY_PARSE_FAILURE)
          | Some pk =>
              let half := (signature_length / 2)%N in
              _ <-t tlog [Init Ecdsa; Init SigR; Init SigS; Use Pk] ;;
              if negb (e_pk_ec e pk) then tub NullDeref
              else
                _ <-t tlog [Load Ecdsa] ;;
                if negb (e_ecdsa_from_keypair e pk)
                then
                  _ <-t tlog [Free Ecdsa; Free SigR; Free SigS] ;;
                  tret (VExit L8W8JWT_KEY_PARSE_FAILURE)
                else
                  r <-t tlift (take sig half) ;;
                  s <-t tlift (take (skipn (N.to_nat half) sig) half) ;;
                  _ <-t tlog [Load SigR; Load SigS; Use Ecdsa; Use SigR; Use SigS;
                              Free Ecdsa; Free SigR; Free SigS] ;;
                  tret (VFlag (negb (e_ecdsa_verify e pk hash
                                       (mpi_read_binary r) (mpi_read_binary s))))
          end
      | 13 =>
          if negb (p_eddsa p) then tret (VExit L8W8JWT_UNSUPPORTED_ALG)
          else
            ok <-t tlift (if (key_length =? 64)%N then OK true
                          else if (key_length =? 65)%N
                          then (b <-u read_at key 64 ;; OK (is_nul b)) else OK false) ;;
            if negb ok then tret (VExit L8W8JWT_WRONG_KEY_TYPE)
            else
              '(r, out, _) <-t tlift (l8w8jwt_hexstr2bin p (Ptr None key) key_length
                                        (Ptr None (repeat x00 33)) 33 false) ;;
              if negb (r =? 0)%Z then tret (VExit L8W8JWT_WRONG_KEY_TYPE)
              else
                match out with
                | None => tub UninitUse
                | Some pub =>
                    s <-t tlift (take sig 64) ;;
                    tret (VFlag (negb (e_ed_verify e s msg (firstn 32 pub))))
                end
      | _ => tret (VFlag false)
      end%Z
  end.

(** src/decode.c:494-722. *)
Definition verify_body_t (p : platform) (e : env) (dp : dec_params) (sig : bytes)
           (signature_length : N) : T (bool * verdict) :=
  key <-t tlift (load_key (dp_verification_key dp) (dp_verification_key_length dp)) ;;
  _ <-t tlog [Store KeyCopy] ;;
  key_length <-t tlift (adjust_key_length key (dp_verification_key_length dp)) ;;
  '(is_cert, crt) <-t load_cert_t e key key_length ;;
  v <-t
    match crt with
    | None => tret (VExit L8W8JWT_KEY_PARSE_FAILURE)
    | Some crt =>
        jwt <-t tlift (deref (dp_jwt dp)) ;;
        n1 <-t tlift (strchr jwt x2e) ;;
        match n1 with
        | None => tret (VExit L8W8JWT_DECODE_FAILED_INVALID_TOKEN_FORMAT)
        | Some n1 =>
            n2 <-t tlift (strchr (skipn (S n1) jwt) x2e) ;;
            match n2 with
            | None => tret (VExit L8W8JWT_DECODE_FAILED_INVALID_TOKEN_FORMAT)
            | Some n2 =>
                let msg := firstn (S n1 + n2) jwt in
                match verify_hash e (dp_alg dp) msg with
                | None => tret (VExit L8W8JWT_SHA2_FAILURE)
                | Some hash =>
                    verify_switch_t p e (dp_alg dp) crt key key_length msg hash sig
                      signature_length
                end
            end
        end
    end ;;
  tret (is_cert, v).

(** src/decode.c:464-737. The contexts are initialised at 478-481; the [exit] code is 724-737. *)
Definition l8w8jwt_verify_signature_w (p : platform) (e : env) (dp : dec_params) (res : N)
           (signature : ptr) (signature_length : N) : W (Z * N) :=
  if (dp_alg dp =? -1)%Z || is_null signature || (signature_length =? 0)%N
  then wret (L8W8JWT_SUCCESS, res)
  else
    let finish v :=
      match v with
      | VExit r => (r, res)
      | VFlag f => (L8W8JWT_SUCCESS,
                    if f : bool then N.lor res L8W8JWT_SIGNATURE_VERIFICATION_FAILURE else res)
      end in
    let release (is_cert : bool) := [if is_cert then Free Crt else Free Pk] in
    _ <-w wlog [Init Pk; Init Crt] ;;
    if p_small_stack p then
      key <-w wlift (calloc L8W8JWT_MAX_KEY_SIZE) ;;
      '(is_cert, v) <-w
        (if is_null key then wret (false, VExit L8W8JWT_OUT_OF_MEM)
         else
           sig <-w wlift (lift (deref signature)) ;;
           wlift_t (verify_body_t p e dp sig signature_length)) ;;
      _ <-w wlift (zeroize key L8W8JWT_MAX_KEY_SIZE) ;;
      _ <-w wlog [Wipe KeyCopy] ;;
      _ <-w wlift (free key) ;;
      _ <-w wlog (release is_cert) ;;
      wret (finish v)
    else
      sig <-w wlift (lift (deref signature)) ;;
      '(is_cert, v) <-w wlift_t (verify_body_t p e dp sig signature_length) ;;
      _ <-w wlog [Wipe KeyCopy] ;;
      _ <-w wlog (release is_cert) ;;
      wret (finish v).

(** src/decode.c:809-841 and its copy at 903-935 (Decode.v has one definition for each; they are
    equal, DecodeInv.decode_raw_body_eq). *)
Definition decode_body_w (p : platform) (e : env) (dp : dec_params) (claims : chillbuff claim)
  : W dec_state :=
  '(r, sg) <-w wlift (l8w8jwt_decode_segments p dp) ;;
  if negb (r =? L8W8JWT_SUCCESS)%Z then wret (DecState r sg claims L8W8JWT_VALID)
  else
    '(r, res) <-w l8w8jwt_verify_signature_w p e dp L8W8JWT_VALID
                    (s_ptr (sg_signature sg)) (s_len (sg_signature sg)) ;;
    if negb (r =? L8W8JWT_SUCCESS)%Z then wret (DecState r sg claims res)
    else
      '(r, claims) <-w wlift (l8w8jwt_parse_claims p e claims (s_ptr (sg_header sg))
                                (s_len (sg_header sg))) ;;
      if negb (r =? L8W8JWT_SUCCESS)%Z
      then wret (DecState L8W8JWT_DECODE_FAILED_INVALID_TOKEN_FORMAT sg claims res)
      else
        '(r, claims) <-w wlift (l8w8jwt_parse_claims p e claims
                                  (s_ptr (sg_payload sg)) (s_len (sg_payload sg))) ;;
        if negb (r =? L8W8JWT_SUCCESS)%Z
        then wret (DecState L8W8JWT_DECODE_FAILED_INVALID_TOKEN_FORMAT sg claims res)
        else
          res <-w wlift (lift (l8w8jwt_validate_claims p e dp
                                 (CArr (Some (cb_id claims)) (cb_elems claims))
                                 (cb_len claims) res)) ;;
          wret (DecState L8W8JWT_SUCCESS sg claims res).

(** src/decode.c:771-858. *)
Definition l8w8jwt_decode_w (p : platform) (e : env) (params : option dec_params)
           (vr_nn claims_nn len_nn : bool) : W dec_res :=
  match params with
  | None => wret (DecRes L8W8JWT_NULL_ARG None None)
  | Some dp =>
      if claims_nn && negb len_nn then wret (DecRes L8W8JWT_NULL_ARG None None)
      else
        let r := l8w8jwt_validate_decoding_params p params in
        if negb (r =? L8W8JWT_SUCCESS)%Z then wret (DecRes r None None)
        else if negb vr_nn then wret (DecRes L8W8JWT_NULL_ARG None None)
        else
          o <-w wlift (cb_init claim) ;;
          match o with
          | None =>
              _ <-w wlift (free_claims_buffer p None) ;;
              wret (DecRes L8W8JWT_OUT_OF_MEM (Some NOT_VALID) None)
          | Some claims =>
              st <-w decode_body_w p e dp claims ;;
              let ok := (ds_rc st =? L8W8JWT_SUCCESS)%Z in
              _ <-w wlift (free (s_ptr (sg_header (ds_segs st)))) ;;
              _ <-w wlift (free (s_ptr (sg_payload (ds_segs st)))) ;;
              _ <-w wlift (free (s_ptr (sg_signature (ds_segs st)))) ;;
              let b := ds_claims st in
              _ <-w wlift (if negb claims_nn || negb ok then free_claims_buffer p (Some b)
                           else mret tt) ;;
              wret (DecRes (ds_rc st)
                      (Some (if ok then ds_res st else NOT_VALID))
                      (if ok && claims_nn && len_nn
                       then Some (CArr (Some (cb_id b)) (cb_elems b), cb_len b) else None))
          end
  end.

(** src/decode.c:860-970. *)
Definition l8w8jwt_decode_raw_w (p : platform) (e : env) (params : option dec_params)
           (vr_nn : bool) (h_nn hl_nn p_nn pl_nn s_nn sl_nn : bool) : W raw_res :=
  match params with
  | None => wret (RawRes L8W8JWT_NULL_ARG None None None None)
  | Some dp =>
      if negb vr_nn || (h_nn && negb hl_nn) || (p_nn && negb pl_nn) || (s_nn && negb sl_nn)
      then wret (RawRes L8W8JWT_NULL_ARG None None None None)
      else
        let r := l8w8jwt_validate_decoding_params p params in
        if negb (r =? L8W8JWT_SUCCESS)%Z then wret (RawRes r None None None None)
        else
          o <-w wlift (cb_init claim) ;;
          '(rc, sg, res, b) <-w
            (match o with
             | None => wret (L8W8JWT_OUT_OF_MEM, Segs seg0 seg0 seg0, L8W8JWT_VALID, None)
             | Some claims =>
                 st <-w decode_body_w p e dp claims ;;
                 wret (ds_rc st, ds_segs st, ds_res st, Some (ds_claims st))
             end) ;;
          h <-w wlift (give_or_free h_nn (sg_header sg)) ;;
          pl <-w wlift (give_or_free p_nn (sg_payload sg)) ;;
          s <-w wlift (give_or_free s_nn (sg_signature sg)) ;;
          _ <-w wlift (free_claims_buffer p b) ;;
          wret (RawRes rc
                  (Some (if (rc =? L8W8JWT_SUCCESS)%Z then res else NOT_VALID)) h pl s)
  end.
