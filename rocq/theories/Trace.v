(** * The life of every heap block, as a trace of events.

    Base.v keeps only which blocks are allocated. Here every function of /repo/src that allocates
    or releases memory is transcribed again, emitting an event for each block obtained, read or
    written, and released: which allocator it came from, how it was given back and what it then
    contained.
    TraceProofs.v shows that without the events these are the functions of Base64.v, Claim.v,
    Encode.v and Decode.v. *)
From Verif Require Import Base Base64 Util Claim Jsmn Env Encode Decode.

(** Where a block comes from: [l8w8jwt_malloc], [l8w8jwt_calloc] (include/l8w8jwt/util.h:54-94:
    libc's functions or, in builds with L8W8JWT_PLATFORM_MALLOC_ALT / CALLOC_ALT, functions of the
    application), or chillbuff's own allocation. [l8w8jwt_realloc] is nowhere used. *)
Inductive source := FromMalloc | FromCalloc | FromBuffer.
(** How it is given back: libc's [free] (called directly at src/decode.c:140-141 and by
    [l8w8jwt_free], src/version.c:25-28), or [chillbuff_free]. *)
Inductive way := ByFree | ByBuffer.
(** What a block holds: text, an array of claims, an array of jsmn tokens, or bytes that the model
    does not follow. *)
Inductive content := Text (b : bytes) | Records (cs : list claim) | Tokens | Untold.

Inductive hevent :=
| Got (s : source) (id : nat)
| Gone (h : way) (id : nat) (c : content)
| Used (id : nat).

(** [M] with a trace. *)
Definition H (A : Type) := world -> (list hevent * res A)%type.
Definition hret {A} (a : A) : H A := fun w => ([], Ret a w).
Definition hub {A} (u : ub) : H A := fun _ => ([], Undef u).
(** [m] reads or writes the blocks [us]. Where [m] decides how many of them, all are listed: at least
    the accesses of the code. *)
Definition hat {A} (us : list nat) (m : M A) : H A := fun w => (map Used us, m w).
Notation hlift := (hat []).
(** The heap block of a pointer, of an array of claims (not of its texts), of a claim's texts, of a
    growable array. *)
Definition opt_at (b : option nat) : list nat := match b with Some id => [id] | None => [] end.
Definition blk_of (q : ptr) : option nat := match q with Ptr b _ => b | Null => None end.
Definition at_ (q : ptr) : list nat := opt_at (blk_of q).
Definition text_at (c : claim) : list nat := at_ (c_key c) ++ at_ (c_value c).
Definition texts_at (cs : list claim) : list nat := flat_map text_at cs.
Definition cb_at {A} (b : chillbuff A) : list nat := [cb_id b].
Definition hbind {A B} (m : H A) (k : A -> H B) : H B :=
  fun w => let '(t1, r) := m w in
           match r with
           | Ret a w' => let '(t2, r2) := k a w' in (t1 ++ t2, r2)
           | Undef u => (t1, Undef u)
           end.
Notation "x <-h m ;; k" := (hbind m (fun x => k))
  (at level 61, m at next level, right associativity).
Notation "' p <-h m ;; k" := (hbind m (fun x => match x with p => k end))
  (at level 61, p pattern, m at next level, right associativity).

(** An operation of [M] and the events its result stands for. *)
Definition hop {A} (m : M A) (ev : A -> list hevent) : H A :=
  fun w => match m w with Ret a w' => (ev a, Ret a w') | Undef u => ([], Undef u) end.

Definition got (s : source) (q : ptr) : list hevent :=
  match q with Ptr (Some id) _ => [Got s id] | _ => [] end.
Definition gone (h : way) (q : ptr) : list hevent :=
  match q with Ptr (Some id) m => [Gone h id (Text m)] | _ => [] end.
Definition gone_untold (h : way) (q : ptr) : list hevent :=
  match q with Ptr (Some id) m => [Gone h id Untold] | _ => [] end.

Definition hmalloc (n : N) : H ptr := hop (malloc n) (got FromMalloc).
Definition hcalloc (n : N) : H ptr := hop (calloc n) (got FromCalloc).
Definition hfree (q : ptr) : H unit := hop (free q) (fun _ => gone ByFree q).
Definition hfree_untold (q : ptr) : H unit := hop (free q) (fun _ => gone_untold ByFree q).
Definition hcb_init (A : Type) : H (option (chillbuff A)) :=
  hop (cb_init A) (fun o => match o with Some b => [Got FromBuffer (cb_id b)] | None => [] end).
Definition hcb_free (b : chillbuff byte) : H unit :=
  hop (cb_free b) (fun _ => [Gone ByBuffer (cb_id b) (Text (cb_elems b))]).

(** [mbedtls_platform_zeroize(q, n)]: the object afterwards. *)
Definition wiped (q : ptr) (n : N) : ptr :=
  match q with
  | Null => Null
  | Ptr blk m => Ptr blk (repeat x00 (N.to_nat n) ++ skipn (N.to_nat n) m)
  end.

(** The block [q] after [memcpy] of key material into it. *)
Definition holding (q : ptr) (k : U bytes) : ptr :=
  match q, k with Ptr blk _, OK m => Ptr blk m | _, _ => q end.

(** src/base64.c:115-204; the allocation is at 137. *)
Definition base64_encode_h (p : platform) (url : bool) (data : ptr) (data_length : N)
           (out_nn len_nn : bool) : H b64res :=
  if negb out_nn || is_null data || negb len_nn
  then hret (B64 L8W8JWT_NULL_ARG None None)
  else if (data_length =? 0)%N
  then hret (B64 L8W8JWT_INVALID_ARG None None)
  else
    let olen := b64_olen p data_length in
    if (olen <? data_length)%N then hret (B64 L8W8JWT_OVERFLOW None None)
    else
      o <-h hmalloc olen ;;
      match o with
      | Null => hret (B64 L8W8JWT_OUT_OF_MEM (Some Null) None)
      | Ptr blk buf =>
          mem <-h hlift (lift (deref data)) ;;
          d <-h hat (at_ data) (lift (take mem data_length)) ;;
          '(buf, n) <-h hat (at_ data ++ at_ o) (lift (enc_fill url d buf)) ;;
          hret (B64 L8W8JWT_SUCCESS (Some (Ptr blk buf)) (Some n))
      end.

(** src/base64.c:206-310; the allocation is at 253, the release at 298. What the loop has
    written when the block is released for invalid padding is not followed. *)
Definition base64_decode_h (url : bool) (data : ptr) (data_length : N) (out_nn len_nn : bool)
  : H b64res :=
  if is_null data || negb out_nn || negb len_nn
  then hret (B64 L8W8JWT_NULL_ARG None None)
  else if (data_length =? 0)%N
  then hret (B64 L8W8JWT_INVALID_ARG None None)
  else
    mem <-h hlift (lift (deref data)) ;;
    last <-h hat (at_ data) (lift (read_at mem (data_length - 1))) ;;
    let in_length := (if is_nul last then data_length - 1 else data_length)%N in
    inp <-h hat (at_ data) (lift (take mem in_length)) ;;
    let d := dtable url in
    let count := dec_count d inp in
    let r := (count mod 4)%N in
    if ((count =? 0) || (r =? 1))%N || (negb url && (0 <? r)%N)
    then hret (B64 L8W8JWT_INVALID_ARG None None)
    else
      let r := if (r =? 3)%N then 1%N else r in
      o <-h hcalloc (count / 4 * 3 + 16) ;;
      match o with
      | Null => hret (B64 L8W8JWT_OUT_OF_MEM (Some Null) None)
      | Ptr blk buf =>
          e <-h hat (at_ data ++ at_ o) (lift (dec_loop d (inp ++ repeat x3d (N.to_nat r)) []
                                                       0 (cur_start buf))) ;;
          match e with
          | DecBadPad =>
              _ <-h hfree_untold o ;;
              hret (B64 L8W8JWT_INVALID_ARG (Some Null) None)
          | DecDone c =>
              hret (B64 L8W8JWT_SUCCESS (Some (Ptr blk (cur_buf c))) (Some (cur_off c)))
          end
      end.

(** src/claim.c:37-50: key and value are wiped over their lengths (44-45), then freed (47-48). [arr]
    is the block of the array they are found in. *)
Fixpoint free_each_h (arr : list nat) (cs : list claim) (n : N) : H unit :=
  if (n =? 0)%N then hret tt else
  match cs with
  | [] => hub OOBRead
  | c :: t =>
      _ <-h hat (arr ++ at_ (c_key c)) (zeroize (c_key c) (c_key_length c)) ;;
      _ <-h hat (arr ++ at_ (c_value c)) (zeroize (c_value c) (c_value_length c)) ;;
      _ <-h hfree (wiped (c_key c) (c_key_length c)) ;;
      _ <-h hfree (wiped (c_value c) (c_value_length c)) ;;
      free_each_h arr t (n - 1)%N
  end.

(** src/claim.c:30-57. The array is wiped over [claims_count] elements (53), then freed (56). *)
Definition claim0 : claim := Claim Null 0 Null 0 0.
Definition free_claims_h (claims : cptr) (claims_count : N) : H unit :=
  match claims with
  | CNull => hret tt
  | CArr blk cs =>
      _ <-h free_each_h (opt_at blk) cs claims_count ;;
      match blk with
      | Some id =>
          hop (free_id id) (fun _ =>
            [Gone ByFree id (Records (repeat claim0 (N.to_nat claims_count)
                                      ++ skipn (N.to_nat claims_count) cs))])
      | None => hub BadFree
      end
  end.

(** src/claim.c:112-174. The escape buffer is initialised at 125 and released at 172; its text is
    not followed. *)
Definition write_claims_h (p : platform) (sb : chillbuff byte) (claims : cptr) (claims_count : N)
  : H (Z * chillbuff byte) :=
  match claims with
  | CNull => hret (L8W8JWT_NULL_ARG, sb)
  | CArr blk cs =>
      if (claims_count =? 0)%N then hret (L8W8JWT_INVALID_ARG, sb)
      else
        o <-h hcb_init byte ;;
        match o with
        | None => hret (L8W8JWT_OUT_OF_MEM, sb)
        | Some eb =>
            sb <-h hat (cb_at sb ++ cb_at eb ++ opt_at blk ++ texts_at cs)
                     (write_each p sb eb cs claims_count true) ;;
            _ <-h hop (cb_free eb) (fun _ => [Gone ByBuffer (cb_id eb) Untold]) ;;
            hret (L8W8JWT_SUCCESS, sb)
        end
  end.

Definition encode_segment_h (p : platform) (data : ptr) (n : N) : H (Z * ptr * bytes) :=
  r <-h base64_encode_h p true data n true true ;;
  if negb (b_rc r =? L8W8JWT_SUCCESS)%Z then hret (b_rc r, Null, [])
  else
    match b_out r, b_len r with
    | Some seg, Some len =>
        m <-h hlift (lift (deref seg)) ;;
        s <-h hat (at_ seg) (lift (take m len)) ;;
        hret (L8W8JWT_SUCCESS, seg, s)
    | _, _ => hub UninitUse
    end.

(** src/encode.c:75-216; releases at 157, 212 and of [buff] at 131, 149, 205, 213. *)
Definition write_header_and_payload_h (p : platform) (sb : chillbuff byte) (ep : enc_params)
  : H (Z * chillbuff byte) :=
  o <-h hcb_init byte ;;
  match o with
  | None => hret (L8W8JWT_OUT_OF_MEM, sb)
  | Some buff =>
      match header_prefix (ep_alg ep) with
      | None => _ <-h hcb_free buff ;; hret (L8W8JWT_INVALID_ARG, sb)
      | Some h =>
          buff <-h hat (cb_at buff) (cb_push buff h) ;;
          buff <-h (if (0 <? ep_header_claims_count ep)%N
                    then
                      buff <-h hat (cb_at buff) (cb_push buff (lit ",")) ;;
                      r <-h write_claims_h p buff (ep_header_claims ep)
                             (ep_header_claims_count ep) ;;
                      hret (snd r)
                    else hret buff) ;;
          buff <-h hat (cb_at buff) (cb_push buff (lit "}")) ;;
          '(r, segment, s) <-h encode_segment_h p (cb_ptr buff) (cb_len buff) ;;
          if negb (r =? L8W8JWT_SUCCESS)%Z then _ <-h hcb_free buff ;; hret (r, sb)
          else
            sb <-h hat (cb_at sb ++ at_ segment) (cb_push sb s) ;;
            let buff := cb_clear buff in
            _ <-h hfree segment ;;
            tbuf <-h hlift (lift (iatnbfexp ep)) ;;
            let claims := registered_claims ep tbuf in
            buff <-h hat (cb_at buff) (cb_push buff (lit "{")) ;;
            r <-h write_claims_h p buff (CArr None claims) 7 ;;
            let buff := snd r in
            buff <-h (if (0 <? ep_payload_claims_count ep)%N
                      then
                        buff <-h (if negb (ep_iat ep =? 0)%Z || negb (ep_exp ep =? 0)%Z
                                     || negb (ep_nbf ep =? 0)%Z || negb (ep_iss_length ep =? 0)%N
                                     || negb (ep_sub_length ep =? 0)%N
                                     || negb (ep_jti_length ep =? 0)%N
                                     || negb (ep_aud_length ep =? 0)%N
                                  then hat (cb_at buff) (cb_push buff (lit ",")) else hret buff) ;;
                        r <-h write_claims_h p buff (ep_payload_claims ep)
                               (ep_payload_claims_count ep) ;;
                        hret (snd r)
                      else hret buff) ;;
            buff <-h hat (cb_at buff) (cb_push buff (lit "}")) ;;
            '(r, segment, s) <-h encode_segment_h p (cb_ptr buff) (cb_len buff) ;;
            if negb (r =? L8W8JWT_SUCCESS)%Z then _ <-h hcb_free buff ;; hret (r, sb)
            else
              sb <-h hat (cb_at sb) (cb_push sb (lit ".")) ;;
              sb <-h hat (cb_at sb ++ at_ segment) (cb_push sb s) ;;
              _ <-h hfree segment ;;
              _ <-h hcb_free buff ;;
              hret (L8W8JWT_SUCCESS, sb)
      end
  end.

(** src/encode.c:249-573. [keyq] and [sigq] are the blocks of [key] and [signature_bytes], or NULL if
    these are on the stack. *)
Definition write_signature_body_h (p : platform) (e : env) (sb : chillbuff byte) (ep : enc_params)
           (keyq sigq : ptr)
  : H (Z * chillbuff byte * ptr) :=
  key <-h hat (at_ keyq ++ at_ (ep_secret_key ep))
            (lift (load_key (ep_secret_key ep) (ep_secret_key_length ep))) ;;
  key_length <-h hat (at_ keyq) (lift (adjust_key_length key (ep_secret_key_length ep))) ;;
  if negb (e_seed_ok e) then hret (L8W8JWT_MBEDTLS_CTR_DRBG_SEED_FAILURE, sb, Null)
  else
    '(r, sigbuf, n) <-h hat (at_ keyq ++ at_ sigq ++ cb_at sb ++ at_ (ep_secret_key ep)
                             ++ at_ (ep_secret_key_pw ep))
                          (lift (sign_switch p e ep key key_length (cb_elems sb))) ;;
    if negb (r =? L8W8JWT_SUCCESS)%Z then hret (r, sb, Null)
    else if (n =? 0)%N then hret (L8W8JWT_SIGNATURE_CREATION_FAILURE, sb, Null)
    else
      '(r, signature, s) <-h encode_segment_h p (Ptr (blk_of sigq) sigbuf) n ;;
      if negb (r =? L8W8JWT_SUCCESS)%Z then hret (L8W8JWT_BASE64_FAILURE, sb, Null)
      else
        sb <-h hat (cb_at sb) (cb_push sb (lit ".")) ;;
        sb <-h hat (cb_at sb ++ at_ signature) (cb_push sb s) ;;
        hret (L8W8JWT_SUCCESS, sb, signature).

(** src/encode.c:219-587; the blocks of the L8W8JWT_SMALL_STACK build are obtained at 236-237 and
    released at 582-583. [key] receives the secret key (250) and is wiped as a whole (576). What is left in [signature_bytes] is
    not followed. *)
Definition write_signature_h (p : platform) (e : env) (sb : chillbuff byte) (ep : enc_params)
  : H (Z * chillbuff byte) :=
  if p_small_stack p then
    sigb <-h hcalloc SIGBUF ;;
    key <-h hcalloc L8W8JWT_MAX_KEY_SIZE ;;
    '(r, sb, signature) <-h
      (if is_null sigb || is_null key then hret (L8W8JWT_OUT_OF_MEM, sb, Null)
       else write_signature_body_h p e sb ep key sigb) ;;
    _ <-h hat (at_ key) (zeroize key L8W8JWT_MAX_KEY_SIZE) ;;
    _ <-h hfree signature ;;
    _ <-h hfree (wiped (holding key (load_key (ep_secret_key ep) (ep_secret_key_length ep)))
                       L8W8JWT_MAX_KEY_SIZE) ;;
    _ <-h hfree_untold sigb ;;
    hret (r, sb)
  else
    '(r, sb, signature) <-h write_signature_body_h p e sb ep Null Null ;;
    _ <-h hfree signature ;;
    hret (r, sb).

(** src/encode.c:590-603. *)
Definition write_token_h (sb : chillbuff byte) : H enc_res :=
  o <-h hmalloc (cb_len sb + 1) ;;
  match o with
  | Null => hret (EncRes L8W8JWT_OUT_OF_MEM (Some Null) None)
  | Ptr blk buf =>
      c <-h hat (at_ o ++ cb_at sb) (lift (cur_puts (cur_start buf) (cb_elems sb))) ;;
      c <-h hat (at_ o) (lift (cur_set c x00)) ;;
      hret (EncRes L8W8JWT_SUCCESS (Some (Ptr blk (cur_buf c))) (Some (cb_len sb)))
  end.

(** src/encode.c:655-676. *)
Definition encode_body_h (p : platform) (e : env) (sb : chillbuff byte) (ep : enc_params)
  : H (enc_res * chillbuff byte) :=
  '(r, sb) <-h write_header_and_payload_h p sb ep ;;
  if negb (r =? L8W8JWT_SUCCESS)%Z then hret (EncRes r None None, sb)
  else
    '(r, sb) <-h (if negb (ep_alg ep =? -1)%Z then write_signature_h p e sb ep
                  else hret (L8W8JWT_SUCCESS, sb)) ;;
    if negb (r =? L8W8JWT_SUCCESS)%Z then hret (EncRes r None None, sb)
    else
      res <-h write_token_h sb ;;
      hret (res, sb).

(** src/encode.c:640-681. *)
Definition encode_h (p : platform) (e : env) (params : option enc_params) : H enc_res :=
  let r := l8w8jwt_validate_encoding_params params in
  match params with
  | None => hret (EncRes r None None)
  | Some ep =>
      if negb (r =? L8W8JWT_SUCCESS)%Z then hret (EncRes r None None)
      else
        o <-h hcb_init byte ;;
        match o with
        | None => hret (EncRes L8W8JWT_OUT_OF_MEM None None)
        | Some sb =>
            '(res, sb) <-h encode_body_h p e sb ep ;;
            _ <-h hcb_free sb ;;
            hret res
        end
  end.

(** src/decode.c:130-163; the blocks are obtained at 133-134 and, if one is missing, released at
    140-141 (by [free]). The texts are in the block of [json]. *)
Definition unescape_claim_h (p : platform) (json : ptr) (type : Z) (key : bytes) (key_length : N)
           (value : bytes) (value_length : N) : H (Z * option claim) :=
  k <-h hcalloc ((key_length + 1) mod size_mod p) ;;
  v <-h hcalloc ((value_length + 1) mod size_mod p) ;;
  match k, v with
  | Ptr kid kbuf, Ptr vid vbuf =>
      ks <-h hat (at_ json) (lift (take key key_length)) ;;
      c <-h hat (at_ json ++ at_ k) (lift (l8w8jwt_unescape_string (cur_start kbuf) ks)) ;;
      c <-h hat (at_ k) (lift (cur_set c x00)) ;;
      let kp := Ptr kid (cur_buf c) in
      let kl := cur_off c in
      if (type =? L8W8JWT_CLAIM_TYPE_STRING)%Z then
        vs <-h hat (at_ json) (lift (take value value_length)) ;;
        c <-h hat (at_ json ++ at_ v) (lift (l8w8jwt_unescape_string (cur_start vbuf) vs)) ;;
        c <-h hat (at_ v) (lift (cur_set c x00)) ;;
        hret (L8W8JWT_SUCCESS, Some (Claim kp kl (Ptr vid (cur_buf c)) (cur_off c) type))
      else
        vs <-h hat (at_ json) (lift (strncpy_bytes value (N.to_nat value_length))) ;;
        c <-h hat (at_ json ++ at_ v) (lift (cur_puts (cur_start vbuf) vs)) ;;
        c <-h hat (at_ v) (lift (cur_set c x00)) ;;
        hret (L8W8JWT_SUCCESS, Some (Claim kp kl (Ptr vid (cur_buf c)) value_length type))
  | _, _ =>
      _ <-h hfree k ;;
      _ <-h hfree v ;;
      hret (L8W8JWT_OUT_OF_MEM, None)
  end.

(** src/decode.c:165-226. *)
Definition decode_segments_h (p : platform) (dp : dec_params) : H (Z * segs) :=
  let s0 := Segs seg0 seg0 seg0 in
  jwt <-h hlift (lift (deref (dp_jwt dp))) ;;
  next <-h hat (at_ (dp_jwt dp)) (lift (strchr jwt x2e)) ;;
  match next with
  | None => hret (L8W8JWT_DECODE_FAILED_INVALID_TOKEN_FORMAT, s0)
  | Some n1 =>
      r <-h base64_decode_h true (Ptr (blk_of (dp_jwt dp)) jwt) (N.of_nat n1) true true ;;
      let h := seg_upd seg0 r in
      if negb (b_rc r =? L8W8JWT_SUCCESS)%Z then hret (b64_err (b_rc r), Segs h seg0 seg0)
      else
        let cur := skipn (S n1) jwt in
        next2 <-h hat (at_ (dp_jwt dp)) (lift (strchr cur x2e)) ;;
        if match next2 with None => true | _ => false end && negb (dp_alg dp =? -1)%Z
        then hret (L8W8JWT_DECODE_FAILED_MISSING_SIGNATURE, Segs h seg0 seg0)
        else
          let current_length :=
            match next2 with
            | Some n2 => N.of_nat n2
            | None => to_size p (Z.of_N (dp_jwt_length dp) - Z.of_nat (S n1))
            end in
          r <-h base64_decode_h true (Ptr (blk_of (dp_jwt dp)) cur) current_length true true ;;
          let pl := seg_upd seg0 r in
          if negb (b_rc r =? L8W8JWT_SUCCESS)%Z then hret (b64_err (b_rc r), Segs h pl seg0)
          else
            match next2 with
            | None => hret (L8W8JWT_SUCCESS, Segs h pl seg0)
            | Some n2 =>
                let cur2 := skipn (S n2) cur in
                let current_length :=
                  to_size p (Z.of_N (dp_jwt_length dp) - Z.of_nat (S n1 + S n2)) in
                r <-h base64_decode_h true (Ptr (blk_of (dp_jwt dp)) cur2) current_length true true ;;
                let sg := seg_upd seg0 r in
                if negb (b_rc r =? L8W8JWT_SUCCESS)%Z
                then hret (b64_err (b_rc r), Segs h pl sg)
                else hret (L8W8JWT_SUCCESS, Segs h pl sg)
            end
  end.

(** src/decode.c:266-362. [jq] is the block of the JSON text, [aq] that of the token array. *)
Fixpoint claims_loop_h (fuel : nat) (p : platform) (e : env) (jq : ptr) (aq : option nat)
         (json : bytes) (a : tokarr) (r i : Z) (buffer : chillbuff claim) : H (Z * chillbuff claim) :=
  match fuel with
  | O => hub OutOfFuel
  | S f =>
      if negb (i <? r)%Z then hret (L8W8JWT_SUCCESS, buffer)
      else
        key <-h hat (opt_at aq) (lift (tok_at a i)) ;;
        let i := (i + 1)%Z in
        value <-h hat (opt_at aq) (lift (tok_at a i)) ;;
        if (r <=? i)%Z || negb (jtype_eqb (t_type key) JString)
        then hret (L8W8JWT_DECODE_FAILED_INVALID_TOKEN_FORMAT, buffer)
        else
          ct <-h hat (opt_at aq ++ at_ jq) (lift (claim_type e json a r i value)) ;;
          match ct with
          | None => hret (L8W8JWT_DECODE_FAILED_INVALID_TOKEN_FORMAT, buffer)
          | Some (type, i) =>
              km <-h hlift (lift (at_off json (t_start key))) ;;
              vm <-h hlift (lift (at_off json (t_start value))) ;;
              '(ur, c) <-h unescape_claim_h p jq type
                            km (to_size p (t_end key - t_start key))
                            vm (to_size p (t_end value - t_start value)) ;;
              match c with
              | None => hret (ur, buffer)
              | Some c =>
                  buffer <-h hat (cb_at buffer) (cb_push buffer [c]) ;;
                  claims_loop_h f p e jq aq json a r (i + 1)%Z buffer
              end
          end
  end.

(** src/decode.c:228-371; the token array is obtained at 245 (if more than 64 tokens are needed)
    and released at 368. *)
Definition parse_claims_h (p : platform) (e : env) (buffer : chillbuff claim) (json : ptr)
           (json_length : N) : H (Z * chillbuff claim) :=
  mem <-h hlift (lift (deref json)) ;;
  js <-h hat (at_ json) (lift (take mem json_length)) ;;
  if (INT_MAX <? Z.of_N json_length)%Z then hub SignedOverflow else
  let r := fst (e_jsmn e js None) in
  if (r =? 0)%Z then hret (L8W8JWT_SUCCESS, buffer)
  else if (r <? 0)%Z then hret (L8W8JWT_DECODE_FAILED_INVALID_TOKEN_FORMAT, buffer)
  else
    o <-h (if (r <=? 64)%Z then hret (Some None)
           else (o <-h hop alloc (fun o => match o with
                                           | Some id => [Got FromMalloc id]
                                           | None => [] end) ;;
                 hret (option_map Some o))) ;;
    match o with
    | None => hret (L8W8JWT_OUT_OF_MEM, buffer)
    | Some blk =>
        let '(r2, toks) := e_jsmn e js (Some r) in
        if (r2 <? 0)%Z then hret (L8W8JWT_DECODE_FAILED_INVALID_TOKEN_FORMAT, buffer)
        else
          let a := TokArr toks (if (r <=? 64)%Z then 64 else r) (e_tok_junk e) in
          t0 <-h hat (opt_at blk ++ at_ json) (lift (tok_at a 0)) ;;
          '(rc, buffer) <-h
            (if negb (jtype_eqb (t_type t0) JObject)
             then hret (L8W8JWT_DECODE_FAILED_INVALID_TOKEN_FORMAT, buffer)
             else claims_loop_h (S (Z.to_nat r2)) p e json blk mem a r2 1 buffer) ;;
          _ <-h (match blk with
                 | Some id => hop (free_id id) (fun _ => [Gone ByFree id Tokens])
                 | None => hret tt end) ;;
          hret (rc, buffer)
    end.

(** src/decode.c:464-737; in the L8W8JWT_SMALL_STACK build [key] is obtained at 484,
    receives the key (495), is wiped at 721 and released at 724. *)
Definition verify_signature_h (p : platform) (e : env) (dp : dec_params) (res : N)
           (signature : ptr) (signature_length : N) : H (Z * N) :=
  if (dp_alg dp =? -1)%Z || is_null signature || (signature_length =? 0)%N
  then hret (L8W8JWT_SUCCESS, res)
  else
    let finish v :=
      match v with
      | VExit r => (r, res)
      | VFlag f => (L8W8JWT_SUCCESS,
                    if f : bool then N.lor res L8W8JWT_SIGNATURE_VERIFICATION_FAILURE else res)
      end in
    if p_small_stack p then
      key <-h hcalloc L8W8JWT_MAX_KEY_SIZE ;;
      v <-h (if is_null key then hret (VExit L8W8JWT_OUT_OF_MEM)
             else
               sig <-h hlift (lift (deref signature)) ;;
               hat (at_ key ++ at_ signature ++ at_ (dp_jwt dp) ++ at_ (dp_verification_key dp))
                 (lift (verify_body p e dp sig signature_length))) ;;
      _ <-h hat (at_ key) (zeroize key L8W8JWT_MAX_KEY_SIZE) ;;
      _ <-h hfree (wiped (holding key (load_key (dp_verification_key dp)
                                                 (dp_verification_key_length dp)))
                         L8W8JWT_MAX_KEY_SIZE) ;;
      hret (finish v)
    else
      sig <-h hlift (lift (deref signature)) ;;
      v <-h hat (at_ signature ++ at_ (dp_jwt dp) ++ at_ (dp_verification_key dp))
              (lift (verify_body p e dp sig signature_length)) ;;
      hret (finish v).

Definition free_claims_buffer_h (p : platform) (b : option (chillbuff claim)) : H unit :=
  match b with
  | Some b => free_claims_h (CArr (Some (cb_id b)) (cb_elems b)) (cb_len b)
  | None => if p_cb_init_clears p then hret tt else hub UninitUse
  end.

(** src/decode.c:809-841 and 903-935 (the same text). *)
Definition decode_body_h (p : platform) (e : env) (dp : dec_params) (claims : chillbuff claim)
  : H dec_state :=
  '(r, sg) <-h decode_segments_h p dp ;;
  if negb (r =? L8W8JWT_SUCCESS)%Z then hret (DecState r sg claims L8W8JWT_VALID)
  else
    '(r, res) <-h verify_signature_h p e dp L8W8JWT_VALID
                   (s_ptr (sg_signature sg)) (s_len (sg_signature sg)) ;;
    if negb (r =? L8W8JWT_SUCCESS)%Z then hret (DecState r sg claims res)
    else
      '(r, claims) <-h parse_claims_h p e claims (s_ptr (sg_header sg)) (s_len (sg_header sg)) ;;
      if negb (r =? L8W8JWT_SUCCESS)%Z
      then hret (DecState L8W8JWT_DECODE_FAILED_INVALID_TOKEN_FORMAT sg claims res)
      else
        '(r, claims) <-h parse_claims_h p e claims
                          (s_ptr (sg_payload sg)) (s_len (sg_payload sg)) ;;
        if negb (r =? L8W8JWT_SUCCESS)%Z
        then hret (DecState L8W8JWT_DECODE_FAILED_INVALID_TOKEN_FORMAT sg claims res)
        else
          res <-h hat (cb_at claims ++ texts_at (cb_elems claims)
                       ++ at_ (dp_validate_iss dp) ++ at_ (dp_validate_sub dp)
                       ++ at_ (dp_validate_aud dp) ++ at_ (dp_validate_jti dp)
                       ++ at_ (dp_validate_typ dp))
                    (lift (l8w8jwt_validate_claims p e dp
                       (CArr (Some (cb_id claims)) (cb_elems claims)) (cb_len claims) res)) ;;
          hret (DecState L8W8JWT_SUCCESS sg claims res).

(** src/decode.c:771-858; the segments are released at 848-850, the claims at 854. *)
Definition decode_h (p : platform) (e : env) (params : option dec_params)
           (vr_nn claims_nn len_nn : bool) : H dec_res :=
  match params with
  | None => hret (DecRes L8W8JWT_NULL_ARG None None)
  | Some dp =>
      if claims_nn && negb len_nn then hret (DecRes L8W8JWT_NULL_ARG None None)
      else
        let r := l8w8jwt_validate_decoding_params p params in
        if negb (r =? L8W8JWT_SUCCESS)%Z then hret (DecRes r None None)
        else if negb vr_nn then hret (DecRes L8W8JWT_NULL_ARG None None)
        else
          o <-h hcb_init claim ;;
          match o with
          | None =>
              _ <-h free_claims_buffer_h p None ;;
              hret (DecRes L8W8JWT_OUT_OF_MEM (Some NOT_VALID) None)
          | Some claims =>
              st <-h decode_body_h p e dp claims ;;
              let ok := (ds_rc st =? L8W8JWT_SUCCESS)%Z in
              _ <-h hfree (s_ptr (sg_header (ds_segs st))) ;;
              _ <-h hfree (s_ptr (sg_payload (ds_segs st))) ;;
              _ <-h hfree (s_ptr (sg_signature (ds_segs st))) ;;
              let b := ds_claims st in
              _ <-h (if negb claims_nn || negb ok then free_claims_buffer_h p (Some b)
                     else hret tt) ;;
              hret (DecRes (ds_rc st)
                      (Some (if ok then ds_res st else NOT_VALID))
                      (if ok && claims_nn && len_nn
                       then Some (CArr (Some (cb_id b)) (cb_elems b), cb_len b) else None))
          end
  end.

(** src/decode.c:938-967. *)
Definition give_or_free_h (nn : bool) (s : seg) : H (option seg) :=
  if nn then hret (Some s) else (_ <-h hfree (s_ptr s) ;; hret None).

(** src/decode.c:860-970. *)
Definition decode_raw_h (p : platform) (e : env) (params : option dec_params) (vr_nn : bool)
           (h_nn hl_nn p_nn pl_nn s_nn sl_nn : bool) : H raw_res :=
  match params with
  | None => hret (RawRes L8W8JWT_NULL_ARG None None None None)
  | Some dp =>
      if negb vr_nn || (h_nn && negb hl_nn) || (p_nn && negb pl_nn) || (s_nn && negb sl_nn)
      then hret (RawRes L8W8JWT_NULL_ARG None None None None)
      else
        let r := l8w8jwt_validate_decoding_params p params in
        if negb (r =? L8W8JWT_SUCCESS)%Z then hret (RawRes r None None None None)
        else
          o <-h hcb_init claim ;;
          '(rc, sg, res, b) <-h
            (match o with
             | None => hret (L8W8JWT_OUT_OF_MEM, Segs seg0 seg0 seg0, L8W8JWT_VALID, None)
             | Some claims =>
                 st <-h decode_body_h p e dp claims ;;
                 hret (ds_rc st, ds_segs st, ds_res st, Some (ds_claims st))
             end) ;;
          h <-h give_or_free_h h_nn (sg_header sg) ;;
          pl <-h give_or_free_h p_nn (sg_payload sg) ;;
          s <-h give_or_free_h s_nn (sg_signature sg) ;;
          _ <-h free_claims_buffer_h p b ;;
          hret (RawRes rc
                  (Some (if (rc =? L8W8JWT_SUCCESS)%Z then res else NOT_VALID)) h pl s)
  end.

(** src/decode.c:972-1045. *)
Definition decode_raw_no_validation_h (p : platform) (params : option dec_params)
           (h_nn hl_nn p_nn pl_nn s_nn sl_nn : bool) : H raw_res :=
  match params with
  | None => hret (RawRes L8W8JWT_NULL_ARG None None None None)
  | Some dp =>
      if (negb h_nn && negb p_nn && negb s_nn)
         || (h_nn && negb hl_nn) || (p_nn && negb pl_nn) || (s_nn && negb sl_nn)
      then hret (RawRes L8W8JWT_NULL_ARG None None None None)
      else
        let r := l8w8jwt_validate_decoding_params p params in
        if negb (r =? L8W8JWT_SUCCESS)%Z then hret (RawRes r None None None None)
        else
          '(r, sg) <-h decode_segments_h p dp ;;
          h <-h give_or_free_h h_nn (sg_header sg) ;;
          pl <-h give_or_free_h p_nn (sg_payload sg) ;;
          s <-h give_or_free_h s_nn (sg_signature sg) ;;
          hret (RawRes r None h pl s)
  end.
