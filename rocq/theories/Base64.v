(** * Model of src/base64.c *)
From Verif Require Import Base.

(** src/base64.c:112 (65 bytes: the literal and its NUL) *)
Definition TABLE : bytes :=
  clit "ABCDEFGHIJKLMNOPQRSTUVWXYZabcdefghijklmnopqrstuvwxyz0123456789+/".
(** src/base64.c:113 *)
Definition URL_SAFE_TABLE : bytes :=
  clit "ABCDEFGHIJKLMNOPQRSTUVWXYZabcdefghijklmnopqrstuvwxyz0123456789-_".
(** src/base64.c:148 and 228: [url ? URL_SAFE_TABLE : TABLE]. The [int url] is modelled by its
    truth value. *)
Definition table_of (url : bool) : bytes := if url then URL_SAFE_TABLE else TABLE.

(** [*pos++ = table[i]] *)
Definition put_tab (t : bytes) (c : cursor) (i : N) : U cursor :=
  x <-u read_at t i ;; cur_put c x.

(** [int] addition with overflow as undefined behaviour. *)
Definition int_add (a b : Z) : U Z :=
  if ((INT_MIN <=? a + b) && (a + b <=? INT_MAX))%Z then OK (a + b)%Z else KO SignedOverflow.

(** src/base64.c:127-130: the allocation size, in [size_t] arithmetic (each operation reduced
    modulo 2^w). *)
Definition b64_olen (p : platform) (data_length : N) : N :=
  let m := size_mod p in
  let olen := (((data_length * 4) mod m / 3 + 4) mod m)%N in
  let olen := ((olen + olen / 72) mod m)%N in
  ((olen + 1) mod m)%N.

(** src/base64.c:150-165: [while (end - in >= 3)]. Returns the unread input, the line length and
    the cursor. *)
Fixpoint enc_groups (url : bool) (t : bytes) (data : bytes) (line_length : Z) (c : cursor)
  : U (bytes * Z * cursor) :=
  match data with
  | a :: b :: d :: rest =>
      let in0 := b2n a in let in1 := b2n b in let in2 := b2n d in
      c <-u put_tab t c (N.shiftr in0 2) ;;
      c <-u put_tab t c (N.lor (N.shiftl (N.land in0 3) 4) (N.shiftr in1 4)) ;;
      c <-u put_tab t c (N.lor (N.shiftl (N.land in1 15) 2) (N.shiftr in2 6)) ;;
      c <-u put_tab t c (N.land in2 63) ;;
      ll <-u int_add line_length 4 ;;
      if ((72 <=? ll)%Z && negb url)
      then (c <-u cur_put c x0a ;; enc_groups url t rest 0%Z c)
      else enc_groups url t rest ll c
  | _ => OK (data, line_length, c)
  end.

(** src/base64.c:167-193: the remaining one or two bytes. Returns the line length, [sub] and the
    cursor. *)
Definition enc_tail (url : bool) (t : bytes) (rest : bytes) (line_length : Z) (c : cursor)
  : U (Z * N * cursor) :=
  match rest with
  | [] => OK (line_length, 0%N, c)
  | a :: r =>
      let in0 := b2n a in
      c <-u put_tab t c (N.shiftr in0 2) ;;
      '(c, sub) <-u
        (match r with
         | [] =>
             c <-u put_tab t c (N.shiftl (N.land in0 3) 4) ;;
             c <-u cur_put c (if url then x00 else x3d) ;;
             OK (c, if url then 1%N else 0%N)
         | b :: _ =>
             let in1 := b2n b in
             c <-u put_tab t c (N.lor (N.shiftl (N.land in0 3) 4) (N.shiftr in1 4)) ;;
             c <-u put_tab t c (N.shiftl (N.land in1 15) 2) ;;
             OK (c, 0%N)
         end) ;;
      c <-u cur_put c (if url then x00 else x3d) ;;
      ll <-u int_add line_length 4 ;;
      OK (ll, (if url then sub + 1 else sub)%N, c)
  end.

(** src/base64.c:143-201: everything between a successful allocation and the return. [buf] is the
    fresh allocation. Returns the final buffer and [*out_length]. *)
Definition enc_fill (url : bool) (data : bytes) (buf : bytes) : U (bytes * N) :=
  let t := table_of url in
  '(rest, ll, c) <-u enc_groups url t data 0%Z (cur_start buf) ;;
  '(ll, sub, c) <-u enc_tail url t rest ll c ;;
  c <-u (if negb (ll =? 0)%Z && negb url then cur_put c x0a else OK c) ;;
  c <-u cur_set c x00 ;;
  OK (cur_buf c, (cur_off c - sub)%N).

(** Result of a base64 call: return code, the value stored to [*out] (if any), the value stored
    to [*out_length] (if any). *)
Record b64res := B64 { b_rc : Z; b_out : option ptr; b_len : option N }.

(** src/base64.c:115-204 [l8w8jwt_base64_encode]. [out_nn] / [len_nn]: are the pointers [out] and
    [out_length] non-NULL. *)
Definition l8w8jwt_base64_encode (p : platform) (url : bool) (data : ptr) (data_length : N)
           (out_nn len_nn : bool) : M b64res :=
  if negb out_nn || is_null data || negb len_nn
  then mret (B64 L8W8JWT_NULL_ARG None None)
  else if (data_length =? 0)%N
  then mret (B64 L8W8JWT_INVALID_ARG None None)
  else
    let olen := b64_olen p data_length in
    if (olen <? data_length)%N then mret (B64 L8W8JWT_OVERFLOW None None)
    else
      o <- malloc olen ;;
      match o with
      | Null => mret (B64 L8W8JWT_OUT_OF_MEM (Some Null) None)
      | Ptr blk buf =>
          mem <- lift (deref data) ;;
          d <- lift (take mem data_length) ;;
          '(buf, n) <- lift (enc_fill url d buf) ;;
          mret (B64 L8W8JWT_SUCCESS (Some (Ptr blk buf)) (Some n))
      end.

(** List update, for [dtable[k] = v]. *)
Fixpoint set_nth {A} (l : list A) (k : nat) (v : A) : list A :=
  match l, k with
  | [], _ => []
  | _ :: t, O => v :: t
  | x :: t, S k' => x :: set_nth t k' v
  end.

(** src/base64.c:230-237: the decoding table. *)
Definition dtable (url : bool) : list N :=
  let t := table_of url in
  let d := repeat 128%N 256 in
  let d := fold_left
             (fun d i => set_nth d (N.to_nat (b2n (nth i t x00))) (N.of_nat i))
             (seq 0 64) d in
  set_nth d 61 0%N.

(** [dtable[(unsigned char)c]]; always in range. *)
Definition dt (d : list N) (c : byte) : N := nth (N.to_nat (b2n c)) d 128%N.

(** src/base64.c:239-243: number of accepted characters. *)
Fixpoint dec_count (d : list N) (data : bytes) : N :=
  match data with
  | [] => 0%N
  | c :: t => if (dt d c =? 128)%N then dec_count d t else N.succ (dec_count d t)
  end.

(** Outcome of the decoding loop: finished, or the "Invalid padding" exit (lines 296-301). *)
Inductive dec_end := DecDone (c : cursor) | DecBadPad.

(** src/base64.c:265-305: the loop over the input followed by [r] virtual '=' characters (the
    caller appends them). [block] holds the [count] values read of the current group. *)
Fixpoint dec_loop (d : list N) (data : bytes) (block : list N) (pad : N) (c : cursor)
  : U dec_end :=
  match data with
  | [] => OK (DecDone c)
  | ch :: rest =>
      let tmp := dt d ch in
      if (tmp =? 128)%N then dec_loop d rest block pad c
      else
        let pad := if Byte.eqb ch x3d then N.succ pad else pad in
        match block with
        | [b0; b1; b2] =>
            c <-u cur_put c (n2b (N.lor (N.shiftl b0 2) (N.shiftr b1 4))) ;;
            c <-u cur_put c (n2b (N.lor (N.shiftl b1 4) (N.shiftr b2 2))) ;;
            c <-u cur_put c (n2b (N.lor (N.shiftl b2 6) tmp)) ;;
            if (pad =? 0)%N then dec_loop d rest [] pad c
            else if (pad =? 1)%N then (c <-u cur_back c ;; OK (DecDone c))
            else if (pad =? 2)%N
            then (c <-u cur_back c ;; c <-u cur_back c ;; OK (DecDone c))
            else OK DecBadPad
        | _ => dec_loop d rest (block ++ [tmp]) pad c
        end
  end.

(** src/base64.c:206-310 [l8w8jwt_base64_decode].
    Simplification: [in_length + r] (line 265) is not reduced modulo 2^w; it could only wrap for
    an object of 2^w - 2 bytes, which no C implementation has. *)
Definition l8w8jwt_base64_decode (url : bool) (data : ptr) (data_length : N)
           (out_nn len_nn : bool) : M b64res :=
  if is_null data || negb out_nn || negb len_nn
  then mret (B64 L8W8JWT_NULL_ARG None None)
  else if (data_length =? 0)%N
  then mret (B64 L8W8JWT_INVALID_ARG None None)
  else
    mem <- lift (deref data) ;;
    last <- lift (read_at mem (data_length - 1)) ;;
    let in_length := (if is_nul last then data_length - 1 else data_length)%N in
    inp <- lift (take mem in_length) ;;
    let d := dtable url in
    let count := dec_count d inp in
    let r := (count mod 4)%N in
    if ((count =? 0) || (r =? 1))%N || (negb url && (0 <? r)%N)
    then mret (B64 L8W8JWT_INVALID_ARG None None)
    else
      let r := if (r =? 3)%N then 1%N else r in
      o <- calloc (count / 4 * 3 + 16) ;;
      match o with
      | Null => mret (B64 L8W8JWT_OUT_OF_MEM (Some Null) None)
      | Ptr blk buf =>
          e <- lift (dec_loop d (inp ++ repeat x3d (N.to_nat r)) [] 0 (cur_start buf)) ;;
          match e with
          | DecBadPad =>
              _ <- free o ;;
              mret (B64 L8W8JWT_INVALID_ARG (Some Null) None)
          | DecDone c =>
              mret (B64 L8W8JWT_SUCCESS (Some (Ptr blk (cur_buf c))) (Some (cur_off c)))
          end
      end.
