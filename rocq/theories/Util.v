(** * Model of src/util.c and src/version.c *)
From Verif Require Import Base.

(** src/util.c:49: [(a % 32 + 9) % 25 * 16 + (b % 32 + 9) % 25] in [int], where a and b are plain
    [char]s and [%] truncates towards zero, then converted to [unsigned char]. *)
Definition hex_pair (a b : Z) : byte :=
  let v := (Z.rem (Z.rem a 32 + 9) 25 * 16 + Z.rem (Z.rem b 32 + 9) 25)%Z in
  n2b (Z.to_N (v mod 256)).

(** src/util.c:47-50: the conversion loop, over the [hl] input characters. *)
Fixpoint hex_loop (p : platform) (s : bytes) (c : cursor) : U cursor :=
  match s with
  | a :: b :: t =>
      c <-u cur_put c (hex_pair (char_val p a) (char_val p b)) ;; hex_loop p t c
  | _ => OK c
  end.

(** src/util.c:24-58 [l8w8jwt_hexstr2bin]. [output]: the caller's object; [output_size]: the size
    the caller claims for it. Returns the code, the new content of the object and the value
    stored to [*output_length] (stored only if [len_nn]). *)
Definition l8w8jwt_hexstr2bin (p : platform) (hexstr : ptr) (hexstr_length : N)
           (output : ptr) (output_size : N) (len_nn : bool) : U (Z * option bytes * option N) :=
  match hexstr, output with
  | Ptr _ m, Ptr _ o =>
      if (hexstr_length =? 0)%N then OK (1%Z, None, None)
      else
        last <-u read_at m (hexstr_length - 1) ;;
        let hl := (if is_nul last then hexstr_length - 1 else hexstr_length)%N in
        if negb (hl mod 2 =? 0)%N then OK (2%Z, None, None)
        else
          let final_length := (hl / 2)%N in
          if (output_size <? final_length + 1)%N then OK (3%Z, None, None)
          else
            s <-u take m hl ;;
            c <-u hex_loop p s (cur_start o) ;;
            c <-u cur_set c x00 ;;
            OK (0%Z, Some (cur_buf c), if len_nn then Some final_length else None)
  | _, _ => OK (1%Z, None, None)
  end.

(** ISO C [tolower] in the "C" locale: the argument must be an [unsigned char] value or EOF. *)
Definition tolower (z : Z) : U Z :=
  if (z <? -1)%Z then KO BadCtype
  else if ((65 <=? z) && (z <=? 90))%Z then OK (z + 32)%Z else OK z.

(** src/util.c:70-80: the comparison loop; [n] is what remains of the limit, [ret] the last value.
    The loop condition reads [*str1], and [*str2] if the former is NUL, before looking at the
    limit. *)
Fixpoint strncmpic_loop (p : platform) (s1 s2 : bytes) (n : N) (ret : Z) : U Z :=
  match s1 with
  | [] => KO OOBRead
  | a :: t1 =>
      match s2 with
      | [] => if is_nul a then KO OOBRead else if (n =? 0)%N then OK ret else KO OOBRead
      | b :: t2 =>
          if is_nul a && is_nul b then OK ret
          else if (n =? 0)%N then OK ret
          else
            x <-u tolower (char_val p a) ;;
            y <-u tolower (char_val p b) ;;
            let ret := (x - y)%Z in
            if negb (ret =? 0)%Z then OK ret else strncmpic_loop p t1 t2 (n - 1)%N ret
      end
  end.

(** src/util.c:60-83 [l8w8jwt_strncmpic]. *)
Definition l8w8jwt_strncmpic (p : platform) (str1 str2 : ptr) (n : N) : U Z :=
  match str1, str2 with
  | Ptr _ m1, Ptr _ m2 => strncmpic_loop p m1 m2 n (-1)%Z
  | _, _ => OK (-1)%Z
  end.

(** include/l8w8jwt/version.h:33-38. *)
Definition L8W8JWT_VERSION : Z := 234.
Definition L8W8JWT_VERSION_STR : bytes := lit "2.3.4".

(** src/version.c:30-33. *)
Definition l8w8jwt_get_version_number : Z := L8W8JWT_VERSION.

(** Sequential store of [s] through a cursor (memcpy). *)
Fixpoint cur_puts (c : cursor) (s : bytes) : U cursor :=
  match s with [] => OK c | x :: t => c <-u cur_put c x ;; cur_puts c t end.

(** src/version.c:35-42; [out] is the caller's object. Returns its new content. *)
Definition l8w8jwt_get_version_string (out : ptr) : U bytes :=
  o <-u deref out ;;
  c <-u cur_puts (cur_start o) L8W8JWT_VERSION_STR ;;
  c <-u cur_set c x00 ;;
  OK (cur_buf c).
