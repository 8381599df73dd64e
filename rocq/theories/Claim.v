(** * Model of src/claim.c *)
From Verif Require Import Base.

(** Claim types (include/l8w8jwt/claim.h:40-75). *)
Definition L8W8JWT_CLAIM_TYPE_STRING : Z := 0.
Definition L8W8JWT_CLAIM_TYPE_INTEGER : Z := 1.
Definition L8W8JWT_CLAIM_TYPE_NUMBER : Z := 2.
Definition L8W8JWT_CLAIM_TYPE_BOOLEAN : Z := 3.
Definition L8W8JWT_CLAIM_TYPE_NULL : Z := 4.
Definition L8W8JWT_CLAIM_TYPE_ARRAY : Z := 5.
Definition L8W8JWT_CLAIM_TYPE_OBJECT : Z := 6.
Definition L8W8JWT_CLAIM_TYPE_OTHER : Z := 7.

(** struct l8w8jwt_claim (include/l8w8jwt/claim.h:81-112). *)
Record claim := Claim {
  c_key : ptr; c_key_length : N; c_value : ptr; c_value_length : N; c_type : Z
}.

(** Pointer to an array of claims: NULL, or the elements from the pointer to the end of the
    array object and the heap block it lives in ([None]: not heap). *)
Inductive cptr := CNull | CArr (blk : option nat) (elems : list claim).

(** src/claim.c:37-50: the loop of free_claims over the first [n] elements. The test
    [claim == NULL] inside the loop can never be true. *)
Fixpoint free_each (cs : list claim) (n : N) : M unit :=
  if (n =? 0)%N then mret tt else
  match cs with
  | [] => mub OOBRead
  | c :: t =>
      _ <- zeroize (c_key c) (c_key_length c) ;;
      _ <- zeroize (c_value c) (c_value_length c) ;;
      _ <- free (c_key c) ;;
      _ <- free (c_value c) ;;
      free_each t (n - 1)%N
  end.

(** src/claim.c:30-57 [l8w8jwt_free_claims]. *)
Definition l8w8jwt_free_claims (claims : cptr) (claims_count : N) : M unit :=
  match claims with
  | CNull => mret tt
  | CArr blk cs =>
      _ <- free_each cs claims_count ;;
      match blk with Some id => free_id id | None => mub BadFree end
  end.

(** src/claim.c:61-94: the table, one string per row of eight ("NULL" = None). *)
Definition E (s : string) : option bytes := Some (lit s).
Arguments E s%string_scope.
Definition O_ : option bytes := None.
Definition escape_table : list (option bytes) :=
  [ E "\u0000"; E "\u0001"; E "\u0002"; E "\u0003"; E "\u0004"; E "\u0005"; E "\u0006"; E "\u0007";
    E "\b"; E "\t"; E "\n"; E "\u000b"; E "\f"; E "\r"; E "\u000e"; E "\u000f";
    E "\u0010"; E "\u0011"; E "\u0012"; E "\u0013"; E "\u0014"; E "\u0015"; E "\u0016"; E "\u0017";
    E "\u0018"; E "\u0019"; E "\u001a"; E "\u001b"; E "\u001c"; E "\u001d"; E "\u001e"; E "\u001f";
    O_; O_; E "\"""; O_; O_; O_; O_; O_;
    O_; O_; O_; O_; O_; O_; O_; E "\/" ]
  ++ repeat O_ 8
  ++ repeat O_ 8
  ++ repeat O_ 8
  ++ repeat O_ 8
  ++ repeat O_ 8
  ++ [ O_; O_; O_; O_; E "\\"; O_; O_; O_ ]
  ++ repeat O_ 8
  ++ repeat O_ 8
  ++ repeat O_ 8
  ++ [ O_; O_; O_; O_; O_; O_; O_; E "\u007f" ]
  ++ repeat O_ 128.

(** src/claim.c:99: [escape_table[c]] for a plain [char] c: a negative c is out of bounds. *)
Definition escape_lookup (p : platform) (c : byte) : U (option bytes) :=
  let i := char_val p c in
  if (i <? 0)%Z then KO BadIndex
  else OK (nth (Z.to_nat i) escape_table None).

(** src/claim.c:96-109: the loop of l8w8jwt_escape_claim_string over the string's characters. *)
Fixpoint escape_each (p : platform) (sb : chillbuff byte) (s : bytes) : M (chillbuff byte) :=
  match s with
  | [] => mret sb
  | c :: t =>
      e <- lift (escape_lookup p c) ;;
      sb <- cb_push sb (match e with Some x => x | None => [c] end) ;;
      escape_each p sb t
  end.

(** src/claim.c:59-110 [l8w8jwt_escape_claim_string]. *)
Definition l8w8jwt_escape_claim_string (p : platform) (sb : chillbuff byte) (string : ptr)
           (string_length : N) : M (chillbuff byte) :=
  if (string_length =? 0)%N then mret sb else
  m <- lift (deref string) ;;
  s <- lift (take m string_length) ;;
  escape_each p sb s.

(** src/claim.c:142-143: [length ? length : strlen(string)]. *)
Definition length_or_strlen (n : N) (s : ptr) : U N :=
  if (n =? 0)%N then (m <-u deref s ;; strlen m) else OK n.

(** src/claim.c:131-170: the loop over the first [n] claims. *)
Fixpoint write_each (p : platform) (sb eb : chillbuff byte) (cs : list claim) (n : N)
         (first : bool) : M (chillbuff byte) :=
  if (n =? 0)%N then mret sb else
  match cs with
  | [] => mub OOBRead
  | c :: t =>
      if is_null (c_key c) then write_each p sb eb t (n - 1)%N first
      else
        sb <- (if first then mret sb else cb_push sb (lit ",")) ;;
        key_length <- lift (length_or_strlen (c_key_length c) (c_key c)) ;;
        value_length <- lift (length_or_strlen (c_value_length c) (c_value c)) ;;
        let eb := cb_clear eb in
        eb <- l8w8jwt_escape_claim_string p eb (c_key c) key_length ;;
        sb <- cb_push sb (lit """") ;;
        sb <- cb_push sb (cb_elems eb) ;;
        sb <- cb_push sb (lit """:") ;;
        '(sb, eb) <-
          (if (c_type c =? L8W8JWT_CLAIM_TYPE_STRING)%Z
           then
             sb <- cb_push sb (lit """") ;;
             let eb := cb_clear eb in
             eb <- l8w8jwt_escape_claim_string p eb (c_value c) value_length ;;
             sb <- cb_push sb (cb_elems eb) ;;
             sb <- cb_push sb (lit """") ;;
             mret (sb, eb)
           else
             (if (value_length =? 0)%N then mret (sb, eb) else
              m <- lift (deref (c_value c)) ;;
              v <- lift (take m value_length) ;;
              sb <- cb_push sb v ;;
              mret (sb, eb))) ;;
        write_each p sb eb t (n - 1)%N false
  end.

(** src/claim.c:112-174 [l8w8jwt_write_claims]. The string builder is never NULL in this code
    base and is modelled as a value that is threaded through. Pushing zero bytes (an empty raw
    value) has no effect in chillbuff and is skipped. *)
Definition l8w8jwt_write_claims (p : platform) (sb : chillbuff byte) (claims : cptr)
           (claims_count : N) : M (Z * chillbuff byte) :=
  match claims with
  | CNull => mret (L8W8JWT_NULL_ARG, sb)
  | CArr _ cs =>
      if (claims_count =? 0)%N then mret (L8W8JWT_INVALID_ARG, sb)
      else
        o <- cb_init byte ;;
        match o with
        | None => mret (L8W8JWT_OUT_OF_MEM, sb)
        | Some eb =>
            sb <- write_each p sb eb cs claims_count true ;;
            _ <- cb_free eb ;;
            mret (L8W8JWT_SUCCESS, sb)
        end
  end.

(** src/claim.c:181-185: the search loop over the first [n] claims. *)
Fixpoint get_each (cs : list claim) (n : N) (key : bytes) (key_length : N) : U (option claim) :=
  if (n =? 0)%N then OK None else
  match cs with
  | [] => KO OOBRead
  | c :: t =>
      m <-u deref (c_key c) ;;
      r <-u strncmp m key key_length ;;
      if (r =? 0)%Z then OK (Some c) else get_each t (n - 1)%N key key_length
  end.

(** src/claim.c:176-188 [l8w8jwt_get_claim]. The returned pointer is modelled by the claim it
    points to. *)
Definition l8w8jwt_get_claim (claims : cptr) (claims_count : N) (key : ptr) (key_length : N)
  : U (option claim) :=
  match claims, key with
  | CArr _ cs, Ptr _ k =>
      if (claims_count =? 0)%N || (key_length =? 0)%N then OK None
      else get_each cs claims_count k key_length
  | _, _ => OK None
  end.
