(** * Base: bytes, undefined behaviour, heap, and the libc functions the code calls.

    This file models no l8w8jwt function; it is the C machine the model of the code runs on.
    Conventions:
    - [U A]: a computation that either yields a value or is undefined behaviour.
    - [M A]: the same, with access to the [world] (allocator, heap).
    - a pointer is [Null] or [Ptr blk mem], [mem] being the bytes from the pointer to the end of
      the object it points into, so that every access can be bounds-checked. *)
From Coq Require Export List NArith ZArith Lia Bool.
From Coq Require Export Init.Byte Strings.Byte.
From Coq Require String.
Export String.StringSyntax.
Export ListNotations.
Notation string := String.string.
Delimit Scope string_scope with string.
Open Scope list_scope.

Definition bytes := list byte.

(** String literals as bytes (without the terminating NUL). *)
Definition lit (s : string) : bytes := String.list_byte_of_string s.
(** A C string literal as a memory object (with its terminating NUL). *)
Definition clit (s : string) : bytes := lit s ++ [x00].
Arguments lit s%string_scope.
Arguments clit s%string_scope.

Definition b2n (b : byte) : N := Byte.to_N b.
(** Conversion to [uint8_t]: reduction modulo 256. *)
Definition n2b (n : N) : byte :=
  match Byte.of_N (n mod 256) with Some b => b | None => x00 end.
Definition b2z (b : byte) : Z := Z.of_N (b2n b).
Definition is_nul (b : byte) : bool := Byte.eqb b x00.

(** ** Platform parameters (not fixed by the C standard or chosen at build time).
    [p_size_bits]: width of [size_t]. [p_char_signed]: is plain [char] signed.
    [p_small_stack]: L8W8JWT_SMALL_STACK (version.h:51-57). [p_eddsa]: L8W8JWT_ENABLE_EDDSA
    (algs.h:99-104). [p_cb_init_clears]: does a failing chillbuff_init leave the struct with a
    NULL array and length 0 (chillbuff is an external, absent submodule). *)
Record platform := Platform {
  p_size_bits : N;
  p_char_signed : bool;
  p_small_stack : bool;
  p_eddsa : bool;
  p_cb_init_clears : bool
}.

Definition size_mod (p : platform) : N := 2 ^ p_size_bits p.
(** Conversion of a (possibly negative) pointer difference to [size_t]. *)
Definition to_size (p : platform) (z : Z) : N := Z.to_N (z mod Z.of_N (size_mod p)).
(** Value of a plain [char]. *)
Definition char_val (p : platform) (b : byte) : Z :=
  if p_char_signed p && (127 <? b2n b)%N then (b2z b - 256)%Z else b2z b.

Definition INT_MAX : Z := 2147483647.
Definition INT_MIN : Z := -2147483648.
Definition I64_MAX : Z := 9223372036854775807.
Definition I64_MIN : Z := -9223372036854775808.

(** ** Undefined behaviour *)
Inductive ub :=
| OOBRead | OOBWrite | NullDeref | SignedOverflow | BadFree | BadIndex | BadCtype | UninitUse
| OutOfFuel (* not C: the model's recursion bound was hit; proved impossible *).

Inductive U (A : Type) := OK (a : A) | KO (u : ub).
Arguments OK {A} a.
Arguments KO {A} u.

Definition ubind {A B} (m : U A) (k : A -> U B) : U B :=
  match m with OK a => k a | KO u => KO u end.
Notation "x <-u m ;; k" := (ubind m (fun x => k))
  (at level 61, m at next level, right associativity).
Notation "' p <-u m ;; k" := (ubind m (fun x => match x with p => k end))
  (at level 61, p pattern, m at next level, right associativity).

(** ** Heap and world *)
(** [blk = Some k]: inside heap block [k]; [None]: static, automatic or caller-owned non-heap
    storage, which must never be passed to [free]. *)
Inductive ptr := Null | Ptr (blk : option nat) (mem : bytes).
Definition is_null (p : ptr) : bool := match p with Null => true | _ => false end.

Record world := World {
  w_alloc : nat -> bool;       (* does the k-th allocation succeed? *)
  w_grow : nat -> bool;        (* does the k-th chillbuff_push_back succeed? *)
  w_junk : nat -> nat -> byte; (* content of fresh malloc memory, by block and offset *)
  w_next : nat;                (* number of allocations attempted = next block id *)
  w_pushes : nat;              (* number of push_backs attempted *)
  w_live : nat -> bool         (* which blocks are allocated *)
}.

Inductive res (A : Type) := Ret (a : A) (w : world) | Undef (u : ub).
Arguments Ret {A} a w.
Arguments Undef {A} u.
Definition M (A : Type) := world -> res A.

Definition mret {A} (a : A) : M A := fun w => Ret a w.
Definition mbind {A B} (m : M A) (k : A -> M B) : M B :=
  fun w => match m w with Ret a w' => k a w' | Undef u => Undef u end.
Definition mub {A} (u : ub) : M A := fun _ => Undef u.
Definition lift {A} (m : U A) : M A :=
  fun w => match m with OK a => Ret a w | KO u => Undef u end.
Notation "x <- m ;; k" := (mbind m (fun x => k))
  (at level 61, m at next level, right associativity).
Notation "' p <- m ;; k" := (mbind m (fun x => match x with p => k end))
  (at level 61, p pattern, m at next level, right associativity).

Definition upd_live (f : nat -> bool) (k : nat) (v : bool) : nat -> bool :=
  fun i => if Nat.eqb i k then v else f i.

(** One allocation attempt: [Some id] of the new block or [None]. *)
Definition alloc : M (option nat) :=
  fun w =>
    let id := w_next w in
    if w_alloc w id
    then Ret (Some id) (World (w_alloc w) (w_grow w) (w_junk w) (S id) (w_pushes w)
                              (upd_live (w_live w) id true))
    else Ret None (World (w_alloc w) (w_grow w) (w_junk w) (S id) (w_pushes w) (w_live w)).

Definition junk_bytes (w : world) (id : nat) (n : N) : bytes :=
  map (w_junk w id) (seq 0 (N.to_nat n)).

Definition malloc (n : N) : M ptr :=
  fun w => match alloc w with
           | Ret (Some id) w' => Ret (Ptr (Some id) (junk_bytes w id n)) w'
           | Ret None w' => Ret Null w'
           | Undef u => Undef u
           end.

Definition calloc (n : N) : M ptr :=
  o <- alloc ;;
  mret (match o with Some id => Ptr (Some id) (repeat x00 (N.to_nat n)) | None => Null end).

Definition free_id (id : nat) : M unit :=
  fun w => if w_live w id
           then Ret tt (World (w_alloc w) (w_grow w) (w_junk w) (w_next w) (w_pushes w)
                              (upd_live (w_live w) id false))
           else Undef BadFree.

(** [free] / [l8w8jwt_free] (src/version.c:25-28). *)
Definition free (p : ptr) : M unit :=
  match p with
  | Null => mret tt
  | Ptr (Some id) _ => free_id id
  | Ptr None _ => mub BadFree
  end.

(** ** chillbuff (external, absent submodule): a growable array.
    [chillbuff_init] is one allocation. [chillbuff_push_back] appends all given elements, or, if
    growing fails, leaves the buffer unchanged (its return code is ignored by every caller).
    Simplification: a push that needs no growth could not fail in reality; here any push may. *)
Record chillbuff (A : Type) := CB { cb_id : nat; cb_elems : list A }.
Arguments CB {A} cb_id cb_elems.
Arguments cb_id {A} _.
Arguments cb_elems {A} _.

Definition cb_init (A : Type) : M (option (chillbuff A)) :=
  o <- alloc ;;
  mret (match o with Some id => Some (CB id []) | None => None end).

Definition cb_push {A} (b : chillbuff A) (e : list A) : M (chillbuff A) :=
  fun w =>
    let w' := World (w_alloc w) (w_grow w) (w_junk w) (w_next w) (S (w_pushes w)) (w_live w) in
    if w_grow w (w_pushes w) then Ret (CB (cb_id b) (cb_elems b ++ e)) w' else Ret b w'.

Definition cb_clear {A} (b : chillbuff A) : chillbuff A := CB (cb_id b) [].
Definition cb_free {A} (b : chillbuff A) : M unit := free_id (cb_id b).

(** ** Reading memory *)
(** The first [n] bytes of an object. *)
Definition take (mem : bytes) (n : N) : U bytes :=
  if (n <=? N.of_nat (length mem))%N then OK (firstn (N.to_nat n) mem) else KO OOBRead.
Definition read_at (mem : bytes) (i : N) : U byte :=
  if (i <? N.of_nat (length mem))%N then OK (nth (N.to_nat i) mem x00) else KO OOBRead.
(** [mem + z] for a pointer offset [z]. *)
Definition at_off (mem : bytes) (z : Z) : U bytes :=
  if ((0 <=? z) && (z <=? Z.of_nat (length mem)))%Z
  then OK (skipn (Z.to_nat z) mem) else KO OOBRead.
(** The object must be readable and writable for [n] bytes (memset, mbedtls_platform_zeroize);
    NULL is allowed only with [n = 0]. A heap object must be live. *)
Definition zeroize (p : ptr) (n : N) : M unit :=
  fun w =>
    match p with
    | Null => if (n =? 0)%N then Ret tt w else Undef NullDeref
    | Ptr blk mem =>
        if negb (n <=? N.of_nat (length mem))%N then Undef OOBWrite
        else if match blk with Some id => w_live w id | None => true end
        then Ret tt w else Undef BadFree
    end.
Definition deref (p : ptr) : U bytes :=
  match p with Null => KO NullDeref | Ptr _ m => OK m end.

(** ** libc string functions (ISO C, "C" locale) *)
Fixpoint strlen (m : bytes) : U N :=
  match m with
  | [] => KO OOBRead
  | c :: t => if is_nul c then OK 0%N else (n <-u strlen t ;; OK (N.succ n))
  end.

(** [strchr]: offset of the first occurrence of [c] before the terminator. *)
Fixpoint strchr (m : bytes) (c : byte) : U (option nat) :=
  match m with
  | [] => KO OOBRead
  | x :: t => if Byte.eqb x c then OK (Some 0%nat)
              else if is_nul x then OK None
              else (o <-u strchr t c ;; OK (option_map S o))
  end.

Fixpoint strncmp (m1 m2 : bytes) (n : N) : U Z :=
  if (n =? 0)%N then OK 0%Z else
  match m1, m2 with
  | a :: t1, b :: t2 =>
      if Byte.eqb a b then (if is_nul a then OK 0%Z else strncmp t1 t2 (n - 1)%N)
      else OK (b2z a - b2z b)%Z
  | _, _ => KO OOBRead
  end.

Definition is_space (b : byte) : bool :=
  let n := b2n b in ((n =? 32) || ((9 <=? n) && (n <=? 13)))%N.
Definition is_digit (b : byte) : bool :=
  let n := b2n b in ((48 <=? n) && (n <=? 57))%N.

(** [strtoll(m, NULL, 10)]. *)
Fixpoint scan_digits (m : bytes) (acc : Z) : U Z :=
  match m with
  | [] => KO OOBRead
  | c :: t => if is_digit c then scan_digits t (10 * acc + (b2z c - 48))%Z else OK acc
  end.
Definition clamp64 (z : Z) : Z := Z.max I64_MIN (Z.min I64_MAX z).
Fixpoint strtoll (m : bytes) : U Z :=
  match m with
  | [] => KO OOBRead
  | c :: t =>
      if is_space c then strtoll t
      else if Byte.eqb c x2d (* - *) then (v <-u scan_digits t 0 ;; OK (clamp64 (- v)))
      else if Byte.eqb c x2b (* + *) then (v <-u scan_digits t 0 ;; OK (clamp64 v))
      else (v <-u scan_digits m 0 ;; OK (clamp64 v))
  end.

(** [strstr(hay, needle) != NULL] on a buffer that must contain a terminator. *)
Fixpoint prefixb (a m : bytes) : bool :=
  match a, m with
  | [], _ => true
  | x :: a', y :: m' => Byte.eqb x y && prefixb a' m'
  | _ :: _, [] => false
  end.
Fixpoint substrb (needle hay : bytes) : bool :=
  prefixb needle hay || match hay with [] => false | _ :: t => substrb needle t end.
Definition strstr_found (hay needle : bytes) : U bool :=
  n <-u strlen hay ;; OK (substrb needle (firstn (N.to_nat n) hay)).

(** [memcmp(a, b, n) != 0]: both objects must have [n] readable bytes. *)
Fixpoint bytes_eqb (a b : bytes) : bool :=
  match a, b with
  | [], [] => true
  | x :: a', y :: b' => Byte.eqb x y && bytes_eqb a' b'
  | _, _ => false
  end.
Definition memcmp_eq (a b : bytes) (n : N) : U bool :=
  x <-u take a n ;; y <-u take b n ;; OK (bytes_eqb x y).

(** ** Write cursor: the pointer [pos] of the idiom [*pos++ = c] inside one object. *)
Record cursor := Cur { c_done : bytes (* bytes before pos, reversed *); c_rest : bytes }.
Definition cur_start (mem : bytes) : cursor := Cur [] mem.
Definition cur_put (c : cursor) (x : byte) : U cursor :=
  match c_rest c with [] => KO OOBWrite | _ :: t => OK (Cur (x :: c_done c) t) end.
Definition cur_set (c : cursor) (x : byte) : U cursor :=
  match c_rest c with [] => KO OOBWrite | _ :: t => OK (Cur (c_done c) (x :: t)) end.
Definition cur_back (c : cursor) : U cursor :=
  match c_done c with [] => KO OOBWrite | x :: f => OK (Cur f (x :: c_rest c)) end.
Definition cur_off (c : cursor) : N := N.of_nat (length (c_done c)).
Definition cur_buf (c : cursor) : bytes := rev (c_done c) ++ c_rest c.

(** Return codes (include/l8w8jwt/retcodes.h:32-102). *)
Definition L8W8JWT_SUCCESS : Z := 0.
Definition L8W8JWT_NULL_ARG : Z := 100.
Definition L8W8JWT_INVALID_ARG : Z := 200.
Definition L8W8JWT_OUT_OF_MEM : Z := 300.
Definition L8W8JWT_OVERFLOW : Z := 310.
Definition L8W8JWT_SIGNATURE_CREATION_FAILURE : Z := 400.
Definition L8W8JWT_SHA2_FAILURE : Z := 410.
Definition L8W8JWT_KEY_PARSE_FAILURE : Z := 420.
Definition L8W8JWT_BASE64_FAILURE : Z := 425.
Definition L8W8JWT_WRONG_KEY_TYPE : Z := 450.
Definition L8W8JWT_MBEDTLS_CTR_DRBG_SEED_FAILURE : Z := 500.
Definition L8W8JWT_DECODE_FAILED_INVALID_TOKEN_FORMAT : Z := 600.
Definition L8W8JWT_DECODE_FAILED_MISSING_SIGNATURE : Z := 700.
Definition L8W8JWT_UNSUPPORTED_ALG : Z := 800.

(** Algorithm ids (include/l8w8jwt/algs.h:34-97). *)
Definition L8W8JWT_ALG_HS256 : Z := 0.
Definition L8W8JWT_ALG_HS384 : Z := 1.
Definition L8W8JWT_ALG_HS512 : Z := 2.
Definition L8W8JWT_ALG_RS256 : Z := 3.
Definition L8W8JWT_ALG_RS384 : Z := 4.
Definition L8W8JWT_ALG_RS512 : Z := 5.
Definition L8W8JWT_ALG_PS256 : Z := 6.
Definition L8W8JWT_ALG_PS384 : Z := 7.
Definition L8W8JWT_ALG_PS512 : Z := 8.
Definition L8W8JWT_ALG_ES256 : Z := 9.
Definition L8W8JWT_ALG_ES384 : Z := 10.
Definition L8W8JWT_ALG_ES512 : Z := 11.
Definition L8W8JWT_ALG_ES256K : Z := 12.
Definition L8W8JWT_ALG_ED25519 : Z := 13.

(** L8W8JWT_MAX_KEY_SIZE (decode.h:38-40, encode.h:37-39), default value. *)
Definition L8W8JWT_MAX_KEY_SIZE : N := 8192.
