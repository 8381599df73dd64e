(** * Independent specification of base64 (RFC 4648), at the level of bits.
    Nothing here refers to the model of src/base64.c. *)
From Verif Require Import Base.

(** The [n] low bits of [x], most significant first. *)
Fixpoint msb_bits (n : nat) (x : N) : list bool :=
  match n with O => [] | S k => N.testbit x (N.of_nat k) :: msb_bits k x end.
Definition bits_of_bytes (s : bytes) : list bool := flat_map (fun b => msb_bits 8 (b2n b)) s.
Definition value_of_bits (l : list bool) : N := fold_left (fun a b => 2 * a + N.b2n b)%N l 0%N.

(** RFC 4648 section 4: 24-bit groups cut into four 6-bit groups; a final incomplete 6-bit group
    is completed with zero bits on the right. *)
Fixpoint six_bit_groups (l : list bool) : list (list bool) :=
  match l with
  | [] => []
  | b0 :: b1 :: b2 :: b3 :: b4 :: b5 :: t => [b0; b1; b2; b3; b4; b5] :: six_bit_groups t
  | _ => [firstn 6 (l ++ repeat false 6)]
  end.

(** RFC 4648 tables 1 and 2. *)
Definition char_range (first : N) (n : nat) : bytes :=
  map (fun i => n2b (first + N.of_nat i)) (seq 0 n).
Definition rfc4648_alphabet (url : bool) : bytes :=
  char_range 65 26 ++ char_range 97 26 ++ char_range 48 10
  ++ (if url then [x2d; x5f] else [x2b; x2f]).

Definition rfc4648_char (url : bool) (g : list bool) : byte :=
  nth (N.to_nat (value_of_bits g)) (rfc4648_alphabet url) x00.

(** The text without padding. *)
Definition rfc4648_unpadded (url : bool) (s : bytes) : bytes :=
  map (rfc4648_char url) (six_bit_groups (bits_of_bytes s)).

(** Padding to a multiple of four characters. *)
Definition rfc4648_padding (s : bytes) : bytes :=
  match (length s mod 3)%nat with 1%nat => [x3d; x3d] | 2%nat => [x3d] | _ => [] end.
Definition rfc4648_padded (url : bool) (s : bytes) : bytes :=
  rfc4648_unpadded url s ++ rfc4648_padding s.

(** Lines of at most [n] characters, each ended by a newline. *)
Fixpoint lines_of (n : nat) (room : nat) (s : bytes) : bytes :=
  match s with
  | [] => if Nat.eqb room n then [] else [x0a]
  | c :: t =>
      match room with
      | O => x0a :: c :: lines_of n (n - 1) t
      | S r => c :: lines_of n r t
      end
  end.
(** Text broken after every 72 characters and ended by a newline (RFC 2045 style). *)
Definition in_lines_of_72 (s : bytes) : bytes := lines_of 72 72 s.
