(** * What it means for a trace of Trace.v that memory is used only while it is held *)
From Verif Require Import Base Trace.

(** Is block [id] held after the events [t], if it was (or was not) before? *)
Fixpoint held (before : bool) (id : nat) (t : list hevent) : bool :=
  match t with
  | [] => before
  | Got _ i :: t => held (if Nat.eqb i id then true else before) id t
  | Gone _ i _ :: t => held (if Nat.eqb i id then false else before) id t
  | Used _ :: t => held before id t
  end.

(** Every block that is read, written or released is held at that moment; every block obtained is one
    that was not held. [live] are the blocks held before. *)
Definition in_life (live : nat -> bool) (tr : list hevent) : Prop :=
  forall t1 x t2, tr = t1 ++ x :: t2 ->
    match x with
    | Used id | Gone _ id _ => held (live id) id t1 = true
    | Got _ id => held (live id) id t1 = false
    end.
