(** * Several threads, one allocator

    Every thread runs calls of the library in a world of its own (Base.v), which names its blocks by numbers of its own.
    What the threads share is the memory: [j_addr] says at which address a block of the thread lies. An allocator may
    hand out an address again once the block there has been released, to the same thread or to another one. *)
From Verif Require Import Base Trace SpecLife.

(** What a thread does: the blocks its program holds before, the events of its calls (Trace.v), the addresses. *)
Record job := Job { j_live : nat -> bool; j_trace : list hevent; j_addr : nat -> nat }.

Section Threads.
Variable js : nat -> job.
(** A schedule says whose event is next; [s] are the steps taken so far. *)
Implicit Types (s : list nat) (i j id a : nat).
Definition steps i s : nat := count_occ Nat.eq_dec s i.
(** What thread [i] has done, and what it does next. *)
Definition so_far s i : list hevent := firstn (steps i s) (j_trace (js i)).
Definition next_event s i : option hevent := nth_error (j_trace (js i)) (steps i s).
(** Thread [i] holds its block [id]. *)
Definition has s i id : Prop := held (j_live (js i) id) id (so_far s i) = true.
(** A thread holds a block at the address. *)
Definition in_use s a : Prop := exists i id, has s i id /\ j_addr (js i) id = a.
(** The allocator hands out what is not in use. *)
Definition allocator (sched : list nat) : Prop :=
  forall s i rest src id, sched = s ++ i :: rest -> next_event s i = Some (Got src id) -> ~ in_use s (j_addr (js i) id).
(** A block that was there before the calls and that the thread does not release. *)
Definition kept i id : Prop := j_live (js i) id = true /\ forall h c, ~ In (Gone h id c) (j_trace (js i)).
(** Whatever a thread reads, writes or releases it holds at that moment. Nobody else holds a block at the same address,
    except that programs may have let several threads look at the same block, which then none of them releases. *)
Definition undisturbed (sched : list nat) : Prop :=
  forall s i rest x, sched = s ++ i :: rest -> next_event s i = Some x ->
    match x with
    | Got _ _ => True
    | Used id => has s i id
        /\ forall j id', has s j id' -> j_addr (js j) id' = j_addr (js i) id ->
             (j = i /\ id' = id) \/ (kept i id /\ kept j id')
    | Gone _ id _ => has s i id
        /\ forall j id', has s j id' -> j_addr (js j) id' = j_addr (js i) id -> j = i /\ id' = id
    end.
End Threads.
