(** * Lemmas about allocation and the world *)
From Verif Require Import Base BaseProofs.
From Coq Require Import ZifyBool ZifyNat ZifyN.
Ltac Zify.zify_post_hook ::= Z.div_mod_to_equations.

(** The world after a successful / failed allocation, a push, a free. *)
Definition w_ok (w : world) : world :=
  World (w_alloc w) (w_grow w) (w_junk w) (S (w_next w)) (w_pushes w)
        (upd_live (w_live w) (w_next w) true).
Definition w_no (w : world) : world :=
  World (w_alloc w) (w_grow w) (w_junk w) (S (w_next w)) (w_pushes w) (w_live w).
Definition w_push (w : world) : world :=
  World (w_alloc w) (w_grow w) (w_junk w) (w_next w) (S (w_pushes w)) (w_live w).
Definition w_free (w : world) (id : nat) : world :=
  World (w_alloc w) (w_grow w) (w_junk w) (w_next w) (w_pushes w) (upd_live (w_live w) id false).

(** No block that has not been allocated yet is live. *)
Definition wf (w : world) : Prop := forall i, (w_next w <= i)%nat -> w_live w i = false.

Lemma alloc_eq w :
  alloc w = if w_alloc w (w_next w) then Ret (Some (w_next w)) (w_ok w) else Ret None (w_no w).
Proof. reflexivity. Qed.
Lemma malloc_eq n w :
  malloc n w = if w_alloc w (w_next w)
               then Ret (Ptr (Some (w_next w)) (junk_bytes w (w_next w) n)) (w_ok w)
               else Ret Null (w_no w).
Proof. unfold malloc. rewrite alloc_eq. destruct (w_alloc w (w_next w)); reflexivity. Qed.
Lemma calloc_eq n w :
  calloc n w = if w_alloc w (w_next w)
               then Ret (Ptr (Some (w_next w)) (repeat x00 (N.to_nat n))) (w_ok w)
               else Ret Null (w_no w).
Proof.
  unfold calloc, mbind. rewrite alloc_eq. destruct (w_alloc w (w_next w)); reflexivity.
Qed.
Lemma cb_init_eq A w :
  cb_init A w = if w_alloc w (w_next w) then Ret (Some (CB (w_next w) [])) (w_ok w)
                else Ret None (w_no w).
Proof.
  unfold cb_init, mbind. rewrite alloc_eq. destruct (w_alloc w (w_next w)); reflexivity.
Qed.
Lemma cb_push_eq A (b : chillbuff A) e w :
  cb_push b e w = if w_grow w (w_pushes w) then Ret (CB (cb_id b) (cb_elems b ++ e)) (w_push w)
                  else Ret b (w_push w).
Proof. reflexivity. Qed.
Lemma free_id_eq id w : w_live w id = true -> free_id id w = Ret tt (w_free w id).
Proof. intros H. unfold free_id. rewrite H. reflexivity. Qed.
Lemma free_id_inv id w u w' :
  free_id id w = Ret u w' -> w_live w id = true /\ w' = w_free w id.
Proof. unfold free_id. destruct (w_live w id); intros H; inversion H; auto. Qed.
Lemma junk_length w id n : length (junk_bytes w id n) = N.to_nat n.
Proof. unfold junk_bytes. rewrite map_length, seq_length. reflexivity. Qed.

Lemma upd_live_same f k v : upd_live f k v k = v.
Proof. unfold upd_live. rewrite Nat.eqb_refl. reflexivity. Qed.
Lemma upd_live_other f k v i : i <> k -> upd_live f k v i = f i.
Proof. intros. unfold upd_live. destruct (Nat.eqb_spec i k); congruence. Qed.

Lemma wf_ok w : wf w -> wf (w_ok w).
Proof.
  intros H i Hi. simpl in *. rewrite upd_live_other by lia. apply H. lia.
Qed.
Lemma wf_no w : wf w -> wf (w_no w).
Proof. intros H i Hi. simpl in *. apply H. lia. Qed.
Lemma wf_push w : wf w -> wf (w_push w).
Proof. intros H i Hi. apply H. exact Hi. Qed.
Lemma wf_free w id : wf w -> wf (w_free w id).
Proof.
  intros H i Hi. simpl in *. unfold upd_live. destruct (Nat.eqb i id); auto.
Qed.
