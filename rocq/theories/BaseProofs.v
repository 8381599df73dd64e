(** * Lemmas about Base.v *)
From Verif Require Import Base.
From Coq Require Import ZifyBool ZifyNat ZifyN.
Ltac Zify.zify_post_hook ::= Z.div_mod_to_equations.

Lemma b2n_lt b : (b2n b < 256)%N.
Proof. unfold b2n. destruct b; reflexivity. Qed.

Lemma n2b_b2n b : n2b (b2n b) = b.
Proof. unfold n2b, b2n. destruct b; reflexivity. Qed.

Lemma b2n_n2b_mod n : b2n (n2b n) = (n mod 256)%N.
Proof.
  unfold n2b, b2n. destruct (Byte.of_N (n mod 256)) eqn:E.
  - apply Byte.to_of_N in E. exact E.
  - assert (n mod 256 < 256)%N by (apply N.mod_lt; lia).
    apply Byte.of_N_None_iff in E. lia.
Qed.

Lemma b2n_n2b n : (n < 256)%N -> b2n (n2b n) = n.
Proof. intros. rewrite b2n_n2b_mod. apply N.mod_small; assumption. Qed.

Lemma b2n_inj a b : b2n a = b2n b -> a = b.
Proof. intros H. rewrite <- (n2b_b2n a), <- (n2b_b2n b), H. reflexivity. Qed.

Lemma n2b_eq_mod a b : (a mod 256 = b mod 256)%N -> n2b a = n2b b.
Proof. intros H. unfold n2b. rewrite H. reflexivity. Qed.

Lemma byte_eqb_eq a b : Byte.eqb a b = true <-> a = b.
Proof.
  split; intros H.
  - unfold Byte.eqb in H. destruct (Byte.byte_eq_dec a b); auto.
    apply Byte.byte_dec_bl in H. exact H.
  - subst. apply Byte.byte_dec_lb. reflexivity.
Qed.
Lemma byte_eqb_refl a : Byte.eqb a a = true.
Proof. apply byte_eqb_eq; reflexivity. Qed.
Lemma byte_eqb_neq a b : Byte.eqb a b = false <-> a <> b.
Proof.
  split; intros H.
  - intros ->. rewrite byte_eqb_refl in H. discriminate.
  - destruct (Byte.eqb a b) eqn:E; auto. apply byte_eqb_eq in E. contradiction.
Qed.
Lemma is_nul_true b : is_nul b = true <-> b = x00.
Proof. apply byte_eqb_eq. Qed.
Lemma is_nul_false b : is_nul b = false <-> b <> x00.
Proof. apply byte_eqb_neq. Qed.

(** ** Exhaustive checks over bytes and small numbers *)
Definition all_bytes : list byte := map (fun n => n2b (N.of_nat n)) (seq 0 256).
Lemma all_bytes_in b : In b all_bytes.
Proof.
  unfold all_bytes. apply in_map_iff. exists (N.to_nat (b2n b)).
  pose proof (b2n_lt b). split.
  - rewrite N2Nat.id. apply n2b_b2n.
  - apply in_seq. lia.
Qed.
Lemma sweep1 (f : byte -> bool) : forallb f all_bytes = true -> forall b, f b = true.
Proof. intros H b. rewrite forallb_forall in H. apply H, all_bytes_in. Qed.
Lemma sweep2 (f : byte -> byte -> bool) :
  forallb (fun a => forallb (f a) all_bytes) all_bytes = true -> forall a b, f a b = true.
Proof. intros H a b. pose proof (sweep1 _ H a) as H1. exact (sweep1 _ H1 b). Qed.

Definition below (n : nat) : list N := map N.of_nat (seq 0 n).
Lemma sweepN (n : nat) (f : N -> bool) :
  forallb f (below n) = true -> forall x, (x < N.of_nat n)%N -> f x = true.
Proof.
  intros H x Hx. rewrite forallb_forall in H. apply H. unfold below.
  apply in_map_iff. exists (N.to_nat x). split; [lia|]. apply in_seq. lia.
Qed.
Lemma sweepN2 (n m : nat) (f : N -> N -> bool) :
  forallb (fun x => forallb (f x) (below m)) (below n) = true ->
  forall x y, (x < N.of_nat n)%N -> (y < N.of_nat m)%N -> f x y = true.
Proof.
  intros H x y Hx Hy. pose proof (sweepN n _ H x Hx) as H1. exact (sweepN m _ H1 y Hy).
Qed.

(** ** Lists *)
Lemma firstn_app_exact {A} (l1 l2 : list A) : firstn (length l1) (l1 ++ l2) = l1.
Proof. rewrite firstn_app, Nat.sub_diag, firstn_all. simpl. apply app_nil_r. Qed.
Lemma skipn_app_exact {A} (l1 l2 : list A) : skipn (length l1) (l1 ++ l2) = l2.
Proof. rewrite skipn_app, Nat.sub_diag, skipn_all. reflexivity. Qed.
Lemma skipn_skipn {A} (a b : nat) (l : list A) : skipn a (skipn b l) = skipn (a + b) l.
Proof.
  revert l. induction b as [|b IH]; intros l.
  - rewrite Nat.add_0_r. reflexivity.
  - rewrite Nat.add_succ_r. destruct l; simpl; [apply skipn_nil|]. apply IH.
Qed.
Lemma bytes_eqb_eq a b : bytes_eqb a b = true <-> a = b.
Proof.
  revert b. induction a as [|x a IH]; destruct b as [|y b]; simpl; split; intros H;
    try discriminate; auto.
  - apply andb_true_iff in H as [H1 H2]. apply byte_eqb_eq in H1. apply IH in H2. congruence.
  - inversion H; subst. rewrite byte_eqb_refl. apply IH. reflexivity.
Qed.
Lemma bytes_eqb_neq a b : bytes_eqb a b = false <-> a <> b.
Proof.
  split; intros H.
  - intros ->. assert (bytes_eqb b b = true) by (apply bytes_eqb_eq; reflexivity). congruence.
  - destruct (bytes_eqb a b) eqn:E; auto. apply bytes_eqb_eq in E. contradiction.
Qed.

Lemma take_ok mem n : (n <= N.of_nat (length mem))%N -> take mem n = OK (firstn (N.to_nat n) mem).
Proof. intros. unfold take. destruct (N.leb_spec n (N.of_nat (length mem))); auto; lia. Qed.
Lemma take_inv mem n s :
  take mem n = OK s -> (n <= N.of_nat (length mem))%N /\ s = firstn (N.to_nat n) mem.
Proof.
  unfold take. destruct (N.leb_spec n (N.of_nat (length mem))); intros H0; inversion H0; auto.
Qed.
Lemma take_all mem : take mem (N.of_nat (length mem)) = OK mem.
Proof. rewrite take_ok by lia. rewrite Nat2N.id, firstn_all. reflexivity. Qed.
Lemma take_app a b : take (a ++ b) (N.of_nat (length a)) = OK a.
Proof.
  rewrite take_ok by (rewrite app_length; lia). rewrite Nat2N.id, firstn_app_exact. reflexivity.
Qed.
Lemma take_length mem n s : take mem n = OK s -> N.of_nat (length s) = n.
Proof. intros H. apply take_inv in H as [H ->]. rewrite firstn_length. lia. Qed.
Lemma read_at_ok mem i :
  (i < N.of_nat (length mem))%N -> read_at mem i = OK (nth (N.to_nat i) mem x00).
Proof. intros. unfold read_at. destruct (N.ltb_spec i (N.of_nat (length mem))); auto; lia. Qed.
Lemma read_at_inv mem i b :
  read_at mem i = OK b -> (i < N.of_nat (length mem))%N /\ b = nth (N.to_nat i) mem x00.
Proof.
  unfold read_at. destruct (N.ltb_spec i (N.of_nat (length mem))); intros H0; inversion H0; auto.
Qed.

(** ** C strings: [cstr mem s]: the C string stored at [mem] is [s]. *)
Definition no_nul (s : bytes) : Prop := ~ In x00 s.
Lemma no_nul_cons c s : no_nul (c :: s) <-> c <> x00 /\ no_nul s.
Proof. unfold no_nul. simpl. intuition. Qed.
Lemma no_nul_app a b : no_nul (a ++ b) <-> no_nul a /\ no_nul b.
Proof. unfold no_nul. rewrite in_app_iff. intuition. Qed.

Lemma strlen_cstr s rest : no_nul s -> strlen (s ++ x00 :: rest) = OK (N.of_nat (length s)).
Proof.
  induction s as [|c s IH]; intros H; simpl; auto.
  apply no_nul_cons in H as [H1 H2].
  apply is_nul_false in H1. rewrite H1, IH by auto. simpl. f_equal. lia.
Qed.
Lemma strlen_inv m n :
  strlen m = OK n -> exists s rest, m = s ++ x00 :: rest /\ no_nul s /\ n = N.of_nat (length s).
Proof.
  revert n. induction m as [|c m IH]; simpl; intros n H; [discriminate|].
  destruct (is_nul c) eqn:E.
  - apply is_nul_true in E. inversion H; subst. exists [], m. simpl.
    repeat split; auto. intros [].
  - destruct (strlen m) as [k|] eqn:Ek; simpl in H; inversion H; subst.
    destruct (IH _ eq_refl) as (s & rest & -> & Hs & ->).
    exists (c :: s), rest. simpl. repeat split; auto.
    + apply no_nul_cons. split; auto. apply is_nul_false; auto.
    + lia.
Qed.

(** ** Monad *)
Lemma mbind_ret {A B} (m : M A) (k : A -> M B) w a w' :
  m w = Ret a w' -> mbind m k w = k a w'.
Proof. intros H. unfold mbind. rewrite H. reflexivity. Qed.
Lemma mbind_inv {A B} (m : M A) (k : A -> M B) w b w'' :
  mbind m k w = Ret b w'' -> exists a w', m w = Ret a w' /\ k a w' = Ret b w''.
Proof. unfold mbind. destruct (m w) as [a w'|]; intros H; [eauto|discriminate]. Qed.
Lemma lift_inv {A} (m : U A) w a w' : lift m w = Ret a w' -> m = OK a /\ w' = w.
Proof. unfold lift. destruct m; intros H; inversion H; auto. Qed.
Lemma ubind_inv {A B} (m : U A) (k : A -> U B) b :
  ubind m k = OK b -> exists a, m = OK a /\ k a = OK b.
Proof. unfold ubind. destruct m; intros H; [eauto|discriminate]. Qed.
Lemma ubind_ok {A B} (m : U A) (k : A -> U B) a : m = OK a -> ubind m k = k a.
Proof. intros ->. reflexivity. Qed.
