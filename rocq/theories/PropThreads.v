(** * Property C96: threads do not get in each other's way *)
From Verif Require Import Base BaseProofs HeapProofs Util Claim Base64 Jsmn Env Encode Decode
  ClaimProofs DecodeProofs CodeProofs PropEncode PropVerify PropValidate PropJson Trace TraceProofs TraceRuns SpecLife LifeProofs LifeRuns PropTrace
  PropLife SpecThreads.
From Coq Require Import ZifyBool ZifyNat ZifyN Permutation Cantor.

(** ** Traces *)
Section General.
Variable js : nat -> job.
Notation has := (has js).
Notation addr i := (j_addr (js i)).
Lemma steps_snoc i s k : steps i (s ++ [k]) = (steps i s + if Nat.eq_dec k i then 1 else 0)%nat.
Proof. unfold steps. rewrite count_occ_app. cbn. destruct (Nat.eq_dec k i); reflexivity. Qed.
Lemma firstn_next {A} (l : list A) n : firstn (n + 1) l = firstn n l ++ match nth_error l n with Some x => [x] | None => [] end.
Proof.
  revert l. induction n as [|n IH]; intros [|x l]; try reflexivity. cbn [Nat.add firstn nth_error app]. rewrite IH. reflexivity.
Qed.
Lemma so_far_snoc s k i : so_far js (s ++ [k]) i =
  so_far js s i ++ (if Nat.eq_dec k i then match next_event js s i with Some x => [x] | None => [] end else []).
Proof.
  unfold so_far, next_event. rewrite steps_snoc. destruct (Nat.eq_dec k i); [apply firstn_next|].
  rewrite Nat.add_0_r, app_nil_r. reflexivity.
Qed.
Lemma split_next s i x : next_event js s i = Some x -> exists t, j_trace (js i) = so_far js s i ++ x :: t.
Proof.
  unfold next_event, so_far. intros E. apply nth_error_split in E as (a & b & E & <-). rewrite E. exists b.
  rewrite firstn_app, Nat.sub_diag, firstn_all. cbn. rewrite app_nil_r. reflexivity.
Qed.

(** Blocks at the same address are the same block, or are shared by both programs from the start. *)
Definition apart (s : list nat) : Prop :=
  forall i j a b, has s i a -> has s j b -> addr i a = addr j b -> (i = j /\ a = b) \/ (kept js i a /\ kept js j b).

(** What a step changes. *)
Lemma has_step s k i id : has (s ++ [k]) i id ->
  has s i id \/ (k = i /\ exists src, next_event js s i = Some (Got src id)).
Proof.
  unfold SpecThreads.has. rewrite so_far_snoc, held_app. destruct (Nat.eq_dec k i) as [->|]; [|cbn; auto].
  destruct (next_event js s i) as [[src d|h d c|d]|]; cbn; auto; destruct (Nat.eqb_spec d id) as [->|]; eauto. discriminate.
Qed.
Lemma apart_step s k : (forall src id, next_event js s k = Some (Got src id) -> ~ in_use js s (addr k id)) -> apart s -> apart (s ++ [k]).
Proof.
  intros Al Ap i j a b Hi Hj E.
  apply has_step in Hi as [Hi|(<- & src & Ni)]; apply has_step in Hj as [Hj|(<- & src' & Nj)].
  - apply Ap; assumption.
  - destruct (Al _ _ Nj). exists i, a. auto.
  - destruct (Al _ _ Ni). exists j, b. auto.
  - left. split; [reflexivity|]. congruence.
Qed.
Lemma apart_all sched : allocator js sched -> apart [] -> forall s rest, sched = s ++ rest -> apart s.
Proof.
  intros Al A0 s. induction s as [|k s IH] using rev_ind; intros rest E; [exact A0|].
  rewrite <- app_assoc in E. apply apart_step; [|exact (IH _ E)]. intros src id N. exact (Al _ _ _ _ _ E N).
Qed.

Theorem apart_undisturbed sched :
  (forall i, in_life (j_live (js i)) (j_trace (js i))) -> allocator js sched -> apart [] -> undisturbed js sched.
Proof.
  intros Lf Al A0 s i rest x E N. pose proof (apart_all _ Al A0 _ _ E) as Ap.
  destruct (split_next _ _ _ N) as (t & Et). pose proof (Lf i _ _ _ Et) as H.
  destruct x as [src id|h id c|id]; [exact I| |]; (split; [exact H|]); intros j id' Hj Ea; symmetry in Ea.
  - destruct (Ap _ _ _ _ H Hj Ea) as [[-> ->]|[[_ K] _]]; [auto|]. destruct (K h c). rewrite Et. apply in_or_app. cbn. auto.
  - destruct (Ap _ _ _ _ H Hj Ea) as [[-> ->]|K]; auto.
Qed.
End General.

(** ** The library *)
(** What a thread may do with the library: encode and release the token, decode and release the claims or the parts. *)
Inductive use :=
| ToEncode (p : platform) (e : env) (ep : enc_params)
| ToDecode (p : platform) (e : env) (dp : dec_params)
| ToDecodeRaw (p : platform) (e : env) (dp : dec_params) (v h hl pl pll s sl : bool)
| ToDecodeRawNv (p : platform) (dp : dec_params) (h hl pl pll s sl : bool).
Definition use_h (u : use) : H unit :=
  match u with
  | ToEncode p e ep => _ <-h encode_and_free_h p e ep ;; hret tt
  | ToDecode p e dp => decode_and_free_h p e dp
  | ToDecodeRaw p e dp v h hl pl pll s sl => raw_and_free_h (decode_raw_h p e (Some dp) v h hl pl pll s sl)
  | ToDecodeRawNv p dp h hl pl pll s sl => raw_and_free_h (decode_raw_no_validation_h p (Some dp) h hl pl pll s sl)
  end.
(** One after the other. *)
Fixpoint uses_h (us : list use) : H unit := match us with [] => hret tt | u :: us => _ <-h use_h u ;; uses_h us end.
(** The heap blocks of the caller's parameters. *)
Definition given_to (u : use) : list nat :=
  match u with
  | ToEncode _ _ ep => given ep
  | ToDecode _ _ dp | ToDecodeRaw _ _ dp _ _ _ _ _ _ _ | ToDecodeRawNv _ dp _ _ _ _ _ _ => given_dec dp
  end.

Lemma k_use F u : incl (given_to u) F -> keeps F [] (use_h u) (fun _ L' => L' = []).
Proof.
  assert (Fp : forall o L, keeps F (part_at o ++ L) (free_part_h o) (fun _ L' => L' = L)).
  { intros [x|] L; cbn [part_at free_part_h]; [apply k_free|]. eapply k_ret; [apply Permutation_refl|]. reflexivity. }
  assert (Raw : forall m, keeps F [] m (fun r L' => L' = raw_at r ++ []) -> keeps F [] (raw_and_free_h m) (fun _ L' => L' = [])).
  { intros m Hm. unfold raw_and_free_h. ks ltac:(exact Hm). intros r ? ->. unfold raw_at. rewrite <- !app_assoc.
    ks ltac:(apply Fp). intros _ ? ->. ks ltac:(apply Fp). intros _ ? ->. apply Fp. }
  destruct u as [p e ep|p e dp|p e dp v h hl pl pll s sl|p dp h hl pl pll s sl]; cbn [given_to use_h]; intros I0.
  - eapply (k_bind F _ _ _ (fun _ L' => L' = [])); [|intros _ ? ->; eapply k_ret; [apply Permutation_refl|reflexivity]].
    unfold encode_and_free_h. ks ltac:(apply k_encode; exact I0). intros r ? ->.
    eapply k_bind with (R := fun _ L' => L' = []); [|intros _ ? ->; eapply k_ret; [apply Permutation_refl|reflexivity]].
    destruct (er_out r) as [q|]; cbn [out_at]; [apply k_free|]. eapply k_ret; [apply Permutation_refl|]. reflexivity.
  - unfold decode_and_free_h. ks ltac:(apply k_decode; exact I0). intros r ? ->.
    destruct (dr_claims r) as [[c n]|]; cbn [dec_at]; [|eapply k_ret; [apply Permutation_refl|reflexivity]].
    destruct c as [|[id|] cs]; cbn [claims_at opt_at].
    + cbn. eapply k_ret; [apply Permutation_refl|reflexivity].
    + intros w Hv. eapply have_perm in Hv; [|rewrite app_nil_r; apply Permutation_cons_append].
      destruct (k_free_claims F [] id cs n w) as [X K]; [rewrite ?app_nil_r in *; exact Hv|]. split; [exact X|]. intros a w' E.
      destruct (K a w' E) as [Y (L' & Hv' & _)]. split; [exact Y|]. exists []. split; [|reflexivity].
      apply (have_drop F L' []). rewrite app_nil_r. exact Hv'.
    + unfold free_claims_h. ks ltac:(apply k_free_each; intros i []). intros _ ? ->. apply k_ub.
  - apply Raw, k_decode_raw, I0.
  - apply Raw, k_decode_raw_nv, I0.
Qed.
Lemma k_uses F us : (forall u, In u us -> incl (given_to u) F) -> keeps F [] (uses_h us) (fun _ L' => L' = []).
Proof.
  induction us as [|u us IH]; intros Hu; cbn [uses_h]; [eapply k_ret; [apply Permutation_refl|reflexivity]|].
  ks ltac:(apply k_use, Hu; cbn; auto). intros _ ? ->. apply IH. intros v Hv. apply Hu. cbn. auto.
Qed.

(** Only blocks obtained by the call are released. *)
Definition any : way -> source -> content -> Prop := fun _ _ _ => True.
Lemma h_use t u : holds any t (use_h u) (fun _ _ => True).
Proof.
  assert (Fp : forall t o, part_from t o -> holds any t (free_part_h o) (fun _ _ => True)).
  { clear. intros t [s|] K; cbn [free_part_h]; [|apply h_ret; exact I].
    eapply h_imp; [apply (h_free any _ _ FromCalloc); [apply heap_owned; exact K|intros; exact I]|auto]. }
  assert (Up : forall t t' o, upto t t' -> part_from t o -> part_from t' o)
    by (clear; intros t t' [s|] U K; [eapply heap_upto; eauto|exact I]).
  assert (Raw : forall m, holds any t m (fun r t' => part_from t' (rr_header r) /\ part_from t' (rr_payload r) /\ part_from t' (rr_signature r)) ->
            holds any t (raw_and_free_h m) (fun _ _ => True)).
  { intros m Tm. unfold raw_and_free_h. hs ltac:(exact Tm). intros r t1 (K1 & K2 & K3) _.
    hs ltac:(apply Fp, K1). intros u2 t2 _ U2. hs ltac:(apply Fp; eapply Up; [exact U2|apply K2]).
    intros u3 t3 _ U3. apply Fp. eapply Up; [exact U3|]. eapply Up; [exact U2|]. apply K3. }
  destruct u as [p e ep|p e dp|p e dp v h hl pl pll s sl|p dp h hl pl pll s sl]; cbn [use_h].
  - eapply (h_bind any _ _ _ (fun _ _ => True)); [|intros; apply h_ret; exact I].
    unfold encode_and_free_h. hs ltac:(apply (h_encode any t p e ep (fun _ => I) (fun _ => I) (fun _ _ => conj (fun _ _ => I) I))).
    intros r t1 [O _] _. eapply (h_bind any t1 _ _ (fun _ _ => True)); [|intros; apply h_ret; exact I].
    destruct (er_out r) as [q|]; [|apply h_ret; exact I].
    eapply h_imp; [apply (h_free any _ _ FromMalloc); [apply heap_owned; auto|intros; exact I]|auto].
  - unfold decode_and_free_h. destruct (dp_jwt dp) as [|b0 jwt] eqn:Ej.
    { eapply (h_bind any _ _ _ (fun r _ => dr_claims r = None)).
      - unfold decode_h. rewrite (null_invalid p dp Ej). cbn. apply h_ret. reflexivity.
      - intros r t' -> _. apply h_ret. exact I. }
    hs ltac:(apply (h_decode any (fun _ _ => I) (fun _ _ => I) I jwt (fun _ _ _ _ _ => I) t p e dp b0 true true true); [intros _; exact I|exact Ej]).
    intros r t1 [K _] _. destruct (dr_claims r) as [[[|[id|] cs] n]|]; cbn in K; try contradiction; [|apply h_ret; exact I].
    destruct K as (Ki & Kc & Kn). apply h_free_claims; auto; intros; exact I.
  - apply Raw. destruct (dp_jwt dp) as [|b0 jwt] eqn:Ej.
    { unfold decode_raw_h. rewrite (null_invalid p dp Ej). cbn [negb Z.eqb]. destruct (_ || _ || _ || _); apply h_ret; cbn; auto. }
    eapply h_imp; [apply (h_decode_raw any (fun _ _ => I) (fun _ _ => I) I jwt (fun _ _ _ _ _ => I) t p e dp b0); [intros _; exact I|exact Ej]|].
    cbn beta. intros r t' _ (A1 & A2 & A3). repeat split; eapply raw_known_from; eauto.
  - apply Raw. destruct (dp_jwt dp) as [|b0 jwt] eqn:Ej.
    { unfold decode_raw_no_validation_h. rewrite (null_invalid p dp Ej). cbn [negb Z.eqb]. destruct (_ || _ || _ || _); apply h_ret; cbn; auto. }
    eapply h_imp; [apply (h_decode_raw_nv any I jwt (fun _ _ _ _ _ => I) t p dp b0); exact Ej|].
    cbn beta. intros r t' _ (A1 & A2 & A3). repeat split; eapply raw_known_from; eauto.
Qed.
Lemma h_uses us : forall t, holds any t (uses_h us) (fun _ _ => True).
Proof.
  induction us as [|u us IH]; intros t; cbn [uses_h]; [apply h_ret; exact I|]. hs ltac:(apply h_use). intros _ t' _ _. apply IH.
Qed.
Lemma uses_release us w id h c : wf w -> w_live w id = true -> ~ In (Gone h id c) (fst (uses_h us w)).
Proof.
  intros W Lv Hin. apply (proj2 (life_gone _ _ _ _)) in Hin.
  destruct (h_uses us [] w (start w W)) as (R & _ & _). destruct (R _ _ _ Hin) as (s & G & _). cbn [app] in G.
  assert (Lt : (id < w_next w)%nat).
  { destruct (Nat.lt_ge_cases id (w_next w)) as [L|L]; [exact L|]. rewrite (W id L) in Lv. discriminate. }
  assert (X : forall s', s = s').
  { intros s'. destruct (h_uses us [Got s' id] w) as (_ & U & _).
    - split; [exact W|]. split; [intros ? ? [E|[]]; inversion E; subst; exact Lt|]. intros a b i [E|[]] [E'|[]]. congruence.
    - apply (U s s' id); apply in_or_app; cbn; auto. }
  pose proof (X FromMalloc). pose proof (X FromCalloc). congruence.
Qed.

(** Any number of threads; thread [i] makes the uses [us i], one after the other, in its world [ws i]; the caller's
    parameters may lie in heap blocks, which the thread's program holds, also together with other threads. *)
Definition jobs (us : nat -> list use) (ws : nat -> world) (addr : nat -> nat -> nat) (i : nat) : job :=
  Job (w_live (ws i)) (fst (uses_h (us i) (ws i))) (addr i).
Theorem C96_threads :
  forall us ws addr sched,
    (forall i, wf (ws i)) -> (forall i u, In u (us i) -> all_held (ws i) (given_to u)) ->
    allocator (jobs us ws addr) sched ->
    undisturbed (jobs us ws addr) sched.
Proof.
  intros us ws addr sched W Hf Al. apply apart_undisturbed; [|exact Al|].
  - intros i. cbn. set (F := flat_map given_to (us i)).
    assert (Hu : forall u, In u (us i) -> incl (given_to u) F) by (intros u Hu x Hx; apply in_flat_map; eauto).
    apply (k_uses F (us i) Hu (ws i)). apply have_start; [apply W|]. intros x Hx. apply in_flat_map in Hx as (u & Iu & Hx). apply (Hf i u Iu x Hx).
  - intros i j a b Hi Hj E. right. cbn in Hi, Hj. split; (split; [assumption|]); intros h c; cbn; apply uses_release; auto.
Qed.

(** ** Cases *)
(** An allocator that never hands out an address twice will do, whatever the threads and their order. *)
Lemma C96_possible us ws sched : (forall i, wf (ws i)) -> (forall i u, In u (us i) -> all_held (ws i) (given_to u)) ->
  allocator (jobs us ws (fun i id => Cantor.to_nat (i, id))) sched.
Proof.
  intros W Hf s i rest src id _ N (j & id' & Hh & E). apply (f_equal Cantor.of_nat) in E. cbn [j_addr jobs] in E.
  rewrite !Cantor.cancel_of_to in E. injection E as -> ->.
  destruct (split_next _ _ _ _ N) as (t & Et). set (F := flat_map given_to (us i)).
  assert (Hu : forall u, In u (us i) -> incl (given_to u) F) by (intros u Hu x Hx; apply in_flat_map; eauto).
  destruct (k_uses F (us i) Hu (ws i)) as [Lf _].
  { apply have_start; [apply W|]. intros x Hx. apply in_flat_map in Hx as (u & Iu & Hx). apply (Hf i u Iu x Hx). }
  specialize (Lf _ _ _ Et). cbn in Lf. unfold has in Hh. cbn in Hh. congruence.
Qed.

(** Two threads. Thread 0 issues a token and releases it, then thread 1 decodes one, and the allocator gives it the addresses
    that thread 0 had. *)
Definition two (i : nat) : list use :=
  match i with
  | 0%nat => [ToEncode pe toy (ep_again CNull 0)]
  | 1%nat => [ToDecode pe toy (dp_of "{""a"":""b""}")]
  | _ => []
  end.
Definition two_jobs : nat -> job := jobs two (fun _ => we) (fun _ id => id).
Definition len (i : nat) : nat := length (j_trace (two_jobs i)).
Definition turns : list nat := repeat 0%nat (len 0) ++ repeat 1%nat (len 1).
Definition holds_b (s : list nat) (i id : nat) : bool := held (j_live (two_jobs i) id) id (so_far two_jobs s i).
Definition free_b (sched : list nat) (n : nat) : bool :=
  let s := firstn n sched in
  match next_event two_jobs s (nth n sched 0%nat) with
  | Some (Got _ id) => negb (holds_b s 0 id) && negb (holds_b s 1 id)
  | _ => true
  end.
Lemma nobody_else s i id : (2 <= i)%nat -> ~ has two_jobs s i id.
Proof.
  intros L. unfold has, so_far. assert (j_trace (two_jobs i) = []) as ->.
  { destruct i as [|[|i]]; [lia|lia|reflexivity]. }
  rewrite firstn_nil. cbn. discriminate.
Qed.
Lemma allocator_b sched : forallb (free_b sched) (seq 0 (length sched)) = true -> allocator two_jobs sched.
Proof.
  intros V. rewrite forallb_forall in V.
  intros s i rest src id E N (j & id' & Hh & Ea). change (id' = id) in Ea. subst id'.
  assert (Ln : In (length s) (seq 0 (length sched))).
  { apply in_seq. rewrite E, app_length. cbn [length]. lia. }
  specialize (V _ Ln). unfold free_b in V. cbv zeta in V.
  assert (firstn (length s) sched = s) as Es by (rewrite E, firstn_app, Nat.sub_diag, firstn_all; apply app_nil_r).
  assert (nth (length s) sched 0%nat = i) as Ei by (rewrite E, app_nth2, Nat.sub_diag; [reflexivity|lia]).
  rewrite Es, Ei, N in V. apply andb_true_iff in V as [V0 V1]. apply negb_true_iff in V0, V1. unfold holds_b in V0, V1. unfold has in Hh.
  destruct j as [|[|j]]; [congruence|congruence|]. eapply nobody_else; [|exact Hh]. lia.
Qed.
Example C96_case :
  (13 <=? len 0)%nat && (13 <=? len 1)%nat && forallb (free_b turns) (seq 0 (length turns)) = true
  /\ (exists src src' id, In (Got src id) (j_trace (two_jobs 0)) /\ In (Got src' id) (j_trace (two_jobs 1)))
  /\ undisturbed two_jobs turns.
Proof.
  assert (V : (13 <=? len 0)%nat && (13 <=? len 1)%nat && forallb (free_b turns) (seq 0 (length turns)) = true) by (vm_compute; reflexivity).
  split; [exact V|]. split; [exists FromBuffer, FromBuffer, 1%nat; split; vm_compute; auto|].
  apply (C96_threads two (fun _ => we) (fun _ id => id)).
  - intros i. exact we_wf.
  - intros [|[|i]] u Hu; cbn [two In] in Hu; [destruct Hu as [<-|[]]|destruct Hu as [<-|[]]|destruct Hu]; intros id Hid; destruct Hid.
  - apply allocator_b. apply andb_true_iff in V as [_ V]. exact V.
Qed.
(** A thread that releases a block twice may hit one that another thread has meanwhile got. *)
Example C96_wrong :
  let js i := Job (fun _ => false)
                match i with
                | 0%nat => [Got FromMalloc 0; Gone ByFree 0 Untold; Gone ByFree 0 Untold]
                | 1%nat => [Got FromMalloc 0]
                | _ => []
                end (fun _ => 7%nat) in
  ~ undisturbed js [0; 0; 1; 0]%nat.
Proof. intros js X. destruct (X [0; 0; 1]%nat 0%nat [] (Gone ByFree 0 Untold) eq_refl eq_refl) as [H _]. discriminate H. Qed.
Print Assumptions C96_threads.
