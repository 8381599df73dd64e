(** * Memory is used only while it is held: rules and the functions of Trace.v *)
From Verif Require Import Base BaseProofs HeapProofs Base64 Util UtilProofs Claim ClaimProofs Jsmn Env Encode Decode
  DecodeProofs CodeProofs Trace TraceProofs SpecLife.
From Coq Require Import ZifyBool ZifyNat ZifyN Permutation.
Ltac Zify.zify_post_hook ::= Z.div_mod_to_equations.

Lemma held_app b id t1 : forall t2, held b id (t1 ++ t2) = held (held b id t1) id t2.
Proof. revert b. induction t1 as [|x t1 IH]; intros b t2; [reflexivity|]. destruct x; cbn; apply IH. Qed.
Lemma held_used b id us : held b id (map Used us) = b.
Proof. induction us; [reflexivity|exact IHus]. Qed.
Lemma in_life_nil l : in_life l [].
Proof. intros t1 x t2 E. destruct t1; discriminate. Qed.
Lemma in_life_app l a b : in_life l a -> in_life (fun i => held (l i) i a) b -> in_life l (a ++ b).
Proof.
  intros Ha Hb t1 x t2 E. revert t1 E.
  assert (X : forall (a b t1 t2 : list hevent) x, a ++ b = t1 ++ x :: t2 ->
     (exists t2', a = t1 ++ x :: t2') \/ exists t1', t1 = a ++ t1' /\ b = t1' ++ x :: t2).
  { clear. induction a as [|y a IH]; intros b t1 t2 x E; [right; exists t1; auto|].
    destruct t1 as [|z t1]; cbn in E; injection E as -> E; [left; eexists; reflexivity|].
    destruct (IH _ _ _ _ E) as [(t2' & ->)|(t1' & -> & ->)]; [left; exists t2'; reflexivity|right; exists t1'; auto]. }
  intros t1 E. destruct (X _ _ _ _ _ E) as [(t2' & ->)|(t1' & -> & ->)].
  - eapply Ha. reflexivity.
  - specialize (Hb t1' x t2 eq_refl). destruct x; rewrite held_app; exact Hb.
Qed.
Lemma in_life_ext l l' t : (forall i, l i = l' i) -> in_life l t -> in_life l' t.
Proof. intros E H t1 x t2 Et. specialize (H t1 x t2 Et). destruct x; rewrite <- E; exact H. Qed.
Lemma in_life_one l x : match x with Used id | Gone _ id _ => l id = true | Got _ id => l id = false end -> in_life l [x].
Proof.
  intros H t1 y t2 E. destruct t1 as [|z t1]; [inversion E; subst; destruct y; exact H|].
  destruct t1; discriminate.
Qed.
Lemma in_life_used l us : (forall i, In i us -> l i = true) -> in_life l (map Used us).
Proof.
  induction us as [|u us IH]; intros H; [apply in_life_nil|]. cbn [map]. change (Used u :: map Used us) with ([Used u] ++ map Used us).
  apply in_life_app; [apply in_life_one, H; cbn; auto|]. eapply in_life_ext; [|apply IH; intros i Hi; apply H; cbn; auto]. reflexivity.
Qed.

(** The caller's blocks [F] and blocks [L] obtained by the library are held; those of [L] are
    distinct from each other and from [F]. *)
Definition have (F L : list nat) (w : world) : Prop :=
  wf w /\ NoDup L /\ (forall i, In i L -> ~ In i F) /\ forall i, In i F \/ In i L -> w_live w i = true.
Definition keeps {A} (F L : list nat) (m : H A) (Q : A -> list nat -> Prop) : Prop :=
  forall w, have F L w ->
    in_life (w_live w) (fst (m w))
    /\ forall a w', snd (m w) = Ret a w' ->
         (forall i, w_live w' i = held (w_live w i) i (fst (m w))) /\ exists L', have F L' w' /\ Q a L'.

Lemma have_perm F L L' w : Permutation L L' -> have F L w -> have F L' w.
Proof.
  intros P (W & D & X & Lv). split; [exact W|]. split; [eapply Permutation_NoDup; eauto|].
  apply Permutation_sym in P. split.
  - intros i Hi. apply X. eapply Permutation_in; eauto.
  - intros i [Hi|Hi]; apply Lv; [auto|right; eapply Permutation_in; eauto].
Qed.
Lemma have_drop F K L w : have F (K ++ L) w -> have F L w.
Proof.
  intros (W & D & X & Lv). split; [exact W|]. split.
  { clear -D. induction K as [|k K IH]; [exact D|]. inversion D; auto. }
  split; [intros i Hi; apply X, in_or_app; auto|]. intros i [Hi|Hi]; apply Lv; [auto|right; apply in_or_app; auto].
Qed.
Lemma have_quiet F L w w' : quiet w w' -> have F L w -> have F L w'.
Proof. intros Q (W & D & X & Lv). split; [eapply wf_quiet; eauto|]. split; [exact D|]. split; [exact X|]. intros i Hi. rewrite (proj2 Q). auto. Qed.

Section Rules.
Variable F : list nat.
Local Notation keeps := (keeps F).
Local Notation have := (have F).

Lemma k_ret {A} L L' (a : A) (Q : A -> list nat -> Prop) : Permutation L L' -> Q a L' -> keeps L (hret a) Q.
Proof.
  intros P q w Hv. unfold hret. cbn. split; [apply in_life_nil|]. intros a' w' E. inversion E; subst. split; [reflexivity|].
  exists L'. split; [eapply have_perm; eauto|exact q].
Qed.
Lemma k_ub {A} L u (Q : A -> list nat -> Prop) : keeps L (hub u) Q.
Proof. intros w _. cbn. split; [apply in_life_nil|discriminate]. Qed.
Lemma k_imp {A} L (m : H A) (Q Q' : A -> list nat -> Prop) : keeps L m Q -> (forall a L', Q a L' -> Q' a L') -> keeps L m Q'.
Proof.
  intros Hm HQ w Hv. destruct (Hm w Hv) as [X K]. split; [exact X|]. intros a w' E. destruct (K a w' E) as [Y (L' & Z & q)].
  split; [exact Y|]. exists L'. auto.
Qed.
Lemma k_perm {A} L L' (m : H A) Q : Permutation L L' -> keeps L' m Q -> keeps L m Q.
Proof. intros P Hm w Hv. apply Hm. eapply have_perm; eauto. Qed.
Lemma k_drop {A} K L (m : H A) Q : keeps L m Q -> keeps (K ++ L) m Q.
Proof. intros Hm w Hv. apply Hm. eapply have_drop; eauto. Qed.
Lemma k_bind {A B} L (m : H A) (k : A -> H B) R Q :
  keeps L m R -> (forall a L', R a L' -> keeps L' (k a) Q) -> keeps L (hbind m k) Q.
Proof.
  intros Hm Hk w Hv. destruct (Hm w Hv) as [X K]. rewrite hbind_eq. destruct (snd (m w)) as [a w1|u] eqn:E; cbn [fst snd].
  2:{ split; [exact X|discriminate]. }
  destruct (K a w1 eq_refl) as [Y (L1 & H1 & q)]. destruct (Hk a L1 q w1 H1) as [X2 K2]. split.
  - apply in_life_app; [exact X|]. eapply in_life_ext; [|exact X2]. exact Y.
  - intros b w' E'. destruct (K2 b w' E') as [Y2 Z]. split; [|exact Z]. intros i. rewrite held_app, <- Y. apply Y2.
Qed.

(** Accesses. *)
Lemma k_at {A} L us (m : M A) (P : A -> Prop) :
  incl us (F ++ L) -> (forall w a w', wf w -> m w = Ret a w' -> quiet w w' /\ P a) ->
  keeps L (hat us m) (fun a L' => L' = L /\ P a).
Proof.
  intros Hu Hm w Hv. unfold hat. cbn [fst snd]. split.
  - apply in_life_used. intros i Hi. apply Hv. apply Hu in Hi. apply in_app_or in Hi. exact Hi.
  - intros a w' E. destruct (Hm w a w' (proj1 Hv) E) as [Q Pa]. split; [intros i; rewrite held_used; apply Q|].
    exists L. split; [eapply have_quiet; eauto|auto].
Qed.
Lemma k_lift {A} L us (m : U A) : incl us (F ++ L) -> keeps L (hat us (lift m)) (fun a L' => L' = L /\ m = OK a).
Proof. intros Hu. apply k_at; [exact Hu|]. intros w a w' _ E. apply lift_inv in E as [E ->]. split; [apply quiet_refl|exact E]. Qed.
Lemma k_push {A} L us (b : chillbuff A) e : incl us (F ++ L) ->
  keeps L (hat us (cb_push b e)) (fun b' L' => L' = L /\ cb_id b' = cb_id b /\ (b' = b \/ cb_elems b' = cb_elems b ++ e)).
Proof.
  intros Hu. apply k_at; [exact Hu|]. intros w a w' _ E. rewrite cb_push_eq in E.
  destruct (w_grow w (w_pushes w)); inversion E; subst; (split; [apply quiet_push|]); auto.
Qed.
Lemma k_zeroize L us q n : incl us (F ++ L) -> keeps L (hat us (zeroize q n)) (fun _ L' => L' = L).
Proof.
  intros Hu. eapply k_imp; [apply (k_at L us _ (fun _ => True) Hu)|intros a L' [-> _]; reflexivity].
  intros w a w' _ E. apply zeroize_same in E as ->. split; [apply quiet_refl|exact I].
Qed.
Lemma k_write_each L us p sb eb cs n first : incl us (F ++ L) ->
  keeps L (hat us (write_each p sb eb cs n first)) (fun b' L' => L' = L /\ cb_id b' = cb_id sb).
Proof. intros Hu. apply k_at; [exact Hu|]. intros w a w' _ E. apply write_each_inv in E as (Q & K & _). auto. Qed.

(** Obtaining a block. *)
Lemma k_obtain {A} L (m : M A) ev s (Q : A -> list nat -> Prop) :
  (forall w, (exists a, m w = Ret a (w_ok w) /\ ev a = [Got s (w_next w)] /\ Q a (w_next w :: L))
             \/ (exists a, m w = Ret a (w_no w) /\ ev a = [] /\ Q a L)) ->
  keeps L (hop m ev) Q.
Proof.
  intros Hm w Hv. unfold hop. destruct Hv as (W & D & X & Lv).
  assert (Fr : w_live w (w_next w) = false) by (apply W; lia).
  destruct (Hm w) as [(a & -> & -> & q)|(a & -> & -> & q)]; cbn [fst snd].
  - split; [apply in_life_one; exact Fr|]. intros a' w' E. inversion E; subst. split.
    { intros i. cbn. unfold upd_live. rewrite Nat.eqb_sym. reflexivity. }
    exists (w_next w :: L). split; [|exact q]. split; [apply wf_ok; exact W|].
    assert (N : forall i, In i F \/ In i L -> i <> w_next w) by (intros i Hi ->; specialize (Lv _ Hi); congruence).
    split; [constructor; [intros Hi; exact (N _ (or_intror Hi) eq_refl)|exact D]|]. split.
    + intros i [<-|Hi]; [intros Hi; exact (N _ (or_introl Hi) eq_refl)|auto].
    + intros i Hi. cbn. unfold upd_live. destruct (Nat.eqb_spec i (w_next w)); [reflexivity|]. apply Lv. destruct Hi as [Hi|[Hi|Hi]]; auto. congruence.
  - split; [apply in_life_nil|]. intros a' w' E. inversion E; subst. split; [reflexivity|].
    exists L. split; [|exact q]. split; [apply wf_no; exact W|]. split; [exact D|]. split; [exact X|]. exact Lv.
Qed.
(** NULL, or a new block. *)
Definition fresh (L : list nat) (q : ptr) (L' : list nat) : Prop :=
  match q with Null => L' = L | Ptr (Some id) _ => L' = id :: L | Ptr None _ => False end.
Lemma k_malloc L n : keeps L (hmalloc n) (fresh L).
Proof.
  apply (k_obtain L _ _ FromMalloc). intros w. rewrite malloc_eq. destruct (w_alloc w (w_next w)); [left|right]; eexists; split; try reflexivity; split; reflexivity.
Qed.
Lemma k_calloc L n : keeps L (hcalloc n) (fresh L).
Proof.
  apply (k_obtain L _ _ FromCalloc). intros w. rewrite calloc_eq. destruct (w_alloc w (w_next w)); [left|right]; eexists; split; try reflexivity; split; reflexivity.
Qed.
Lemma k_init A L : keeps L (hcb_init A)
  (fun o L' => match o with Some b => L' = cb_id b :: L /\ cb_elems b = [] | None => L' = L end).
Proof.
  apply (k_obtain L _ _ FromBuffer). intros w. rewrite cb_init_eq. destruct (w_alloc w (w_next w)); [left|right]; eexists; split; try reflexivity; split; try reflexivity.
  split; reflexivity.
Qed.
Lemma k_tokens L : keeps L (hop alloc (fun o => match o with Some id => [Got FromMalloc id] | None => [] end))
  (fun o L' => match o with Some id => L' = id :: L | None => L' = L end).
Proof.
  apply (k_obtain L _ _ FromMalloc). intros w. rewrite alloc_eq. destruct (w_alloc w (w_next w)); [left|right]; eexists; split; try reflexivity; split; reflexivity.
Qed.

(** Releasing a block. *)
Lemma k_release L id (m : M unit) h c :
  (forall w u w', m w = Ret u w' -> w_live w id = true /\ w' = w_free w id) ->
  keeps (id :: L) (hop m (fun _ => [Gone h id c])) (fun _ L' => L' = L).
Proof.
  intros Hm w (W & D & X & Lv). unfold hop. destruct (m w) as [u w1|u] eqn:E; cbn [fst snd]; [|split; [apply in_life_nil|discriminate]].
  apply Hm in E as [El ->]. split; [apply in_life_one; exact El|]. intros u' w' K. inversion K; subst. split.
  { intros i. cbn. unfold upd_live. rewrite Nat.eqb_sym. reflexivity. }
  exists L. split; [|reflexivity]. inversion D; subst. split; [apply wf_free; exact W|]. split; [assumption|].
  split; [intros i Hi; apply X; cbn; auto|]. intros i Hi. cbn. unfold upd_live. destruct (Nat.eqb_spec i id) as [->|].
  - exfalso. destruct Hi as [Hi|Hi]; [|contradiction]. apply (X id); cbn; auto.
  - apply Lv. cbn. tauto.
Qed.
Lemma k_free_id L id h c : keeps (id :: L) (hop (free_id id) (fun _ => [Gone h id c])) (fun _ L' => L' = L).
Proof. apply k_release. intros w u w' E. apply free_id_inv in E. exact E. Qed.
Lemma k_free_ev L q (ev : ptr -> list hevent) :
  (forall id m, q = Ptr (Some id) m -> exists h c, ev q = [Gone h id c]) -> (blk_of q = None -> ev q = []) ->
  keeps (at_ q ++ L) (hop (free q) (fun _ => ev q)) (fun _ L' => L' = L).
Proof.
  intros He Hn. destruct q as [|[id|] m].
  - rewrite Hn by reflexivity. intros w Hv. unfold hop. cbn. split; [apply in_life_nil|]. intros a w' E. inversion E; subst. split; [reflexivity|].
    exists L. auto.
  - destruct (He id m eq_refl) as (h & c & ->). cbn [at_ blk_of opt_at app]. apply k_release. intros w u w' E. cbn [free] in E. apply free_id_inv in E. exact E.
  - intros w Hv. unfold hop. cbn. split; [apply in_life_nil|discriminate].
Qed.
Lemma k_free L q : keeps (at_ q ++ L) (hfree q) (fun _ L' => L' = L).
Proof.
  apply (k_free_ev L q (gone ByFree)); [intros id m ->; cbn; eauto|]. destruct q as [|[?|] ?]; [reflexivity|discriminate|reflexivity].
Qed.
Lemma k_free_untold L q : keeps (at_ q ++ L) (hfree_untold q) (fun _ L' => L' = L).
Proof.
  apply (k_free_ev L q (gone_untold ByFree)); [intros id m ->; cbn; eauto|]. destruct q as [|[?|] ?]; [reflexivity|discriminate|reflexivity].
Qed.
Lemma k_cb_free L (b : chillbuff byte) : keeps (cb_id b :: L) (hcb_free b) (fun _ L' => L' = L).
Proof. apply k_free_id. Qed.
End Rules.
