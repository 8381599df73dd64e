(** * How the tokens of an arbitrary text lie: in order of their start, disjoint or nested *)
From Verif Require Import Base BaseProofs Jsmn SpecJwa JsmnProofs.
From Coq Require Import ZifyBool ZifyNat ZifyN.
Ltac Zify.zify_post_hook ::= Z.div_mod_to_equations.

Definition container (t : tok) : Prop := t_type t = JObject \/ t_type t = JArray.
(** A token when the first [n] bytes have been read; still open tokens have the end -1. *)
Definition tok_at_pos (n : Z) (t : tok) : Prop :=
  (0 <= t_start t < n)%Z /\ ((t_end t = (-1)%Z /\ container t) \/ (t_start t <= t_end t <= n)%Z).
(** [a] comes before [b] in the list. *)
Definition before (a b : tok) : Prop :=
  (t_start a < t_start b)%Z
  /\ (t_end a = (-1)%Z \/ (t_end a <= t_start b)%Z
      \/ (container a /\ t_end b <> (-1)%Z /\ (t_end b <= t_end a)%Z)).
(** The invariant of jsmn_parse; the list is newest first. *)
Definition laid_out (n : Z) (l : list tok) : Prop :=
  Forall (tok_at_pos n) l /\ ForallOrdPairs (fun b a => before a b) l.

Lemma laid_out_le n m l : (n <= m)%Z -> laid_out n l -> laid_out m l.
Proof.
  intros H [F P]. split; [|exact P]. eapply Forall_impl; [|exact F]. intros t (A & B). split; [lia|].
  destruct B as [B|B]; [left; exact B|right; lia].
Qed.

Lemma laid_out_push n m l t : (0 <= n)%Z -> laid_out n l -> (n <= t_start t < m)%Z ->
  ((t_end t = (-1)%Z /\ container t) \/ (t_start t <= t_end t <= m)%Z) -> laid_out m (t :: l).
Proof.
  intros H0 [F P] Hs Ht. split.
  - constructor; [split; [lia|exact Ht]|]. apply (laid_out_le n m l); [lia|]. split; assumption.
  - constructor; [|exact P]. eapply Forall_impl; [|exact F]. intros a (A & B). split; [lia|].
    destruct B as [[B _]|B]; [left; exact B|right; left; lia].
Qed.

Lemma close_last_split ty n l : forall l', close_last ty n l = Some l' ->
  exists newer t older, l = newer ++ t :: older /\ Forall (fun x => tok_open x = false) newer /\ tok_open t = true
    /\ l' = newer ++ Tok (t_type t) (t_start t) n :: older.
Proof.
  induction l as [|x r IH]; intros l' H; [discriminate|]. cbn [close_last] in H. destruct (tok_open x) eqn:Eo.
  - destruct (jtype_eqb _ _); [|discriminate]. inversion H; subst. exists [], x, r. auto.
  - destruct (close_last ty n r) as [r'|]; [|discriminate]. inversion H; subst.
    destruct (IH r' eq_refl) as (a & t & b & -> & F & Ho & ->). exists (x :: a), t, b.
    split; [reflexivity|]. split; [constructor; assumption|]. split; [exact Ho|reflexivity].
Qed.

Lemma pairs_app {A} (R : A -> A -> Prop) l1 l2 :
  ForallOrdPairs R (l1 ++ l2) <-> ForallOrdPairs R l1 /\ ForallOrdPairs R l2 /\ Forall (fun x => Forall (R x) l2) l1.
Proof.
  induction l1 as [|x l1 IH]; cbn [app].
  - split; [intros H; repeat split; auto; constructor|intros (_ & H & _); exact H].
  - split.
    + intros H. inversion H as [|? ? Hx Hr]; subst. apply IH in Hr as (A1 & A2 & A3).
      apply Forall_app in Hx as [X1 X2]. repeat split; auto; constructor; auto.
    + intros (A1 & A2 & A3). inversion A1; subst. inversion A3; subst. constructor; [apply Forall_app; auto|].
      apply IH. auto.
Qed.

Lemma laid_out_close ty n l l' : laid_out n l -> close_last ty (n + 1) l = Some l' -> laid_out (n + 1) l'.
Proof.
  intros [F P] H. apply close_last_split in H as (newer & t & older & -> & Fn & Ho & ->).
  apply Forall_app in F as [F1 F2]. inversion F2 as [|? ? [T1 T2] F3]; subst.
  apply pairs_app in P as (P1 & P2 & P3). inversion P2 as [|? ? Pt P4]; subst.
  assert (Te : t_end t = (-1)%Z) by (unfold tok_open in Ho; lia).
  destruct T2 as [[_ Tc]|T2]; [|lia].
  assert (W : forall l, Forall (tok_at_pos n) l -> Forall (tok_at_pos (n + 1)) l).
  { intros l Hl. eapply Forall_impl; [|exact Hl]. intros x (A & B). split; [lia|]. destruct B; [left; assumption|right; lia]. }
  split.
  - apply Forall_app. split; [apply W; exact F1|]. constructor; [|apply W; exact F3].
    split; cbn [t_start t_end]; [lia|right; lia].
  - apply pairs_app. split; [exact P1|]. split.
    + constructor; [|exact P4]. eapply Forall_impl; [|exact Pt]. intros a (A & B). split; [exact A|].
      cbn [t_start t_end]. destruct B as [B|[B|(_ & B & _)]]; [left; exact B|right; left; exact B|contradiction].
    + rewrite Forall_forall in *. intros b Hb. specialize (P3 b Hb). inversion P3 as [|? ? [Q1 Q2] P5]; subst.
      constructor; [|exact P5]. split; [exact Q1|]. right. right. cbn [t_end]. split; [exact Tc|].
      specialize (F1 b Hb). specialize (Fn b Hb). unfold tok_open in Fn. destruct F1 as (A & B). lia.
Qed.

Lemma jmain_laid_out cap f : forall rest pos toks count r toks',
  jmain f (Some cap) rest pos toks count = (r, toks') -> (0 <= r)%Z -> (0 <= pos)%Z -> laid_out pos toks ->
  exists n, laid_out n toks'.
Proof.
  induction f as [|f IH]; intros rest pos toks count r toks' H Hr Hp Ht.
  { inversion H; subst. exists pos. exact Ht. }
  destruct rest as [|c t]; [cbn [jmain] in H; inversion H; subst; exists pos; exact Ht|].
  rewrite jmain_step in H.
  destruct (is_nul c) eqn:Ec; [inversion H; subst; exists pos; exact Ht|].
  destruct (opens c) eqn:Eo.
  { unfold push_tok in H. destruct (Z.ltb_spec (Z.of_nat (length toks)) cap); [|inversion H; subst; exists pos; exact Ht].
    eapply IH; [exact H|exact Hr|lia|]. apply (laid_out_push pos); [exact Hp|exact Ht|cbn [t_start]; lia|].
    left. cbn [t_end]. split; [reflexivity|]. unfold container. cbn [t_type]. destruct (Byte.eqb c x7b); auto. }
  destruct (closes c) eqn:Ek.
  { destruct (close_last _ _ _) as [toks1|] eqn:E; [|inversion H; subst; exists pos; exact Ht].
    eapply IH; [exact H|exact Hr|lia|]. eapply laid_out_close; eauto. }
  destruct (Byte.eqb c x22) eqn:Eq.
  { destruct (jstr 0 t 0) as [er|n r1] eqn:E; [inversion H; subst; exists pos; exact Ht|].
    apply jstr_found in E as (body & -> & -> & Hn).
    unfold push_tok in H. destruct (Z.ltb_spec (Z.of_nat (length toks)) cap); [|inversion H; subst; exists pos; exact Ht].
    eapply IH; [exact H|exact Hr|lia|]. apply (laid_out_push pos); [exact Hp|exact Ht|cbn [t_start]; lia|].
    right. cbn [t_start t_end]. lia. }
  destruct (blank c) eqn:Ebl.
  { eapply IH; [exact H|exact Hr|lia|]. eapply laid_out_le; [|exact Ht]. lia. }
  destruct (jprim (c :: t) 0) as [er|n r1] eqn:E; [inversion H; subst; exists pos; exact Ht|].
  pose proof (jprim_nonempty c t n r1 Ec (not_blank_prim c Ec Eo Ek Eq Ebl) E) as Hpos.
  unfold push_tok in H. destruct (Z.ltb_spec (Z.of_nat (length toks)) cap); [|inversion H; subst; exists pos; exact Ht].
  eapply IH; [exact H|exact Hr|lia|]. apply (laid_out_push pos); [exact Hp|exact Ht|cbn [t_start]; lia|].
  right. cbn [t_start t_end]. lia.
Qed.

(** Tokens of a successful run: a later token starts behind an earlier one; it lies behind it or
    inside it, the latter only if the earlier one is an object or array. *)
Definition behind_or_inside (a b : tok) : Prop :=
  (t_start a < t_start b)%Z /\ ((t_end a <= t_start b)%Z \/ (container a /\ (t_end b <= t_end a)%Z)).

Lemma jsmn_nested js cap r toks :
  jsmn_parse js (Some cap) = (r, toks) -> (0 <= r)%Z -> ForallOrdPairs behind_or_inside toks.
Proof.
  unfold jsmn_parse. destruct (jmain (S (length js)) (Some cap) js 0 [] 0) as [r1 toks1] eqn:E.
  destruct (Z.ltb_spec r1 0) as [Hr|Hr]; [intros H; inversion H; subst; lia|].
  destruct (existsb tok_open toks1) eqn:Eo; [intros H; inversion H; subst; vm_compute; congruence|].
  intros H _. inversion H; subst.
  apply jmain_laid_out in E as (n & F & P); [|exact Hr|lia|split; constructor].
  assert (C : Forall (fun t => t_end t <> (-1)%Z) toks1).
  { rewrite Forall_forall in *. intros t Ht E1.
    assert (existsb tok_open toks1 = true); [|congruence]. apply existsb_exists. exists t. split; [exact Ht|].
    destruct (F t Ht) as [A _]. unfold tok_open. rewrite E1. lia. }
  clear - P C. induction P as [|b l Hb P IH]; [constructor|]. inversion C as [|? ? Cb Cl]; subst. cbn [rev].
  apply pairs_app. split; [apply IH; exact Cl|]. split; [repeat constructor|].
  apply Forall_rev. rewrite Forall_forall in *. intros a Ha. constructor; [|constructor].
  destruct (Hb a Ha) as (A & B). split; [exact A|].
  destruct B as [B|[B|(B1 & _ & B2)]]; [exfalso; exact (Cl a Ha B)|left; exact B|right; auto].
Qed.

(** There are at most as many tokens as bytes. *)
Lemma jmain_at_most cap f : forall rest pos toks count r toks',
  jmain f cap rest pos toks count = (r, toks') -> (0 <= count)%Z -> (r <= count + Z.of_nat (length rest))%Z.
Proof.
  induction f as [|f IH]; intros rest pos toks count r toks' H Hc.
  { inversion H; subst. unfold JSMN_ERROR_PART. lia. }
  destruct rest as [|c t]; [cbn [jmain] in H; inversion H; subst; lia|].
  rewrite jmain_step in H. cbn [length].
  destruct (is_nul c) eqn:Ec; [inversion H; subst; lia|].
  assert (P : forall tk rest' pos', (length rest' <= length t)%nat ->
    match push_tok cap toks tk with
    | None => (JSMN_ERROR_NOMEM, toks) | Some toks' => jmain f cap rest' pos' toks' (count + 1) end = (r, toks') ->
    (r <= count + Z.of_nat (S (length t)))%Z).
  { intros tk rest' pos' Hl H'. destruct (push_tok cap toks tk); [|inversion H'; subst; unfold JSMN_ERROR_NOMEM; lia].
    apply IH in H'; lia. }
  destruct (opens c) eqn:Eo; [eapply (P _ t); [lia|exact H]|].
  destruct (closes c) eqn:Ek.
  { destruct cap; [|apply IH in H; lia].
    destruct (close_last _ _ _); [apply IH in H; lia|inversion H; subst; unfold JSMN_ERROR_INVAL; lia]. }
  destruct (Byte.eqb c x22) eqn:Eq.
  { destruct (jstr 0 t 0) as [er|n r1] eqn:E; [inversion H; subst; apply jstr_err in E; lia|].
    apply jstr_found in E as (body & -> & _ & _). eapply P; [|exact H]. rewrite app_length. cbn [length]. lia. }
  destruct (blank c) eqn:Ebl; [apply IH in H; lia|].
  destruct (jprim (c :: t) 0) as [er|n r1] eqn:E; [inversion H; subst; apply jprim_err in E; lia|].
  pose proof (jprim_nonempty c t n r1 Ec (not_blank_prim c Ec Eo Ek Eq Ebl) E) as Hpos.
  apply jprim_found in E as (body & E & -> & _). eapply P; [|exact H].
  apply (f_equal (@length byte)) in E. rewrite app_length in E. cbn [length] in E. lia.
Qed.
Lemma jsmn_at_most js cap : (fst (jsmn_parse js cap) <= Z.of_nat (length js))%Z.
Proof.
  unfold jsmn_parse. destruct (jmain _ _ _ _ _ _) as [r toks] eqn:E. apply jmain_at_most in E; [|lia].
  destruct (r <? 0)%Z eqn:Er; [cbn [fst]; lia|]. destruct cap; [|cbn [fst]; lia].
  destruct (existsb _ _); cbn [fst]; [unfold JSMN_ERROR_PART|]; lia.
Qed.
