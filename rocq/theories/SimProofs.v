(** * Two runs of the code from different heaps, step by step *)
From Verif Require Import Base BaseProofs HeapProofs Base64 Util Claim Jsmn Env Encode Decode UnescapeProofs.

Section Sim.
(** The two runs start with [b1], [b2] as next block and [q1], [q2] as next push. *)
Variables b1 b2 q1 q2 : nat.

Definition wsim (w w' : world) : Prop :=
  (exists k, w_next w = b1 + k /\ w_next w' = b2 + k)%nat
  /\ (exists k, w_pushes w = q1 + k /\ w_pushes w' = q2 + k)%nat
  /\ (forall i, w_alloc w (b1 + i)%nat = w_alloc w' (b2 + i)%nat)
  /\ (forall i, w_grow w (q1 + i)%nat = w_grow w' (q2 + i)%nat)
  /\ (forall i, w_live w (b1 + i)%nat = w_live w' (b2 + i)%nat).
Definition isim (i i' : nat) : Prop := exists k, i = (b1 + k)%nat /\ i' = (b2 + k)%nat.
Definition osim (o o' : option nat) : Prop :=
  match o, o' with None, None => True | Some i, Some i' => isim i i' | _, _ => False end.
Definition psim (p p' : ptr) : Prop :=
  match p, p' with Null, Null => True | Ptr o m, Ptr o' m' => osim o o' /\ m = m' | _, _ => False end.
(** Pointers to the same block, whose contents may differ. *)
Definition hsim (p p' : ptr) : Prop :=
  match p, p' with Null, Null => True | Ptr o _, Ptr o' _ => osim o o' | _, _ => False end.
Definition csim (c c' : claim) : Prop :=
  psim (c_key c) (c_key c') /\ c_key_length c = c_key_length c'
  /\ psim (c_value c) (c_value c') /\ c_value_length c = c_value_length c' /\ c_type c = c_type c'.
Definition bsim (b b' : chillbuff byte) : Prop := isim (cb_id b) (cb_id b') /\ cb_elems b = cb_elems b'.
Definition lsim (b b' : chillbuff claim) : Prop :=
  isim (cb_id b) (cb_id b') /\ Forall2 csim (cb_elems b) (cb_elems b').
Definition opt {A B} (R : A -> B -> Prop) (o : option A) (o' : option B) : Prop :=
  match o, o' with None, None => True | Some a, Some a' => R a a' | _, _ => False end.
Definition pair {A B C D} (R : A -> B -> Prop) (S : C -> D -> Prop) (x : A * C) (y : B * D) : Prop :=
  R (fst x) (fst y) /\ S (snd x) (snd y).

Definition rsim {A B} (R : A -> B -> Prop) (r : res A) (r' : res B) : Prop :=
  match r, r' with
  | Ret a w, Ret a' w' => R a a' /\ wsim w w'
  | Undef u, Undef u' => u = u'
  | _, _ => False
  end.
Definition msim {A B} (R : A -> B -> Prop) (m : M A) (m' : M B) : Prop :=
  forall w w', wsim w w' -> rsim R (m w) (m' w').

Lemma msim_ret {A B} (R : A -> B -> Prop) a a' : R a a' -> msim R (mret a) (mret a').
Proof. intros H w w' S. split; assumption. Qed.
Lemma msim_ub {A B} (R : A -> B -> Prop) u : msim R (mub u) (mub u).
Proof. intros w w' S. reflexivity. Qed.
Lemma msim_bind {A B C D} (R : A -> B -> Prop) (S : C -> D -> Prop) m m' k k' :
  msim R m m' -> (forall a a', R a a' -> msim S (k a) (k' a')) -> msim S (mbind m k) (mbind m' k').
Proof.
  intros H K w w' W. unfold mbind. specialize (H w w' W).
  destruct (m w), (m' w'); cbn in H; try contradiction; [|exact H].
  destruct H as [H1 H2]. exact (K _ _ H1 _ _ H2).
Qed.
Lemma msim_lift {A} (u : U A) : msim eq (lift u) (lift u).
Proof. intros w w' S. unfold lift. destruct u; cbn; auto. Qed.
Lemma msim_conseq {A B} (R R' : A -> B -> Prop) m m' : msim R m m' -> (forall a b, R a b -> R' a b) -> msim R' m m'.
Proof.
  intros H K w w' W. specialize (H w w' W). destruct (m w), (m' w'); cbn in *; auto.
  destruct H; split; auto.
Qed.
(** Binding the same undefined-or-value step on both sides. *)
Lemma msim_lift_bind {A C D} (S : C -> D -> Prop) (u : U A) k k' :
  (forall a, u = OK a -> msim S (k a) (k' a)) -> msim S (mbind (lift u) k) (mbind (lift u) k').
Proof.
  intros K w w' W. unfold mbind, lift. destruct u; cbn; [|reflexivity]. apply K; auto.
Qed.

(** ** Primitives *)
Lemma msim_alloc : msim (opt isim) alloc alloc.
Proof.
  intros w w' (N & P & A & G & L). pose proof N as (k & N1 & N2). rewrite !alloc_eq, N1, N2, (A k).
  destruct (w_alloc w' (b2 + k)); (split; [cbn; try exists k; auto|]).
  - unfold w_ok. split; [exists (S k); cbn; lia|]. split; [exact P|]. split; [exact A|]. split; [exact G|].
    intros i. cbn. rewrite N1, N2. unfold upd_live.
    destruct (Nat.eqb_spec (b1 + i) (b1 + k)), (Nat.eqb_spec (b2 + i) (b2 + k)); try lia; auto.
  - unfold w_no. split; [exists (S k); cbn; lia|]. split; [exact P|]. auto.
Qed.
Lemma msim_calloc n : msim psim (calloc n) (calloc n).
Proof.
  eapply msim_bind; [apply msim_alloc|]. intros [i|] [i'|] H; cbn in H; try contradiction; apply msim_ret; cbn; auto.
Qed.
Lemma msim_cb_init {A} : msim (opt (fun (x y : chillbuff A) => isim (cb_id x) (cb_id y) /\ cb_elems x = [] /\ cb_elems y = []))
  (cb_init A) (cb_init A).
Proof.
  eapply msim_bind; [apply msim_alloc|]. intros [i|] [i'|] H; cbn in H; try contradiction; apply msim_ret; cbn; auto.
Qed.
Lemma msim_malloc n : msim (fun p p' => hsim p p'
    /\ forall o m o' m', p = Ptr o m -> p' = Ptr o' m' -> length m = N.to_nat n /\ length m' = N.to_nat n)
  (malloc n) (malloc n).
Proof.
  intros w w' W. pose proof (msim_alloc w w' W) as H. unfold malloc.
  destruct (alloc w) as [[i|] wa|u], (alloc w') as [[i'|] wa'|u']; cbn in H; try tauto.
  - destruct H as [H1 H2]. split; [|exact H2]. split; [exact H1|]. intros o m o' m' E E'. inversion E; inversion E'; subst.
    rewrite !junk_length. auto.
  - destruct H as [_ H]. split; [|exact H]. split; [exact I|discriminate].
Qed.
Lemma msim_free_id i i' : isim i i' -> msim eq (free_id i) (free_id i').
Proof.
  intros (k & -> & ->) w w' (N & P & A & G & L). unfold free_id. rewrite (L k).
  destruct (w_live w' (b2 + k)); [|reflexivity]. split; [reflexivity|].
  split; [exact N|]. split; [exact P|]. split; [exact A|]. split; [exact G|]. intros i. cbn. unfold upd_live.
  destruct (Nat.eqb_spec (b1 + i) (b1 + k)), (Nat.eqb_spec (b2 + i) (b2 + k)); try lia; auto.
Qed.
Lemma msim_free p p' : hsim p p' -> msim eq (free p) (free p').
Proof.
  destruct p as [|[i|] m], p' as [|[i'|] m']; cbn; try contradiction; intros H.
  - apply msim_ret. reflexivity.
  - apply msim_free_id. exact H.
  - apply msim_ub.
Qed.
Lemma psim_hsim p p' : psim p p' -> hsim p p'.
Proof. destruct p, p'; cbn; tauto. Qed.
Lemma msim_zeroize p p' n : psim p p' -> msim eq (zeroize p n) (zeroize p' n).
Proof.
  intros H w w' W. pose proof W as (N & P & A & G & L).
  destruct p as [|o m], p' as [|o' m']; cbn in H; try contradiction.
  - cbn. destruct (n =? 0)%N; cbn; auto.
  - destruct H as [H <-]. cbn. destruct (negb _); [reflexivity|].
    destruct o as [i|], o' as [i'|]; cbn in H; try contradiction.
    + destruct H as (k & -> & ->). rewrite (L k). destruct (w_live w' _); cbn; auto.
    + cbn; auto.
Qed.
Lemma msim_push b b' e : bsim b b' -> msim bsim (cb_push b e) (cb_push b' e).
Proof.
  intros [H1 H2] w w' (N & P & A & G & L). pose proof P as (k & P1 & P2). rewrite !cb_push_eq, P1, P2, (G k).
  assert (W : wsim (w_push w) (w_push w')).
  { split; [exact N|]. split; [exists (S k); cbn; lia|]. auto. }
  destruct (w_grow w' _); cbn; (split; [split; cbn; congruence||assumption|exact W]).
Qed.
Lemma msim_push_claim b b' c c' : lsim b b' -> csim c c' -> msim lsim (cb_push b [c]) (cb_push b' [c']).
Proof.
  intros [H1 H2] Hc w w' (N & P & A & G & L). pose proof P as (k & P1 & P2). rewrite !cb_push_eq, P1, P2, (G k).
  assert (W : wsim (w_push w) (w_push w')).
  { split; [exact N|]. split; [exists (S k); cbn; lia|]. auto. }
  destruct (w_grow w' _); cbn; (split; [split; [exact H1|]|exact W]); [|exact H2].
  apply Forall2_app; auto.
Qed.
Lemma psim_deref p p' : psim p p' -> deref p = deref p'.
Proof. destruct p, p'; cbn; try tauto. intros [_ ->]. reflexivity. Qed.
Lemma psim_null p p' : hsim p p' -> is_null p = is_null p'.
Proof. destruct p, p'; cbn; tauto. Qed.

(** ** base64 *)
Definition cusim (c c' : cursor) : Prop := c_done c = c_done c' /\ length (c_rest c) = length (c_rest c').
Definition usim {A B} (R : A -> B -> Prop) (u : U A) (u' : U B) : Prop :=
  match u, u' with OK a, OK a' => R a a' | KO x, KO x' => x = x' | _, _ => False end.
Lemma usim_bind {A B C D} (R : A -> B -> Prop) (S : C -> D -> Prop) m m' k k' :
  usim R m m' -> (forall a a', R a a' -> usim S (k a) (k' a')) -> usim S (ubind m k) (ubind m' k').
Proof. intros H K. destruct m, m'; cbn in *; try contradiction; auto. Qed.
Lemma usim_same {A B C} (S : B -> C -> Prop) (m : U A) k k' :
  (forall a, usim S (k a) (k' a)) -> usim S (ubind m k) (ubind m k').
Proof. intros K. destruct m; cbn; auto. Qed.
Lemma usim_put c c' x : cusim c c' -> usim cusim (cur_put c x) (cur_put c' x).
Proof.
  intros [H1 H2]. unfold cur_put. destruct (c_rest c), (c_rest c'); cbn in *; try discriminate; [reflexivity|].
  split; cbn; congruence.
Qed.
Lemma usim_set c c' x : cusim c c' -> usim cusim (cur_set c x) (cur_set c' x).
Proof.
  intros [H1 H2]. unfold cur_set. destruct (c_rest c), (c_rest c'); cbn in *; try discriminate; [reflexivity|].
  split; cbn; congruence.
Qed.
Lemma usim_tab t c c' i : cusim c c' -> usim cusim (put_tab t c i) (put_tab t c' i).
Proof. intros H. apply usim_same. intros x. apply usim_put. exact H. Qed.
Lemma enc_groups_sim url t data : forall ll c c', cusim c c' ->
  usim (pair eq cusim) (enc_groups url t data ll c) (enc_groups url t data ll c').
Proof.
  induction data as [data IH] using (well_founded_induction (well_founded_ltof _ (@length byte))).
  intros ll c c' H. destruct data as [|a [|b [|d rest]]]; try (split; [reflexivity|exact H]).
  cbn [enc_groups]. cbv zeta.
  do 4 (eapply usim_bind; [apply usim_tab; eassumption|]; clear c c' H; intros c c' H).
  apply usim_same. intros l2. destruct (_ && _).
  - eapply usim_bind; [apply usim_put; eassumption|]. intros c2 c2' H2. apply IH; [unfold ltof; cbn; lia|exact H2].
  - apply IH; [unfold ltof; cbn; lia|exact H].
Qed.
Lemma enc_tail_sim url t rest ll c c' : cusim c c' ->
  usim (pair eq cusim) (enc_tail url t rest ll c) (enc_tail url t rest ll c').
Proof.
  intros H. destruct rest as [|a r]; [split; [reflexivity|exact H]|]. cbn [enc_tail]. cbv zeta.
  eapply usim_bind; [apply usim_tab; eassumption|]. clear c c' H. intros c c' H.
  eapply usim_bind with (R := pair cusim eq).
  - destruct r as [|b r].
    + eapply usim_bind; [apply usim_tab; eassumption|]. clear c c' H. intros c c' H.
      eapply usim_bind; [apply usim_put; eassumption|]. clear c c' H. intros c c' H. split; [exact H|reflexivity].
    + do 2 (eapply usim_bind; [apply usim_tab; eassumption|]; clear c c' H; intros c c' H). split; [exact H|reflexivity].
  - intros [c2 s2] [c2' s2'] [H2 H3]. cbn in H2, H3. subst s2'.
    eapply usim_bind; [apply usim_put; eassumption|]. intros c3 c3' H4. apply usim_same. intros l2.
    split; [reflexivity|exact H4].
Qed.
(** The fresh buffer's contents do not show in the text written. *)
Lemma enc_fill_sim url data m m' : length m = length m' ->
  usim (fun x y => snd x = snd y /\ firstn (N.to_nat (snd x) + 1) (fst x) = firstn (N.to_nat (snd y) + 1) (fst y)
                   /\ length (fst x) = length (fst y))
    (enc_fill url data m) (enc_fill url data m').
Proof.
  intros L. unfold enc_fill. cbv zeta.
  eapply usim_bind; [apply enc_groups_sim; split; [reflexivity|exact L]|].
  intros [[r l] c] [[r' l'] c'] [E H]. cbn in E, H. inversion E; subst r' l'.
  eapply usim_bind; [apply enc_tail_sim; exact H|]. clear l r c c' E H.
  intros [[l s] c] [[l' s'] c'] [E H]. cbn in E, H. inversion E; subst l' s'.
  eapply usim_bind with (R := cusim).
  { destruct (_ && _); [apply usim_put; exact H|exact H]. }
  clear c c' E H. intros c c' [H1 H2].
  unfold cur_set. destruct (c_rest c) as [|x t], (c_rest c') as [|x' t']; cbn [length] in H2; try discriminate; [reflexivity|].
  cbn [ubind usim]. unfold cur_buf, cur_off. cbn [c_done c_rest fst snd]. rewrite <- H1. split; [reflexivity|].
  rewrite !app_length. cbn [length]. split; [|lia].
  assert (Z : forall t'', firstn (N.to_nat (N.of_nat (length (c_done c)) - s) + 1) (rev (c_done c) ++ x00 :: t'')
    = firstn (N.to_nat (N.of_nat (length (c_done c)) - s) + 1) (rev (c_done c) ++ [x00])).
  { intros t''. set (k := (N.to_nat _ + 1)%nat). assert (k <= S (length (c_done c)))%nat by (unfold k; lia).
    rewrite !firstn_app, !rev_length. f_equal. destruct (k - length (c_done c))%nat as [|[|]] eqn:E; try reflexivity. lia. }
  rewrite (Z t), (Z t'). reflexivity.
Qed.

(** A text in a fresh block: same length stored, same bytes up to and including the NUL. *)
Definition tsim (r r' : b64res) : Prop :=
  b_rc r = b_rc r' /\ b_len r = b_len r' /\ opt hsim (b_out r) (b_out r')
  /\ forall n o m o' m', b_len r = Some n -> b_out r = Some (Ptr o m) -> b_out r' = Some (Ptr o' m') ->
       firstn (N.to_nat n + 1) m = firstn (N.to_nat n + 1) m' /\ length m = length m'.
Lemma base64_encode_sim p url d d' n a b : deref d = deref d' -> is_null d = is_null d' ->
  msim tsim (l8w8jwt_base64_encode p url d n a b) (l8w8jwt_base64_encode p url d' n a b).
Proof.
  intros Hd Hn. unfold l8w8jwt_base64_encode. rewrite Hn, Hd. cbv zeta.
  assert (T : forall rc o, msim tsim (mret (B64 rc o None)) (mret (B64 rc o None)) \/ o <> None).
  { intros rc [o|]; [right; discriminate|left]. apply msim_ret. repeat split; discriminate. }
  destruct (_ || _); [destruct (T L8W8JWT_NULL_ARG None); [assumption|congruence]|].
  destruct (n =? 0)%N; [destruct (T L8W8JWT_INVALID_ARG None); [assumption|congruence]|].
  destruct (_ <? _)%N; [destruct (T L8W8JWT_OVERFLOW None); [assumption|congruence]|].
  eapply msim_bind; [apply msim_malloc|]. intros [|o m] [|o' m'] [H L]; cbn in H; try contradiction.
  { apply msim_ret. repeat split; discriminate. }
  destruct (L _ _ _ _ eq_refl eq_refl) as [L1 L2].
  apply msim_lift_bind. intros mem _. apply msim_lift_bind. intros s _.
  pose proof (enc_fill_sim url s m m' ltac:(congruence)) as F. intros w w' W. unfold mbind, lift.
  destruct (enc_fill url s m) as [[t k]|u], (enc_fill url s m') as [[t' k']|u']; cbn in F; try contradiction; [|exact F].
  destruct F as (<- & F & F2). cbn. split; [|exact W]. split; [reflexivity|]. split; [reflexivity|]. split; [exact H|].
  intros x y z y' z' E1 E2 E3. cbn in *. inversion E1; inversion E2; inversion E3; subst. auto.
Qed.
Definition dsim (r r' : b64res) : Prop :=
  b_rc r = b_rc r' /\ b_len r = b_len r' /\ opt psim (b_out r) (b_out r').
Lemma base64_decode_sim url d n a b :
  msim dsim (l8w8jwt_base64_decode url d n a b) (l8w8jwt_base64_decode url d n a b).
Proof.
  unfold l8w8jwt_base64_decode. cbv zeta.
  destruct (_ || _); [apply msim_ret; repeat split|]. destruct (n =? 0)%N; [apply msim_ret; repeat split|].
  apply msim_lift_bind. intros mem _. apply msim_lift_bind. intros l _. apply msim_lift_bind. intros inp _.
  destruct (_ || _); [apply msim_ret; repeat split|].
  eapply msim_bind; [apply msim_calloc|]. intros [|o m] [|o' m'] H; cbn in H; try contradiction.
  { apply msim_ret. repeat split. }
  destruct H as [H <-]. apply msim_lift_bind. intros [c|] _.
  - apply msim_ret. repeat split. exact H.
  - eapply msim_bind; [apply msim_free; exact H|]. intros _ _ _. apply msim_ret. repeat split.
Qed.

(** ** Claims *)
Lemma free_each_sim cs : forall cs' n, Forall2 csim cs cs' -> msim eq (free_each cs n) (free_each cs' n).
Proof.
  induction cs as [|c cs IH]; intros cs' n H; inversion H as [|? c' ? t' (K1 & K2 & K3 & K4 & K5) Ht]; subst; cbn [free_each].
  - destruct (n =? 0)%N; [apply msim_ret; reflexivity|apply msim_ub].
  - destruct (n =? 0)%N; [apply msim_ret; reflexivity|]. rewrite K2, K4.
    eapply msim_bind; [apply msim_zeroize; exact K1|]. intros _ _ _.
    eapply msim_bind; [apply msim_zeroize; exact K3|]. intros _ _ _.
    eapply msim_bind; [apply msim_free, psim_hsim; exact K1|]. intros _ _ _.
    eapply msim_bind; [apply msim_free, psim_hsim; exact K3|]. intros _ _ _. apply IH. exact Ht.
Qed.
Lemma Forall2_len {A B} (R : A -> B -> Prop) l l' : Forall2 R l l' -> length l = length l'.
Proof. induction 1; cbn; congruence. Qed.
Lemma free_claims_buffer_sim p b b' : opt lsim b b' -> msim eq (free_claims_buffer p b) (free_claims_buffer p b').
Proof.
  destruct b as [b|], b' as [b'|]; cbn; try contradiction; intros H.
  - destruct H as [H1 H2]. unfold cb_len. rewrite (Forall2_len _ _ _ H2).
    eapply msim_bind; [apply free_each_sim; exact H2|]. intros _ _ _. apply msim_free_id. exact H1.
  - destruct (p_cb_init_clears p); [apply msim_ret; reflexivity|apply msim_ub].
Qed.
Lemma escape_each_sim p s : forall b b', bsim b b' -> msim bsim (escape_each p b s) (escape_each p b' s).
Proof.
  induction s as [|c s IH]; intros b b' H; cbn [escape_each]; [apply msim_ret; exact H|].
  apply msim_lift_bind. intros x _. eapply msim_bind; [apply msim_push; exact H|]. exact IH.
Qed.
Lemma escape_sim p b b' s n : bsim b b' ->
  msim bsim (l8w8jwt_escape_claim_string p b s n) (l8w8jwt_escape_claim_string p b' s n).
Proof.
  intros H. unfold l8w8jwt_escape_claim_string. destruct (n =? 0)%N; [apply msim_ret; exact H|].
  apply msim_lift_bind. intros m _. apply msim_lift_bind. intros x _. apply escape_each_sim. exact H.
Qed.
Lemma bsim_clear b b' : bsim b b' -> bsim (cb_clear b) (cb_clear b').
Proof. intros [H _]. split; [exact H|reflexivity]. Qed.
Lemma write_each_sim p cs : forall sb sb' eb eb' n first, bsim sb sb' -> bsim eb eb' ->
  msim bsim (write_each p sb eb cs n first) (write_each p sb' eb' cs n first).
Proof.
  induction cs as [|c cs IH]; intros sb sb' eb eb' n first Hs He; cbn [write_each].
  { destruct (n =? 0)%N; [apply msim_ret; exact Hs|apply msim_ub]. }
  destruct (n =? 0)%N; [apply msim_ret; exact Hs|]. destruct (is_null (c_key c)); [apply IH; assumption|].
  eapply msim_bind with (R := bsim); [destruct first; [apply msim_ret; exact Hs|apply msim_push; exact Hs]|].
  clear sb sb' Hs. intros sb sb' Hs.
  apply msim_lift_bind. intros kl _. apply msim_lift_bind. intros vl _.
  eapply msim_bind; [apply escape_sim, bsim_clear; exact He|]. clear eb eb' He. intros eb eb' He.
  eapply msim_bind; [apply msim_push; exact Hs|]. clear sb sb' Hs. intros sb sb' Hs.
  rewrite <- (proj2 He).
  eapply msim_bind; [apply msim_push; exact Hs|]. clear sb sb' Hs. intros sb sb' Hs.
  eapply msim_bind; [apply msim_push; exact Hs|]. clear sb sb' Hs. intros sb sb' Hs.
  eapply msim_bind with (R := pair bsim bsim).
  - destruct (c_type c =? _)%Z.
    + eapply msim_bind; [apply msim_push; exact Hs|]. clear sb sb' Hs. intros sb sb' Hs.
      eapply msim_bind; [apply escape_sim, bsim_clear; exact He|]. clear eb eb' He. intros eb eb' He.
      rewrite <- (proj2 He).
      eapply msim_bind; [apply msim_push; exact Hs|]. clear sb sb' Hs. intros sb sb' Hs.
      eapply msim_bind; [apply msim_push; exact Hs|]. clear sb sb' Hs. intros sb sb' Hs.
      apply msim_ret. split; assumption.
    + destruct (vl =? 0)%N; [apply msim_ret; split; assumption|].
      apply msim_lift_bind. intros m _. apply msim_lift_bind. intros v _.
      eapply msim_bind; [apply msim_push; exact Hs|]. clear sb sb' Hs. intros sb sb' Hs.
      apply msim_ret. split; assumption.
  - intros [s1 e1] [s2 e2] [H1 H2]. apply IH; assumption.
Qed.
Lemma write_claims_sim p sb sb' cs n : bsim sb sb' ->
  msim (pair eq bsim) (l8w8jwt_write_claims p sb cs n) (l8w8jwt_write_claims p sb' cs n).
Proof.
  intros H. destruct cs as [|blk cs]; cbn; [apply msim_ret; split; [reflexivity|exact H]|].
  destruct (n =? 0)%N; [apply msim_ret; split; [reflexivity|exact H]|].
  eapply msim_bind; [apply msim_cb_init|]. intros [eb|] [eb'|] He; cbn in He; try contradiction.
  - destruct He as (He & E1 & E2).
    assert (Hb : bsim eb eb') by (split; congruence).
    eapply msim_bind; [apply write_each_sim; [exact H|exact Hb]|].
    intros s1 s2 Hs. eapply msim_bind; [apply msim_free_id; exact He|]. intros _ _ _. apply msim_ret. split; [reflexivity|exact Hs].
  - apply msim_ret. split; [reflexivity|exact H].
Qed.

(** ** Encoding *)
Definition esim (x x' : Z * ptr * bytes) : Prop :=
  fst (fst x) = fst (fst x') /\ hsim (snd (fst x)) (snd (fst x')) /\ snd x = snd x'.
Lemma take_prefix (m m' : bytes) n : firstn (N.to_nat n + 1) m = firstn (N.to_nat n + 1) m' -> length m = length m' ->
  take m n = take m' n.
Proof.
  intros H L. unfold take. rewrite L. destruct (_ <=? _)%N; [|reflexivity]. f_equal.
  apply (f_equal (firstn (N.to_nat n))) in H. rewrite !firstn_firstn in H.
  replace (Nat.min (N.to_nat n) (N.to_nat n + 1)) with (N.to_nat n) in H by lia. exact H.
Qed.
Lemma encode_segment_sim p d d' n : deref d = deref d' -> is_null d = is_null d' ->
  msim esim (encode_segment p d n) (encode_segment p d' n).
Proof.
  intros Hd Hn. unfold encode_segment. eapply msim_bind; [apply base64_encode_sim; assumption|].
  intros [rc o l] [rc' o' l'] (E1 & E2 & E3 & E4). cbn [b_rc b_len b_out] in *. subst rc' l'.
  destruct (negb _); [apply msim_ret; repeat split|].
  destruct o as [q|], o' as [q'|]; cbn in E3; try contradiction; [|apply msim_ub].
  destruct l as [l|]; [|apply msim_ub].
  destruct q as [|o m], q' as [|o' m']; cbn in E3; try contradiction.
  { apply msim_lift_bind. discriminate. }
  destruct (E4 _ _ _ _ _ eq_refl eq_refl eq_refl) as [F1 F2].
  cbn [deref]. intros w w' W. unfold mbind at 1 3. cbn [lift].
  rewrite (take_prefix _ _ _ F1 F2). revert w w' W. change (msim esim
    (s <- lift (take m' l);; mret (L8W8JWT_SUCCESS, Ptr o m, s)) (s <- lift (take m' l);; mret (L8W8JWT_SUCCESS, Ptr o' m', s))).
  apply msim_lift_bind. intros s _. apply msim_ret. repeat split. exact E3.
Qed.
Lemma cb_ptr_sim b b' : bsim b b' -> deref (cb_ptr b) = deref (cb_ptr b') /\ cb_len b = cb_len b'.
Proof. intros [H1 H2]. unfold cb_ptr, cb_len. cbn. rewrite H2. auto. Qed.

Ltac push Hs := eapply msim_bind; [apply msim_push; exact Hs|]; let a := fresh in let b := fresh in intros a b; clear Hs; intros Hs.
Lemma write_header_and_payload_sim p sb sb' ep : bsim sb sb' ->
  msim (pair eq bsim) (write_header_and_payload p sb ep) (write_header_and_payload p sb' ep).
Proof.
  intros Hs. unfold write_header_and_payload.
  eapply msim_bind; [apply msim_cb_init|]. intros [bf|] [bf'|] Hb; cbn in Hb; try contradiction;
    [|apply msim_ret; split; [reflexivity|exact Hs]].
  destruct Hb as (Hi & E1 & E2). assert (Hb : bsim bf bf') by (split; congruence). clear E1 E2.
  destruct (header_prefix _) as [h|]; [|eapply msim_bind; [apply msim_free_id; exact Hi|];
    intros _ _ _; apply msim_ret; split; [reflexivity|exact Hs]].
  clear Hi. eapply msim_bind; [apply msim_push; exact Hb|]. clear bf bf' Hb. intros bf bf' Hb.
  eapply msim_bind with (R := bsim).
  { destruct (_ <? _)%N; [|apply msim_ret; exact Hb].
    eapply msim_bind; [apply msim_push; exact Hb|]. clear bf bf' Hb. intros bf bf' Hb.
    eapply msim_bind; [apply write_claims_sim; exact Hb|]. intros [r1 x1] [r2 x2] [_ H]. apply msim_ret. exact H. }
  clear bf bf' Hb. intros bf bf' Hb.
  eapply msim_bind; [apply msim_push; exact Hb|]. clear bf bf' Hb. intros bf bf' Hb.
  destruct (cb_ptr_sim _ _ Hb) as [D L]. rewrite L.
  eapply msim_bind; [apply encode_segment_sim; [exact D|reflexivity]|].
  intros [[r1 g1] t1] [[r2 g2] t2] (A1 & A2 & A3). cbn [fst snd] in *. subst r2 t2.
  destruct (negb _).
  { eapply msim_bind; [apply msim_free_id; exact (proj1 Hb)|]. intros _ _ _. apply msim_ret. split; [reflexivity|exact Hs]. }
  eapply msim_bind; [apply msim_push; exact Hs|]. clear sb sb' Hs. intros sb sb' Hs.
  eapply msim_bind; [apply msim_free; exact A2|]. intros _ _ _.
  apply msim_lift_bind. intros tb _.
  eapply msim_bind; [apply msim_push, bsim_clear; exact Hb|]. clear bf bf' Hb D L. intros bf bf' Hb.
  eapply msim_bind; [apply write_claims_sim; exact Hb|]. clear bf bf' Hb. intros [r3 bf] [r4 bf'] [_ Hb]. cbn [snd] in *.
  eapply msim_bind with (R := bsim).
  { destruct (_ <? _)%N; [|apply msim_ret; exact Hb].
    eapply msim_bind with (R := bsim); [destruct (_ || _); [apply msim_push|apply msim_ret]; exact Hb|].
    clear bf bf' Hb. intros bf bf' Hb.
    eapply msim_bind; [apply write_claims_sim; exact Hb|]. intros [r5 x1] [r6 x2] [_ H]. apply msim_ret. exact H. }
  clear bf bf' Hb. intros bf bf' Hb.
  eapply msim_bind; [apply msim_push; exact Hb|]. clear bf bf' Hb. intros bf bf' Hb.
  destruct (cb_ptr_sim _ _ Hb) as [D L]. rewrite L.
  eapply msim_bind; [apply encode_segment_sim; [exact D|reflexivity]|].
  clear r1 g1 t1 g2 A2 r3 r4.
  intros [[r1 g1] t1] [[r2 g2] t2] (A1 & A2 & A3). cbn [fst snd] in *. subst r2 t2.
  destruct (negb _).
  { eapply msim_bind; [apply msim_free_id; exact (proj1 Hb)|]. intros _ _ _. apply msim_ret. split; [reflexivity|exact Hs]. }
  eapply msim_bind; [apply msim_push; exact Hs|]. clear sb sb' Hs. intros sb sb' Hs.
  eapply msim_bind; [apply msim_push; exact Hs|]. clear sb sb' Hs. intros sb sb' Hs.
  eapply msim_bind; [apply msim_free; exact A2|]. intros _ _ _.
  eapply msim_bind; [apply msim_free_id; exact (proj1 Hb)|]. intros _ _ _.
  apply msim_ret. split; [reflexivity|exact Hs].
Qed.

Definition ssim (x x' : Z * chillbuff byte * ptr) : Prop :=
  fst (fst x) = fst (fst x') /\ bsim (snd (fst x)) (snd (fst x')) /\ hsim (snd x) (snd x').
Lemma write_signature_body_sim p e sb sb' ep : bsim sb sb' ->
  msim ssim (write_signature_body p e sb ep) (write_signature_body p e sb' ep).
Proof.
  intros Hs. unfold write_signature_body. apply msim_lift_bind. intros key _. apply msim_lift_bind. intros kl _.
  destruct (negb (e_seed_ok e)); [apply msim_ret; repeat split; apply Hs|].
  rewrite <- (proj2 Hs). apply msim_lift_bind. intros [[r b] n] _.
  destruct (negb _); [apply msim_ret; repeat split; apply Hs|].
  destruct (n =? 0)%N; [apply msim_ret; repeat split; apply Hs|].
  eapply msim_bind; [apply encode_segment_sim; reflexivity|].
  intros [[r1 g1] t1] [[r2 g2] t2] (A1 & A2 & A3). cbn [fst snd] in *. subst r2 t2.
  destruct (negb _); [apply msim_ret; repeat split; apply Hs|].
  eapply msim_bind; [apply msim_push; exact Hs|]. clear sb sb' Hs. intros sb sb' Hs.
  eapply msim_bind; [apply msim_push; exact Hs|]. clear sb sb' Hs. intros sb sb' Hs.
  apply msim_ret. split; [reflexivity|]. split; [exact Hs|exact A2].
Qed.
Lemma write_signature_sim p e sb sb' ep : bsim sb sb' ->
  msim (pair eq bsim) (write_signature p e sb ep) (write_signature p e sb' ep).
Proof.
  intros Hs. unfold write_signature. destruct (p_small_stack p).
  - eapply msim_bind; [apply msim_calloc|]. intros g g' Hg. eapply msim_bind; [apply msim_calloc|]. intros k k' Hk.
    rewrite (psim_null g g'), (psim_null k k') by (apply psim_hsim; assumption).
    eapply msim_bind with (R := ssim).
    { destruct (_ || _); [apply msim_ret; repeat split; apply Hs|apply write_signature_body_sim; exact Hs]. }
    intros [[r1 s1] t1] [[r2 s2] t2] (A1 & A2 & A3). cbn [fst snd] in *. subst r2.
    eapply msim_bind; [apply msim_zeroize; exact Hk|]. intros _ _ _.
    eapply msim_bind; [apply msim_free; exact A3|]. intros _ _ _.
    eapply msim_bind; [apply msim_free, psim_hsim; exact Hk|]. intros _ _ _.
    eapply msim_bind; [apply msim_free, psim_hsim; exact Hg|]. intros _ _ _.
    apply msim_ret. split; [reflexivity|exact A2].
  - eapply msim_bind; [apply write_signature_body_sim; exact Hs|].
    intros [[r1 s1] t1] [[r2 s2] t2] (A1 & A2 & A3). cbn [fst snd] in *. subst r2.
    eapply msim_bind; [apply msim_free; exact A3|]. intros _ _ _.
    apply msim_ret. split; [reflexivity|exact A2].
Qed.
Definition ersim (r r' : enc_res) : Prop :=
  er_rc r = er_rc r' /\ opt psim (er_out r) (er_out r') /\ er_len r = er_len r'.
Lemma write_token_sim sb sb' : bsim sb sb' -> msim ersim (write_token sb) (write_token sb').
Proof.
  intros Hs. destruct (cb_ptr_sim _ _ Hs) as [_ L]. unfold write_token. rewrite L.
  eapply msim_bind; [apply msim_malloc|]. intros [|o m] [|o' m'] [H K]; cbn in H; try contradiction.
  { apply msim_ret. repeat split. }
  destruct (K _ _ _ _ eq_refl eq_refl) as [L1 L2]. rewrite (proj2 Hs) in *.
  unfold cb_len in L1, L2. intros w w' W. unfold mbind, cur_start. cbn [lift].
  rewrite !cur_puts_eq by lia. cbn [lift]. unfold cur_set. cbn [c_rest].
  assert (S : forall x : bytes, length x = N.to_nat (N.of_nat (length (cb_elems sb')) + 1) ->
    exists y, skipn (length (cb_elems sb')) x = [y]).
  { intros x Hx. pose proof (skipn_length (length (cb_elems sb')) x) as Z.
    destruct (skipn _ x) as [|y [|]]; cbn [length] in Z; try lia. eauto. }
  destruct (S m L1) as [y ->], (S m' L2) as [y' ->]. cbn [lift].
  split; [|exact W]. split; [reflexivity|]. split; [|reflexivity]. split; [exact H|reflexivity].
Qed.
Lemma encode_body_sim p e sb sb' ep : bsim sb sb' ->
  msim (pair ersim bsim) (encode_body p e sb ep) (encode_body p e sb' ep).
Proof.
  intros Hs. unfold encode_body. eapply msim_bind; [apply write_header_and_payload_sim; exact Hs|].
  clear sb sb' Hs. intros [r sb] [r' sb'] [E Hs]. cbn [fst snd] in *. subst r'.
  destruct (negb _); [apply msim_ret; repeat split; apply Hs|].
  eapply msim_bind with (R := pair eq bsim).
  { destruct (negb _); [apply write_signature_sim|apply msim_ret; split; [reflexivity|]]; exact Hs. }
  clear r sb sb' Hs. intros [r sb] [r' sb'] [E Hs]. cbn [fst snd] in *. subst r'.
  destruct (negb _); [apply msim_ret; repeat split; apply Hs|].
  eapply msim_bind; [apply write_token_sim; exact Hs|]. intros x x' Hx. apply msim_ret. split; assumption.
Qed.
Lemma encode_sim p e params : msim ersim (l8w8jwt_encode p e params) (l8w8jwt_encode p e params).
Proof.
  unfold l8w8jwt_encode. cbv zeta. destruct params as [ep|]; [|apply msim_ret; repeat split].
  destruct (negb _); [apply msim_ret; repeat split|].
  eapply msim_bind; [apply msim_cb_init|]. intros [sb|] [sb'|] Hb; cbn in Hb; try contradiction;
    [|apply msim_ret; repeat split].
  destruct Hb as (Hi & E1 & E2).
  eapply msim_bind; [apply encode_body_sim; split; [exact Hi|congruence]|].
  intros [x s] [x' s'] [H1 [H2 H3]]. eapply msim_bind; [apply msim_free_id; exact H2|]. intros _ _ _. apply msim_ret. exact H1.
Qed.

(** ** Decoding *)
Lemma unescape_claim_sim p ty k kl v vl :
  msim (pair eq (opt csim)) (l8w8jwt_unescape_claim p ty k kl v vl) (l8w8jwt_unescape_claim p ty k kl v vl).
Proof.
  unfold l8w8jwt_unescape_claim. eapply msim_bind; [apply msim_calloc|]. intros a a' Ha.
  eapply msim_bind; [apply msim_calloc|]. intros b b' Hb.
  assert (F : msim (pair eq (opt csim)) (_ <- free a ;; _ <- free b ;; mret (L8W8JWT_OUT_OF_MEM, None))
                (_ <- free a' ;; _ <- free b' ;; mret (L8W8JWT_OUT_OF_MEM, None))).
  { eapply msim_bind; [apply msim_free, psim_hsim; exact Ha|]. intros _ _ _.
    eapply msim_bind; [apply msim_free, psim_hsim; exact Hb|]. intros _ _ _. apply msim_ret. repeat split. }
  destruct a as [|i m], a' as [|i' m']; cbn in Ha; try contradiction; [exact F|].
  destruct b as [|j n], b' as [|j' n']; cbn in Hb; try contradiction; [exact F|]. clear F.
  destruct Ha as [Ha <-], Hb as [Hb <-].
  do 3 (apply msim_lift_bind; intros ? _). destruct (_ =? _)%Z.
  all: do 3 (apply msim_lift_bind; intros ? _); apply msim_ret; split; [reflexivity|];
    repeat split; cbn; assumption.
Qed.

Definition gsim (s s' : seg) : Prop := psim (s_ptr s) (s_ptr s') /\ s_len s = s_len s'.
Definition sgsim (s s' : segs) : Prop :=
  gsim (sg_header s) (sg_header s') /\ gsim (sg_payload s) (sg_payload s') /\ gsim (sg_signature s) (sg_signature s').
Lemma gsim0 : gsim seg0 seg0.
Proof. repeat split. Qed.
Lemma seg_upd_sim s s' r r' : gsim s s' -> dsim r r' -> gsim (seg_upd s r) (seg_upd s' r').
Proof.
  intros [G1 G2] (D1 & D2 & D3). unfold seg_upd. rewrite D2, G2. split; cbn; [|reflexivity].
  destruct (b_out r), (b_out r'); cbn in D3; try contradiction; assumption.
Qed.
Lemma decode_segments_sim p dp : msim (pair eq sgsim) (l8w8jwt_decode_segments p dp) (l8w8jwt_decode_segments p dp).
Proof.
  pose proof gsim0 as G0.
  unfold l8w8jwt_decode_segments. cbv zeta. apply msim_lift_bind. intros j _. apply msim_lift_bind. intros [n1|] _;
    [|apply msim_ret; repeat split].
  eapply msim_bind; [apply base64_decode_sim|]. intros r1 r1' D1. pose proof D1 as (E1 & _). rewrite E1.
  pose proof (seg_upd_sim _ _ _ _ G0 D1) as G1.
  destruct (negb _); [apply msim_ret; split; [reflexivity|]; split; [exact G1|split; exact G0]|].
  apply msim_lift_bind. intros n2 _. destruct (_ && _); [apply msim_ret; split; [reflexivity|]; split; [exact G1|split; exact G0]|].
  eapply msim_bind; [apply base64_decode_sim|]. intros r2 r2' D2. pose proof D2 as (E2 & _). rewrite E2.
  pose proof (seg_upd_sim _ _ _ _ G0 D2) as G2.
  destruct (negb _); [apply msim_ret; split; [reflexivity|]; split; [exact G1|split; [exact G2|exact G0]]|].
  destruct n2 as [n2|]; [|apply msim_ret; split; [reflexivity|]; split; [exact G1|split; [exact G2|exact G0]]].
  eapply msim_bind; [apply base64_decode_sim|]. intros r3 r3' D3. pose proof D3 as (E3 & _). rewrite E3.
  pose proof (seg_upd_sim _ _ _ _ G0 D3) as G3.
  destruct (negb _); apply msim_ret; (split; [reflexivity|]; split; [exact G1|split; [exact G2|exact G3]]).
Qed.

Lemma claims_loop_sim p e json a r fuel : forall i b b', lsim b b' ->
  msim (pair eq lsim) (claims_loop fuel p e json a r i b) (claims_loop fuel p e json a r i b').
Proof.
  induction fuel as [|f IH]; intros i b b' H; cbn [claims_loop]; [apply msim_ub|].
  destruct (negb _); [apply msim_ret; split; [reflexivity|exact H]|].
  apply msim_lift_bind. intros k _. apply msim_lift_bind. intros v _.
  destruct (_ || _); [apply msim_ret; split; [reflexivity|exact H]|].
  apply msim_lift_bind. intros [[ty i']|] _; [|apply msim_ret; split; [reflexivity|exact H]].
  apply msim_lift_bind. intros km _. apply msim_lift_bind. intros vm _.
  eapply msim_bind; [apply unescape_claim_sim|]. intros [rc c] [rc' c'] [E Hc]. cbn [fst snd] in *. subst rc'.
  destruct c as [c|], c' as [c'|]; cbn in Hc; try contradiction.
  - eapply msim_bind; [apply msim_push_claim; [exact H|exact Hc]|]. apply IH.
  - apply msim_ret. split; [reflexivity|exact H].
Qed.
Lemma parse_claims_sim p e b b' j j' n : lsim b b' -> psim j j' ->
  msim (pair eq lsim) (l8w8jwt_parse_claims p e b j n) (l8w8jwt_parse_claims p e b' j' n).
Proof.
  intros H Hj. unfold l8w8jwt_parse_claims. rewrite <- (psim_deref _ _ Hj).
  apply msim_lift_bind. intros mem _. apply msim_lift_bind. intros js _.
  destruct (_ <? _)%Z; [apply msim_ub|]. cbv zeta.
  destruct (_ =? 0)%Z; [apply msim_ret; split; [reflexivity|exact H]|].
  destruct (_ <? 0)%Z; [apply msim_ret; split; [reflexivity|exact H]|].
  eapply msim_bind with (R := opt osim).
  { destruct (_ <=? 64)%Z; [apply msim_ret; exact I|].
    eapply msim_bind; [apply msim_alloc|]. intros [x|] [x'|] Hx; cbn in Hx; try contradiction; apply msim_ret; cbn; auto. }
  intros [blk|] [blk'|] Hb; cbn in Hb; try contradiction; [|apply msim_ret; split; [reflexivity|exact H]].
  destruct (e_jsmn e js _) as [r2 toks]. destruct (_ <? 0)%Z; [apply msim_ret; split; [reflexivity|exact H]|].
  apply msim_lift_bind. intros t0 _.
  eapply msim_bind with (R := pair eq lsim).
  { destruct (negb _); [apply msim_ret; split; [reflexivity|exact H]|]. apply claims_loop_sim. exact H. }
  intros [rc c] [rc' c'] [E Hc]. cbn [fst snd] in *. subst rc'.
  eapply msim_bind with (R := eq).
  { destruct blk, blk'; cbn in Hb; try contradiction; [apply msim_free_id; exact Hb|apply msim_ret; reflexivity]. }
  intros _ _ _. apply msim_ret. split; [reflexivity|exact Hc].
Qed.

Lemma get_each_sim key kl cs : forall cs' n, Forall2 csim cs cs' ->
  usim (opt csim) (get_each cs n key kl) (get_each cs' n key kl).
Proof.
  induction cs as [|c cs IH]; intros cs' n H; inversion H as [|? c' ? t' Hc Ht]; subst; cbn [get_each].
  - destruct (n =? 0)%N; reflexivity || exact I.
  - destruct (n =? 0)%N; [exact I|]. rewrite (psim_deref _ _ (proj1 Hc)).
    apply usim_same. intros m. apply usim_same. intros r. destruct (r =? 0)%Z; [exact Hc|apply IH; exact Ht].
Qed.
Lemma usim_eq {A} (u u' : U A) : usim eq u u' -> u = u'.
Proof. destruct u, u'; cbn; intros H; try contradiction; congruence. Qed.
Lemma usim_refl {A} (u : U A) : usim eq u u.
Proof. destruct u; reflexivity. Qed.
Lemma get_claim_sim i i' cs cs' n k kl : Forall2 csim cs cs' ->
  usim (opt csim) (l8w8jwt_get_claim (CArr i cs) n k kl) (l8w8jwt_get_claim (CArr i' cs') n k kl).
Proof.
  intros H. unfold l8w8jwt_get_claim. destruct k; [exact I|]. destruct (_ || _); [exact I|]. apply get_each_sim. exact H.
Qed.
Lemma string_check_sim i i' cs cs' n name x xl : Forall2 csim cs cs' ->
  string_check (CArr i cs) n name x xl = string_check (CArr i' cs') n name x xl.
Proof.
  intros H. apply usim_eq. unfold string_check. eapply usim_bind; [apply get_claim_sim; exact H|].
  intros [c|] [c'|] Hc; cbn in Hc; try contradiction; apply usim_same; intros l; [|reflexivity].
  destruct Hc as (_ & _ & K3 & K4 & _). rewrite K4, (psim_deref _ _ K3). apply usim_refl.
Qed.
Lemma time_check_sim i i' cs cs' n name now f : Forall2 csim cs cs' ->
  time_check (CArr i cs) n name now f = time_check (CArr i' cs') n name now f.
Proof.
  intros H. apply usim_eq. unfold time_check. eapply usim_bind; [apply get_claim_sim; exact H|].
  intros [c|] [c'|] Hc; cbn in Hc; try contradiction; [|reflexivity].
  destruct Hc as (_ & _ & K3 & _). rewrite (psim_deref _ _ K3). apply usim_refl.
Qed.
Lemma typ_check_sim p i i' cs cs' n x xl : Forall2 csim cs cs' ->
  typ_check p (CArr i cs) n x xl = typ_check p (CArr i' cs') n x xl.
Proof.
  intros H. apply usim_eq. unfold typ_check. eapply usim_bind; [apply get_claim_sim; exact H|].
  intros [c|] [c'|] Hc; cbn in Hc; try contradiction; [|reflexivity].
  destruct Hc as (_ & _ & K3 & _). unfold l8w8jwt_strncmpic.
  destruct (c_value c), (c_value c'); cbn in K3; try contradiction; [|destruct K3 as [_ ->]]; apply usim_refl.
Qed.
Lemma validate_claims_sim p e dp i i' cs cs' n res : Forall2 csim cs cs' ->
  l8w8jwt_validate_claims p e dp (CArr i cs) n res = l8w8jwt_validate_claims p e dp (CArr i' cs') n res.
Proof.
  intros H. unfold l8w8jwt_validate_claims. cbv zeta.
  rewrite !(fun a b c d => string_check_sim i i' cs cs' a b c d H).
  rewrite !(fun a b c d => time_check_sim i i' cs cs' a b c d H).
  rewrite (fun a b c => typ_check_sim p i i' cs cs' a b c H). reflexivity.
Qed.

Lemma verify_signature_sim p e dp res s s' n : psim s s' ->
  msim eq (l8w8jwt_verify_signature p e dp res s n) (l8w8jwt_verify_signature p e dp res s' n).
Proof.
  intros H. unfold l8w8jwt_verify_signature. cbv zeta. rewrite (psim_null _ _ (psim_hsim _ _ H)), (psim_deref _ _ H).
  destruct (_ || _); [apply msim_ret; reflexivity|]. destruct (p_small_stack p).
  - eapply msim_bind; [apply msim_calloc|]. intros k k' Hk. rewrite (psim_null _ _ (psim_hsim _ _ Hk)).
    eapply msim_bind with (R := eq).
    { destruct (is_null k'); [apply msim_ret; reflexivity|]. apply msim_lift_bind. intros m _. apply msim_lift. }
    intros v ? <-. eapply msim_bind; [apply msim_zeroize; exact Hk|]. intros _ _ _.
    eapply msim_bind; [apply msim_free, psim_hsim; exact Hk|]. intros _ _ _. apply msim_ret. reflexivity.
  - apply msim_lift_bind. intros m _. apply msim_lift_bind. intros v _. apply msim_ret. reflexivity.
Qed.

Definition stsim (s s' : dec_state) : Prop :=
  ds_rc s = ds_rc s' /\ sgsim (ds_segs s) (ds_segs s') /\ lsim (ds_claims s) (ds_claims s') /\ ds_res s = ds_res s'.
Lemma decode_body_sim p e dp b b' : lsim b b' -> msim stsim (decode_body p e dp b) (decode_body p e dp b').
Proof.
  intros H. unfold decode_body. eapply msim_bind; [apply decode_segments_sim|].
  intros [r g] [r' g'] [E Hg]. cbn [fst snd] in *. subst r'. pose proof Hg as ([A1 A2] & [B1 B2] & [C1 C2]).
  destruct (negb _); [apply msim_ret; split; [reflexivity|]; split; [exact Hg|]; split; [exact H|reflexivity]|].
  rewrite C2. eapply msim_bind; [apply verify_signature_sim; exact C1|]. intros [r1 res] ? <-.
  destruct (negb _); [apply msim_ret; split; [reflexivity|]; split; [exact Hg|]; split; [exact H|reflexivity]|].
  rewrite A2. eapply msim_bind; [apply parse_claims_sim; [exact H|exact A1]|].
  clear b b' H. intros [r2 b] [r2' b'] [E H]. cbn [fst snd] in *. subst r2'.
  destruct (negb _); [apply msim_ret; split; [reflexivity|]; split; [exact Hg|]; split; [exact H|reflexivity]|].
  rewrite B2. eapply msim_bind; [apply parse_claims_sim; [exact H|exact B1]|].
  clear b b' H. intros [r3 b] [r3' b'] [E H]. cbn [fst snd] in *. subst r3'.
  destruct (negb _); [apply msim_ret; split; [reflexivity|]; split; [exact Hg|]; split; [exact H|reflexivity]|].
  unfold cb_len. rewrite (Forall2_len _ _ _ (proj2 H)).
  rewrite (validate_claims_sim p e dp _ (Some (cb_id b')) _ _ _ _ (proj2 H)).
  apply msim_lift_bind. intros v _. apply msim_ret. split; [reflexivity|]; split; [exact Hg|]; split; [exact H|reflexivity].
Qed.
Lemma decode_raw_body_sim p e dp b b' : lsim b b' -> msim stsim (decode_raw_body p e dp b) (decode_raw_body p e dp b').
Proof.
  intros H. unfold decode_raw_body. eapply msim_bind; [apply decode_segments_sim|].
  intros [r g] [r' g'] [E Hg]. cbn [fst snd] in *. subst r'. pose proof Hg as ([A1 A2] & [B1 B2] & [C1 C2]).
  destruct (negb _); [apply msim_ret; split; [reflexivity|]; split; [exact Hg|]; split; [exact H|reflexivity]|].
  rewrite C2. eapply msim_bind; [apply verify_signature_sim; exact C1|]. intros [r1 res] ? <-.
  destruct (negb _); [apply msim_ret; split; [reflexivity|]; split; [exact Hg|]; split; [exact H|reflexivity]|].
  rewrite A2. eapply msim_bind; [apply parse_claims_sim; [exact H|exact A1]|].
  clear b b' H. intros [r2 b] [r2' b'] [E H]. cbn [fst snd] in *. subst r2'.
  destruct (negb _); [apply msim_ret; split; [reflexivity|]; split; [exact Hg|]; split; [exact H|reflexivity]|].
  rewrite B2. eapply msim_bind; [apply parse_claims_sim; [exact H|exact B1]|].
  clear b b' H. intros [r3 b] [r3' b'] [E H]. cbn [fst snd] in *. subst r3'.
  destruct (negb _); [apply msim_ret; split; [reflexivity|]; split; [exact Hg|]; split; [exact H|reflexivity]|].
  unfold cb_len. rewrite (Forall2_len _ _ _ (proj2 H)).
  rewrite (validate_claims_sim p e dp _ (Some (cb_id b')) _ _ _ _ (proj2 H)).
  apply msim_lift_bind. intros v _. apply msim_ret. split; [reflexivity|]; split; [exact Hg|]; split; [exact H|reflexivity].
Qed.

Definition cptr_sim (c c' : cptr) : Prop :=
  match c, c' with CNull, CNull => True | CArr o l, CArr o' l' => osim o o' /\ Forall2 csim l l' | _, _ => False end.
Definition drsim (r r' : dec_res) : Prop :=
  dr_rc r = dr_rc r' /\ dr_valid r = dr_valid r' /\ opt (pair cptr_sim eq) (dr_claims r) (dr_claims r').
Lemma decode_sim p e params a b c : msim drsim (l8w8jwt_decode p e params a b c) (l8w8jwt_decode p e params a b c).
Proof.
  unfold l8w8jwt_decode. cbv zeta. destruct params as [dp|]; [|apply msim_ret; repeat split].
  destruct (_ && _); [apply msim_ret; repeat split|]. destruct (negb _); [apply msim_ret; repeat split|].
  destruct (negb a); [apply msim_ret; repeat split|].
  eapply msim_bind; [apply msim_cb_init|]. intros [cb|] [cb'|] Hb; cbn in Hb; try contradiction.
  - destruct Hb as (Hi & E1 & E2).
    eapply msim_bind; [apply decode_body_sim; split; [exact Hi|rewrite E1, E2; constructor]|].
    intros s s' (H1 & H2 & H3 & H4). rewrite H1, H4. destruct H2 as ([A1 A2] & [B1 B2] & [C1 C2]).
    eapply msim_bind; [apply msim_free, psim_hsim; exact A1|]. intros _ _ _.
    eapply msim_bind; [apply msim_free, psim_hsim; exact B1|]. intros _ _ _.
    eapply msim_bind; [apply msim_free, psim_hsim; exact C1|]. intros _ _ _.
    eapply msim_bind with (R := eq).
    { destruct (_ || _); [apply free_claims_buffer_sim; exact H3|apply msim_ret; reflexivity]. }
    intros _ _ _. apply msim_ret. split; [reflexivity|]. split; [reflexivity|]. cbn.
    destruct (_ && _); [|exact I]. split; cbn; [split; [exact (proj1 H3)|exact (proj2 H3)]|].
    unfold cb_len. rewrite (Forall2_len _ _ _ (proj2 H3)). reflexivity.
  - eapply msim_bind with (R := eq); [apply free_claims_buffer_sim; exact I|]. intros _ _ _. apply msim_ret. repeat split.
Qed.
Definition rrsim (r r' : raw_res) : Prop :=
  rr_rc r = rr_rc r' /\ rr_valid r = rr_valid r' /\ opt gsim (rr_header r) (rr_header r')
  /\ opt gsim (rr_payload r) (rr_payload r') /\ opt gsim (rr_signature r) (rr_signature r').
Lemma give_or_free_sim nn s s' : gsim s s' -> msim (opt gsim) (give_or_free nn s) (give_or_free nn s').
Proof.
  intros [H1 H2]. unfold give_or_free. destruct nn; [apply msim_ret; split; assumption|].
  eapply msim_bind; [apply msim_free, psim_hsim; exact H1|]. intros _ _ _. apply msim_ret. exact I.
Qed.
Lemma decode_raw_sim p e params v a b c d f g :
  msim rrsim (l8w8jwt_decode_raw p e params v a b c d f g) (l8w8jwt_decode_raw p e params v a b c d f g).
Proof.
  unfold l8w8jwt_decode_raw. cbv zeta. destruct params as [dp|]; [|apply msim_ret; repeat split].
  destruct (_ || _); [apply msim_ret; repeat split|]. destruct (negb _); [apply msim_ret; repeat split|].
  eapply msim_bind; [apply msim_cb_init|]. intros o o' Hb.
  eapply msim_bind with (R := fun x x' => fst (fst (fst x)) = fst (fst (fst x')) /\ sgsim (snd (fst (fst x))) (snd (fst (fst x')))
    /\ snd (fst x) = snd (fst x') /\ opt lsim (snd x) (snd x')).
  { destruct o as [cb|], o' as [cb'|]; cbn in Hb; try contradiction.
    - destruct Hb as (Hi & E1 & E2).
      eapply msim_bind; [apply decode_raw_body_sim; split; [exact Hi|rewrite E1, E2; constructor]|].
      intros s s' (H1 & H2 & H3 & H4). apply msim_ret. split; [exact H1|]. split; [exact H2|]. split; [exact H4|exact H3].
    - apply msim_ret. repeat split. }
  intros [[[rc sg] res] bb] [[[rc' sg'] res'] bb'] (H1 & H2 & H3 & H4). cbn [fst snd] in *. subst rc' res'.
  destruct H2 as (A & B & C).
  eapply msim_bind; [apply give_or_free_sim; exact A|]. intros h h' Hh.
  eapply msim_bind; [apply give_or_free_sim; exact B|]. intros pl pl' Hpl.
  eapply msim_bind; [apply give_or_free_sim; exact C|]. intros s s' Hs.
  eapply msim_bind; [apply free_claims_buffer_sim; exact H4|]. intros _ _ _. apply msim_ret.
  split; [reflexivity|]. split; [reflexivity|]. auto.
Qed.
Lemma decode_raw_no_validation_sim p params a b c d f g :
  msim rrsim (l8w8jwt_decode_raw_no_validation p params a b c d f g) (l8w8jwt_decode_raw_no_validation p params a b c d f g).
Proof.
  unfold l8w8jwt_decode_raw_no_validation. cbv zeta. destruct params as [dp|]; [|apply msim_ret; repeat split].
  destruct (_ || _); [apply msim_ret; repeat split|]. destruct (negb _); [apply msim_ret; repeat split|].
  eapply msim_bind; [apply decode_segments_sim|].
  intros [rc sg] [rc' sg'] [H1 (A & B & C)]. cbn [fst snd] in *. subst rc'.
  eapply msim_bind; [apply give_or_free_sim; exact A|]. intros h h' Hh.
  eapply msim_bind; [apply give_or_free_sim; exact B|]. intros pl pl' Hpl.
  eapply msim_bind; [apply give_or_free_sim; exact C|]. intros s s' Hs.
  apply msim_ret. split; [reflexivity|]. split; [reflexivity|]. auto.
Qed.
End Sim.
