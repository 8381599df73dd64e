(** * Lemmas about src/claim.c *)
From Verif Require Import Base BaseProofs HeapProofs Util UtilProofs Claim SpecJson.
From Coq Require Import ZifyBool ZifyNat ZifyN.
Ltac Zify.zify_post_hook ::= Z.div_mod_to_equations.

(** ** Frames *)
(** [w'] is [w] after some work: same oracles, counters not smaller. *)
Definition later (w w' : world) : Prop :=
  w_alloc w' = w_alloc w /\ w_grow w' = w_grow w /\ w_junk w' = w_junk w
  /\ (w_next w <= w_next w')%nat /\ (w_pushes w <= w_pushes w')%nat.
(** ... and the same live blocks. *)
Definition quiet (w w' : world) : Prop := later w w' /\ forall i, w_live w' i = w_live w i.
(** Every chillbuff_push_back succeeds. *)
Definition grows (w : world) : Prop := forall k, w_grow w k = true.
(** Every allocation succeeds. *)
Definition allocs (w : world) : Prop := forall k, w_alloc w k = true.

Lemma later_refl w : later w w.
Proof. unfold later. repeat split; lia. Qed.
Lemma later_trans a b c : later a b -> later b c -> later a c.
Proof. unfold later. intros (H1&H2&H3&H4&H5) (K1&K2&K3&K4&K5). repeat split; try congruence; lia. Qed.
Lemma quiet_refl w : quiet w w.
Proof. split; [apply later_refl|reflexivity]. Qed.
Lemma quiet_trans a b c : quiet a b -> quiet b c -> quiet a c.
Proof. intros [H1 H2] [K1 K2]. split; [eapply later_trans; eauto|]. intros i. congruence. Qed.
Lemma quiet_later a b : quiet a b -> later a b.
Proof. intros [H _]. exact H. Qed.
Lemma later_ok w : later w (w_ok w).
Proof. unfold later. simpl. repeat split; lia. Qed.
Lemma later_no w : later w (w_no w).
Proof. unfold later. simpl. repeat split; lia. Qed.
Lemma later_push w : later w (w_push w).
Proof. unfold later. simpl. repeat split; lia. Qed.
Lemma later_free w id : later w (w_free w id).
Proof. unfold later. simpl. repeat split; lia. Qed.
Lemma quiet_no w : quiet w (w_no w).
Proof. split; [apply later_no|reflexivity]. Qed.
Lemma quiet_push w : quiet w (w_push w).
Proof. split; [apply later_push|reflexivity]. Qed.
Lemma grows_later w w' : later w w' -> grows w -> grows w'.
Proof. intros (_ & H & _) Hg k. rewrite H. apply Hg. Qed.
Lemma allocs_later w w' : later w w' -> allocs w -> allocs w'.
Proof. intros (H & _) Hg k. rewrite H. apply Hg. Qed.
Lemma wf_quiet w w' : quiet w w' -> wf w -> wf w'.
Proof. intros [(_ & _ & _ & H & _) Hl] Hwf i Hi. rewrite Hl. apply Hwf. lia. Qed.
(** A block allocated and freed in between leaves no trace. *)
Lemma quiet_alloc_free w w' :
  wf w -> quiet (w_ok w) w' -> quiet w (w_free w' (w_next w)).
Proof.
  intros Hwf [Hl He]. split.
  - eapply later_trans; [apply later_ok|]. eapply later_trans; [exact Hl|]. apply later_free.
  - intros i. cbn [w_free w_live]. unfold upd_live. destruct (Nat.eqb_spec i (w_next w)) as [->|Hi].
    + symmetry. apply Hwf. lia.
    + rewrite He. cbn [w_ok w_live]. apply upd_live_other. exact Hi.
Qed.

Ltac minv H :=
  let a := fresh "a" in let w := fresh "w" in let H1 := fresh "Hm" in
  apply mbind_inv in H; destruct H as (a & w & H1 & H).

Tactic Notation "minvas" hyp(H) "as" simple_intropattern(a) simple_intropattern(w) ident(Hm) :=
  apply mbind_inv in H; destruct H as (a & w & Hm & H).

Lemma cb_push_inv A (b : chillbuff A) e w b' w' :
  cb_push b e w = Ret b' w' ->
  w' = w_push w /\ cb_id b' = cb_id b /\ (b' = b \/ cb_elems b' = cb_elems b ++ e)
  /\ (grows w -> b' = CB (cb_id b) (cb_elems b ++ e)).
Proof.
  rewrite cb_push_eq. destruct (w_grow w (w_pushes w)) eqn:E; intros H; inversion H; subst.
  - repeat split; auto.
  - split; [reflexivity|]. split; [reflexivity|]. split; [auto|]. intros Hg. rewrite Hg in E. discriminate.
Qed.
Lemma cb_push_total A (b : chillbuff A) e w : exists b', cb_push b e w = Ret b' (w_push w).
Proof. rewrite cb_push_eq. destruct (w_grow w (w_pushes w)); eauto. Qed.

(** ** Escaping *)
Definition esc (c : byte) : bytes :=
  match nth (N.to_nat (b2n c)) escape_table None with Some x => x | None => [c] end.
Definition escape (s : bytes) : bytes := flat_map esc s.

Definition esc_ok (c : byte) : bool :=
  match esc c with
  | [x] => Byte.eqb x c && (32 <=? b2n c)%N && negb (Byte.eqb c x22) && negb (Byte.eqb c x5c)
  | [x; e] => Byte.eqb x x5c
              && existsb (fun q => Byte.eqb (fst q) e && Byte.eqb (snd q) c) simple_escapes
  | [x; y; h1; h2; h3; h4] =>
      Byte.eqb x x5c && Byte.eqb y x75
      && match code_unit h1 h2 h3 h4 with Some u => (u =? b2n c)%N | None => false end
      && (b2n c <? 128)%N
  | _ => false
  end.
Lemma esc_ok_all c : esc_ok c = true.
Proof. apply (sweep1 esc_ok). vm_compute. reflexivity. Qed.

Lemma escape_body s : json_body (escape s) s.
Proof.
  induction s as [|c s IH]; [constructor|]. simpl.
  pose proof (esc_ok_all c) as H. unfold esc_ok in H.
  destruct (esc c) as [|x1 [|x2 [|x3 [|x4 [|x5 [|x6 [|x7 l]]]]]]]; try discriminate.
  - apply andb_true_iff in H as [H H4]. apply andb_true_iff in H as [H H3].
    apply andb_true_iff in H as [H H2]. apply byte_eqb_eq in H. subst x1.
    apply negb_true_iff, byte_eqb_neq in H3. apply negb_true_iff, byte_eqb_neq in H4.
    simpl. constructor; auto. lia.
  - apply andb_true_iff in H as [H H2]. apply byte_eqb_eq in H. subst x1.
    apply existsb_exists in H2 as ((e & d) & Hin & H2). simpl in H2.
    apply andb_true_iff in H2 as [H2 H3]. apply byte_eqb_eq in H2. apply byte_eqb_eq in H3.
    subst. simpl. constructor; auto.
  - apply andb_true_iff in H as [H H4]. apply andb_true_iff in H as [H H3].
    apply andb_true_iff in H as [H H2]. apply byte_eqb_eq in H. apply byte_eqb_eq in H2. subst.
    destruct (code_unit x3 x4 x5 x6) as [u|] eqn:E; [|discriminate].
    assert (u = b2n c) by lia. subst u. apply N.ltb_lt in H4.
    simpl. replace (c :: s) with (utf8 (b2n c) ++ s).
    + eapply JB_unicode; eauto; unfold high_surrogate, low_surrogate; lia.
    + unfold utf8. destruct (N.ltb_spec (b2n c) 128); [|lia]. rewrite n2b_b2n. reflexivity.
Qed.
Lemma escape_app a b : escape (a ++ b) = escape a ++ escape b.
Proof. apply flat_map_app. Qed.

Lemma json_body_det t d1 : json_body t d1 -> forall d2, json_body t d2 -> d1 = d2.
Proof.
  assert (Hsimple : forall e c, In (e, c) simple_escapes -> e <> x75).
  { intros e c Hin. simpl in Hin. decompose [or] Hin; try contradiction;
      match goal with H : _ = _ |- _ => inversion H; subst; discriminate end. }
  assert (Hfun : forall e c c', In (e, c) simple_escapes -> In (e, c') simple_escapes -> c = c').
  { intros e c c' H1 H2. simpl in H1, H2.
    decompose [or] H1; try contradiction; decompose [or] H2; try contradiction; congruence. }
  induction 1; intros d2 Hd2; inversion Hd2; subst; try congruence;
    try (match goal with H : In (x75, _) simple_escapes |- _ => apply Hsimple in H; congruence end);
    repeat match goal with
    | H1 : code_unit ?a ?b ?c ?d = Some ?x, H2 : code_unit ?a ?b ?c ?d = Some ?y |- _ =>
        assert (x = y) by congruence; subst; clear H2
    end; try contradiction; f_equal; eauto.
Qed.

Lemma escape_lookup_plain p c : plain p c ->
  escape_lookup p c = OK (nth (N.to_nat (b2n c)) escape_table None).
Proof.
  intros H. unfold escape_lookup, char_val.
  assert (E : p_char_signed p && (127 <? b2n c)%N = false).
  { destruct (p_char_signed p) eqn:Es; auto. specialize (H Es). cbn [andb]. lia. }
  rewrite E. unfold b2z. destruct (Z.ltb_spec (Z.of_N (b2n c)) 0); [lia|].
  repeat f_equal. lia.
Qed.
Lemma escape_lookup_inv p c e :
  escape_lookup p c = OK e -> plain p c /\ e = nth (N.to_nat (b2n c)) escape_table None.
Proof.
  intros H. assert (Hp : plain p c).
  { intros Hs. unfold escape_lookup, char_val in H. rewrite Hs in H. cbn [andb] in H.
    destruct (N.ltb_spec 127 (b2n c)); [|lia]. unfold b2z in H.
    pose proof (b2n_lt c).
    destruct (Z.ltb_spec (Z.of_N (b2n c) - 256) 0); [discriminate|lia]. }
  split; auto. rewrite escape_lookup_plain in H by auto. inversion H. reflexivity.
Qed.

Lemma escape_each_inv p s : forall sb w sb' w',
  escape_each p sb s w = Ret sb' w' ->
  quiet w w' /\ cb_id sb' = cb_id sb /\ Forall (plain p) s
  /\ (grows w -> cb_elems sb' = cb_elems sb ++ escape s).
Proof.
  induction s as [|c s IH]; intros sb w sb' w' H.
  - inversion H; subst. split; [apply quiet_refl|]. split; [reflexivity|]. split; [constructor|].
    intros _. simpl. rewrite app_nil_r. reflexivity.
  - cbn [escape_each] in H. minv H. apply lift_inv in Hm as [He ->].
    apply escape_lookup_inv in He as [Hp ->]. minv H.
    apply cb_push_inv in Hm as (-> & Hid & _ & Hg).
    apply IH in H as (Hq & Hid' & Hf & Hg').
    split; [eapply quiet_trans; [apply quiet_push|exact Hq]|].
    split; [congruence|]. split; [constructor; auto|].
    intros Hgr. rewrite Hg' by (eapply grows_later; [apply later_push|exact Hgr]).
    rewrite (Hg Hgr). cbn [cb_elems]. unfold escape. cbn [flat_map].
    rewrite <- app_assoc. reflexivity.
Qed.
Lemma escape_each_total p s : Forall (plain p) s -> forall sb w,
  exists sb' w', escape_each p sb s w = Ret sb' w'.
Proof.
  induction 1 as [|c s Hc Hs IH]; intros sb w; [do 2 eexists; reflexivity|].
  cbn [escape_each]. unfold mbind at 1. rewrite escape_lookup_plain by auto. cbn [lift].
  match goal with |- context [cb_push ?b ?e] => destruct (cb_push_total _ b e w) as (b' & Hb) end.
  unfold mbind. rewrite Hb. apply IH.
Qed.

(** ** What a claim's (pointer, length) pair denotes: the first [n] bytes, or with [n = 0] the C
    string. *)
Definition given (q : ptr) (n : N) (s : bytes) : Prop :=
  match q with
  | Null => False
  | Ptr _ m => if (n =? 0)%N then exists r, m = s ++ x00 :: r /\ no_nul s
               else (n <= N.of_nat (length m))%N /\ s = firstn (N.to_nat n) m
  end.
Lemma given_det q n s1 s2 : given q n s1 -> given q n s2 -> s1 = s2.
Proof.
  destruct q as [|b m]; [contradiction|]. simpl. destruct (n =? 0)%N.
  - intros (r1 & -> & H1) (r2 & E & H2).
    assert (H : strlen (s1 ++ x00 :: r1) = strlen (s2 ++ x00 :: r2)) by (rewrite E; reflexivity).
    rewrite !strlen_cstr in H by auto. inversion H as [Hl].
    assert (Hl' : length s1 = length s2) by lia.
    apply (f_equal (firstn (length s1))) in E. rewrite firstn_app_exact in E.
    rewrite Hl', firstn_app_exact in E. exact E.
  - intros (_ & ->) (_ & ->). reflexivity.
Qed.

(** The length used and the bytes read for it. *)
Lemma given_len q n s : given q n s -> length_or_strlen n q = OK (N.of_nat (length s)).
Proof.
  destruct q as [|b m]; [contradiction|]. simpl. unfold length_or_strlen.
  destruct (N.eqb_spec n 0).
  - intros (r & -> & H). simpl. apply strlen_cstr. exact H.
  - intros (H & ->). rewrite firstn_length. f_equal. lia.
Qed.
Lemma given_read q n s : given q n s -> exists b m, q = Ptr b m /\ take m (N.of_nat (length s)) = OK s.
Proof.
  destruct q as [|b m]; [contradiction|]. simpl. destruct (N.eqb_spec n 0).
  - intros (r & -> & H). exists b. eexists. split; [reflexivity|]. apply take_app.
  - intros (H & ->). exists b, m. split; [reflexivity|]. rewrite firstn_length.
    replace (N.of_nat (Nat.min (N.to_nat n) (length m))) with n by lia. apply take_ok. exact H.
Qed.
Lemma len_given q n k :
  length_or_strlen n q = OK k ->
  (exists s, given q n s /\ N.of_nat (length s) = k)
  \/ (0 < n)%N /\ k = n /\ (q = Null \/ exists b m, q = Ptr b m /\ (N.of_nat (length m) < n)%N).
Proof.
  unfold length_or_strlen. destruct (N.eqb_spec n 0) as [->|Hn].
  - destruct q as [|b m]; [discriminate|]. simpl. intros H.
    apply strlen_inv in H as (s & r & -> & H1 & ->). left. exists s. eauto.
  - intros H; inversion H; subst. destruct q as [|b m].
    + right. split; [lia|]. auto.
    + destruct (N.leb_spec k (N.of_nat (length m))).
      * left. exists (firstn (N.to_nat k) m). simpl. destruct (N.eqb_spec k 0); [lia|].
        rewrite firstn_length. split; [auto|lia].
      * right. split; [lia|]. split; [auto|]. right. eauto.
Qed.

(** [l8w8jwt_escape_claim_string] *)
Lemma escape_string_inv p sb q k w sb' w' :
  l8w8jwt_escape_claim_string p sb q k w = Ret sb' w' ->
  exists s, (k = 0%N /\ s = [] \/ exists b m, q = Ptr b m /\ take m k = OK s)
  /\ quiet w w' /\ cb_id sb' = cb_id sb /\ Forall (plain p) s
  /\ (grows w -> cb_elems sb' = cb_elems sb ++ escape s).
Proof.
  unfold l8w8jwt_escape_claim_string. destruct (N.eqb_spec k 0) as [->|Hk]; intros H.
  - inversion H; subst. exists []. split; [auto|]. split; [apply quiet_refl|].
    split; [reflexivity|]. split; [constructor|]. intros _. simpl. rewrite app_nil_r. reflexivity.
  - minv H. apply lift_inv in Hm as [Hd ->]. minv H. apply lift_inv in Hm as [Ht ->].
    destruct q as [|b m]; [discriminate|]. inversion Hd; subst.
    apply escape_each_inv in H. exists a0. split; [right; eauto|]. exact H.
Qed.
Lemma escape_string_given p sb q n s w sb' w' :
  given q n s ->
  l8w8jwt_escape_claim_string p sb q (N.of_nat (length s)) w = Ret sb' w' ->
  quiet w w' /\ cb_id sb' = cb_id sb /\ Forall (plain p) s
  /\ (grows w -> cb_elems sb' = cb_elems sb ++ escape s).
Proof.
  intros Hg H. apply escape_string_inv in H as (s' & Hs & H).
  assert (s' = s); [|subst; exact H].
  destruct Hs as [(Hl & ->)|(b & m & -> & Ht)].
  - destruct s; [reflexivity|simpl in Hl; lia].
  - destruct (given_read _ _ _ Hg) as (b' & m' & E & Ht'). inversion E; subst.
    rewrite Ht in Ht'. inversion Ht'. reflexivity.
Qed.
Lemma escape_string_total p sb q n s w :
  given q n s -> Forall (plain p) s ->
  exists sb' w', l8w8jwt_escape_claim_string p sb q (N.of_nat (length s)) w = Ret sb' w'.
Proof.
  intros Hg Hp. unfold l8w8jwt_escape_claim_string.
  destruct (N.eqb_spec (N.of_nat (length s)) 0); [do 2 eexists; reflexivity|].
  destruct (given_read _ _ _ Hg) as (b' & m' & -> & Ht').
  unfold mbind. cbn [deref lift]. rewrite Ht'. cbn [lift]. apply escape_each_total. exact Hp.
Qed.

(** ** Writing claims *)
Definition is_str (c : claim) : bool := (c_type c =? L8W8JWT_CLAIM_TYPE_STRING)%Z.
Definition member_bytes (str : bool) (k v : bytes) : bytes :=
  quoted (escape k) ++ lit ":" ++ (if str then quoted (escape v) else v).
(** The text written for claim [c]. *)
Definition text_of (c : claim) (t : bytes) : Prop :=
  exists k v, given (c_key c) (c_key_length c) k /\ given (c_value c) (c_value_length c) v
              /\ t = member_bytes (is_str c) k v.
(** Claims without a key are skipped. *)
Definition has_key (c : claim) : bool := negb (is_null (c_key c)).
Fixpoint join (ts : list bytes) : bytes :=
  match ts with [] => [] | [t] => t | t :: r => t ++ lit "," ++ join r end.
Definition join_more (ts : list bytes) : bytes := flat_map (fun t => lit "," ++ t) ts.
Lemma join_cons t ts : join (t :: ts) = t ++ join_more ts.
Proof.
  revert t. induction ts as [|u ts IH]; intros t; [simpl; rewrite app_nil_r; reflexivity|].
  change (join (t :: u :: ts)) with (t ++ lit "," ++ join (u :: ts)). rewrite IH.
  reflexivity.
Qed.

(** The claims the C code reads safely: as many as counted, with readable key and value, and
    characters escape_table can be indexed with. *)
Definition readable (p : platform) (c : claim) : Prop :=
  c_key c = Null \/
  exists k v, given (c_key c) (c_key_length c) k /\ given (c_value c) (c_value_length c) v
    /\ Forall (plain p) k /\ (is_str c = true -> Forall (plain p) v).

Lemma write_each_total p : forall cs sb eb n first w,
  (n <= N.of_nat (length cs))%N -> Forall (readable p) (firstn (N.to_nat n) cs) ->
  exists sb' w', write_each p sb eb cs n first w = Ret sb' w'.
Proof.
  induction cs as [|c cs IH]; intros sb eb n first w Hn Hr.
  - simpl in Hn. replace n with 0%N by lia. do 2 eexists. reflexivity.
  - cbn [write_each]. destruct (N.eqb_spec n 0) as [->|Hn0]; [do 2 eexists; reflexivity|].
    replace (N.to_nat n) with (S (N.to_nat (n - 1))) in Hr by lia. cbn [firstn] in Hr.
    inversion Hr as [|? ? Hc Hr']; subst. cbn [length] in Hn.
    assert (IH' : forall sb eb f w, exists sb' w', write_each p sb eb cs (n - 1) f w = Ret sb' w').
    { intros. apply IH; auto. lia. }
    destruct Hc as [Hnull|(k & v & Hk & Hv & Hpk & Hpv)].
    { rewrite Hnull. cbn [is_null]. apply IH'. }
    assert (Hnn : is_null (c_key c) = false).
    { destruct (c_key c); [contradiction|reflexivity]. }
    rewrite Hnn.
    set (m := if first then mret sb else cb_push sb (lit ",")).
    assert (Hm1 : exists sb1 w1, m w = Ret sb1 w1).
    { unfold m. destruct first; [do 2 eexists; reflexivity|].
      destruct (cb_push_total _ sb (lit ",") w) as (b & Hb). eauto. }
    clearbody m. destruct Hm1 as (sb1 & w1 & Hm1). unfold mbind at 1. rewrite Hm1.
    unfold mbind at 1. rewrite (given_len _ _ _ Hk). cbn [lift].
    unfold mbind at 1. rewrite (given_len _ _ _ Hv). cbn [lift].
    destruct (escape_string_total p (cb_clear eb) _ _ _ w1 Hk Hpk) as (eb1 & w2 & He).
    unfold mbind at 1. rewrite He.
    assert (Hpush : forall A (b : chillbuff A) e w, exists b', cb_push b e w = Ret b' (w_push w))
      by (intros; apply cb_push_total).
    destruct (Hpush _ sb1 (lit """") w2) as (sb2 & Hs). unfold mbind at 1. rewrite Hs. clear Hs.
    destruct (Hpush _ sb2 (cb_elems eb1) (w_push w2)) as (sb3 & Hs).
    unfold mbind at 1. rewrite Hs. clear Hs.
    destruct (Hpush _ sb3 (lit """:") (w_push (w_push w2))) as (sb4 & Hs).
    unfold mbind at 1. rewrite Hs. clear Hs. set (w3 := w_push (w_push (w_push w2))). clearbody w3.
    unfold is_str in Hpv.
    match goal with |- context [mbind ?m0 _ w3] =>
      assert (Hm0 : exists sb5 eb5 w5, m0 w3 = Ret (sb5, eb5) w5) end.
    { destruct (c_type c =? L8W8JWT_CLAIM_TYPE_STRING)%Z.
      - destruct (Hpush _ sb4 (lit """") w3) as (sb5 & Hs). unfold mbind at 1. rewrite Hs. clear Hs.
        destruct (escape_string_total p (cb_clear eb1) _ _ _ (w_push w3) Hv (Hpv eq_refl))
          as (eb2 & w4 & He2).
        unfold mbind at 1. rewrite He2.
        destruct (Hpush _ sb5 (cb_elems eb2) w4) as (sb6 & Hs). unfold mbind at 1. rewrite Hs. clear Hs.
        destruct (Hpush _ sb6 (lit """") (w_push w4)) as (sb7 & Hs).
        unfold mbind at 1. rewrite Hs. do 3 eexists. reflexivity.
      - destruct (N.of_nat (length v) =? 0)%N; [do 3 eexists; reflexivity|].
        destruct (given_read _ _ _ Hv) as (b' & m' & Eq & Ht'). rewrite Eq.
        unfold mbind at 1. cbn [deref lift]. unfold mbind at 1. rewrite Ht'. cbn [lift].
        destruct (Hpush _ sb4 v w3) as (sb5 & Hs). unfold mbind at 1. rewrite Hs.
        do 3 eexists. reflexivity. }
    destruct Hm0 as (sb5 & eb5 & w5 & Hm0). unfold mbind at 1. rewrite Hm0. apply IH'.
Qed.

Lemma write_each_inv p : forall cs sb eb n first w sb' w',
  write_each p sb eb cs n first w = Ret sb' w' ->
  quiet w w' /\ cb_id sb' = cb_id sb /\ (n <= N.of_nat (length cs))%N
  /\ Forall (readable p) (firstn (N.to_nat n) cs)
  /\ exists ts, Forall2 text_of (filter has_key (firstn (N.to_nat n) cs)) ts
     /\ (grows w -> cb_elems sb' = cb_elems sb ++ (if first then join ts else join_more ts)).
Proof.
  induction cs as [|c cs IH]; intros sb eb n first w sb' w' H.
  - destruct (N.eqb_spec n 0) as [->|Hn]; cbn [write_each] in H.
    + inversion H; subst. split; [apply quiet_refl|]. split; [reflexivity|].
      split; [lia|]. split; [constructor|]. exists []. split; [constructor|].
      intros _. destruct first; simpl; rewrite app_nil_r; reflexivity.
    + destruct (N.eqb_spec n 0); [lia|]. discriminate.
  - cbn [write_each] in H. destruct (N.eqb_spec n 0) as [->|Hn].
    { inversion H; subst. split; [apply quiet_refl|]. split; [reflexivity|].
      split; [lia|]. split; [constructor|]. exists []. split; [constructor|].
      intros _. destruct first; simpl; rewrite app_nil_r; reflexivity. }
    replace (N.to_nat n) with (S (N.to_nat (n - 1))) by lia. cbn [firstn filter length].
    unfold has_key at 1. destruct (is_null (c_key c)) eqn:Hnull; cbn [negb].
    { apply IH in H as (Hq & Hid & Hl & Hr & ts & Hts & Hg). split; [exact Hq|].
      split; [exact Hid|]. split; [lia|].
      split; [constructor; [left; destruct (c_key c); [reflexivity|discriminate]|exact Hr]|].
      exists ts. auto. }
    minv H.
    assert (H0 : quiet w w0 /\ cb_id a = cb_id sb
                 /\ (grows w -> cb_elems a = cb_elems sb ++ (if first then [] else lit ","))).
    { destruct first.
      - inversion Hm; subst. split; [apply quiet_refl|]. split; [reflexivity|].
        intros _. rewrite app_nil_r. reflexivity.
      - apply cb_push_inv in Hm as (-> & Hid & _ & Hg). split; [apply quiet_push|].
        split; [exact Hid|]. intros Hgr. rewrite (Hg Hgr). reflexivity. }
    clear Hm. destruct H0 as (Hq0 & Hid0 & Hg0).
    minvas H as a0 ? Hm. apply lift_inv in Hm as [Hlk ->].
    minvas H as a1 ? Hm. apply lift_inv in Hm as [Hlv ->].
    minvas H as a2 w1 Hesc.
    assert (Hk : exists k, given (c_key c) (c_key_length c) k /\ N.of_nat (length k) = a0).
    { apply len_given in Hlk as [Hk|(Hp & -> & [Hx|(b & m & Hx & Hlt)])]; auto.
      - rewrite Hx in Hnull. discriminate.
      - rewrite Hx in Hesc. apply escape_string_inv in Hesc as (s & Hs & _).
        destruct Hs as [(? & _)|(b' & m' & E & Ht)]; [lia|]. inversion E; subst.
        apply take_inv in Ht as [Ht _]. lia. }
    destruct Hk as (k & Hk & <-).
    apply (escape_string_given _ _ _ _ _ _ _ _ Hk) in Hesc as (Hq1 & Hid1 & Hpk & Hg1).
    minvas H as a3 ? Hm. apply cb_push_inv in Hm as (-> & Hid2 & _ & Hg2).
    minvas H as a4 ? Hm. apply cb_push_inv in Hm as (-> & Hid3 & _ & Hg3).
    minvas H as a5 ? Hm. apply cb_push_inv in Hm as (-> & Hid4 & _ & Hg4).
    set (w2 := w_push (w_push (w_push w1))) in *.
    assert (Hq2 : quiet w w2).
    { unfold w2. repeat (eapply quiet_trans; [|apply quiet_push]).
      eapply quiet_trans; eauto. }
    minvas H as [sb5 eb5] w3 Hval.
    assert (Hv : exists v, given (c_value c) (c_value_length c) v
              /\ (is_str c = true -> Forall (plain p) v)
              /\ quiet w2 w3 /\ cb_id sb5 = cb_id a5
              /\ (grows w2 -> cb_elems sb5
                              = cb_elems a5 ++ (if is_str c then quoted (escape v) else v))).
    { unfold is_str. destruct (c_type c =? L8W8JWT_CLAIM_TYPE_STRING)%Z.
      - minvas Hval as b0 ? Hm. apply cb_push_inv in Hm as (-> & Hid5 & _ & Hg5).
        minvas Hval as b1 w4 Hesc.
        assert (Hv : exists v, given (c_value c) (c_value_length c) v /\ N.of_nat (length v) = a1).
        { apply len_given in Hlv as [Hv|(Hp & -> & Hx)]; auto.
          apply escape_string_inv in Hesc as (s & Hs & _).
          destruct Hs as [(? & _)|(b' & m' & E & Ht)]; [lia|].
          destruct Hx as [Hx|(b & m & Hx & Hlt)]; rewrite Hx in E; inversion E; subst.
          apply take_inv in Ht as [Ht _]. lia. }
        destruct Hv as (v & Hv & <-).
        apply (escape_string_given _ _ _ _ _ _ _ _ Hv) in Hesc as (Hq6 & Hid6 & Hpv & Hg6).
        minvas Hval as b2 ? Hm. apply cb_push_inv in Hm as (-> & Hid7 & _ & Hg7).
        minvas Hval as b3 ? Hm. apply cb_push_inv in Hm as (-> & Hid8 & _ & Hg8).
        inversion Hval; subst. exists v. split; [exact Hv|]. split; [auto|].
        split; [repeat (eapply quiet_trans; [|apply quiet_push]);
                eapply quiet_trans; [apply quiet_push|exact Hq6]|].
        split; [congruence|]. intros Hgr.
        assert (Hgr1 : grows (w_push w2)) by (eapply grows_later; [apply later_push|exact Hgr]).
        assert (Hgr2 : grows w4) by (eapply grows_later; [apply quiet_later, Hq6|exact Hgr1]).
        rewrite (Hg8 (grows_later _ _ (later_push _) Hgr2)). cbn [cb_elems].
        rewrite (Hg7 Hgr2). cbn [cb_elems]. rewrite (Hg6 Hgr1), (Hg5 Hgr).
        cbn [cb_clear cb_elems app]. rewrite <- !app_assoc. reflexivity.
      - destruct (N.eqb_spec a1 0) as [->|Hn1].
        + inversion Hval; subst.
          apply len_given in Hlv as [(v & Hv & Hl0)|(Hp & Hz & _)]; [|lia].
          exists v. split; [exact Hv|]. split; [discriminate|]. split; [apply quiet_refl|].
          split; [reflexivity|]. intros _. destruct v; [rewrite app_nil_r; reflexivity|simpl in Hl0; lia].
        + minvas Hval as b0 ? Hm. apply lift_inv in Hm as [Hd ->].
          minvas Hval as a7 ? Hm. apply lift_inv in Hm as [Ht ->].
          minvas Hval as b1 ? Hm. apply cb_push_inv in Hm as (-> & Hid5 & _ & Hg5).
          inversion Hval; subst.
          assert (Hgv : given (c_value c) (c_value_length c) a7).
          { destruct (c_value c) as [|b m]; [discriminate|]. inversion Hd; subst.
            apply len_given in Hlv as [(v & Hv & Hl0)|(Hp & -> & [Hx|(b' & m' & Hx & Hlt)])].
            - destruct (given_read _ _ _ Hv) as (b' & m' & E & Ht'). inversion E; subst.
              rewrite Ht in Ht'. inversion Ht'; subst. exact Hv.
            - discriminate.
            - inversion Hx; subst. apply take_inv in Ht as [Ht _]. lia. }
          exists a7. split; [exact Hgv|]. split; [discriminate|]. split; [apply quiet_push|].
          split; [congruence|]. intros Hgr. rewrite (Hg5 Hgr). reflexivity. }
    destruct Hv as (v & Hv & Hpv & Hq3 & Hid5 & Hg5).
    apply IH in H as (Hq & Hid & Hl & Hr & ts & Hts & Hg).
    split; [eapply quiet_trans; [exact Hq2|]; eapply quiet_trans; eauto|].
    split; [congruence|]. split; [lia|].
    split; [constructor; [right; exists k, v; auto|exact Hr]|].
    exists (member_bytes (is_str c) k v :: ts).
    split; [constructor; [exists k, v; auto|exact Hts]|].
    intros Hgr.
    assert (Hgr0 : grows w0) by (eapply grows_later; [apply quiet_later, Hq0|exact Hgr]).
    assert (Hgr1 : grows w1) by (eapply grows_later; [apply quiet_later, Hq1|exact Hgr0]).
    assert (Hgr2 : grows w2) by (eapply grows_later; [apply quiet_later, Hq2|exact Hgr]).
    assert (Hgr3 : grows w3) by (eapply grows_later; [apply quiet_later, Hq3|exact Hgr2]).
    rewrite (Hg Hgr3), (Hg5 Hgr2).
    rewrite (Hg4 (grows_later _ _ (later_push _) (grows_later _ _ (later_push _) Hgr1))).
    cbn [cb_elems].
    rewrite (Hg3 (grows_later _ _ (later_push _) Hgr1)). cbn [cb_elems].
    rewrite (Hg2 Hgr1). cbn [cb_elems]. rewrite (Hg1 Hgr0). cbn [cb_clear cb_elems app].
    rewrite (Hg0 Hgr). rewrite <- !app_assoc. f_equal.
    rewrite join_cons. unfold member_bytes, quoted. destruct first; cbn [app join_more flat_map];
      rewrite <- ?app_assoc; cbn [app]; rewrite <- ?app_assoc; reflexivity.
Qed.

(** ** [l8w8jwt_write_claims] *)
Lemma write_claims_inv p sb claims n w rc sb' w' :
  wf w -> l8w8jwt_write_claims p sb claims n w = Ret (rc, sb') w' ->
  quiet w w' /\ cb_id sb' = cb_id sb
  /\ ((rc = L8W8JWT_NULL_ARG /\ claims = CNull /\ sb' = sb)
      \/ (rc = L8W8JWT_INVALID_ARG /\ n = 0%N /\ sb' = sb)
      \/ (rc = L8W8JWT_OUT_OF_MEM /\ w_alloc w (w_next w) = false /\ sb' = sb)
      \/ (rc = L8W8JWT_SUCCESS /\ (0 < n)%N /\ w_alloc w (w_next w) = true
          /\ exists b cs, claims = CArr b cs /\ (n <= N.of_nat (length cs))%N
             /\ Forall (readable p) (firstn (N.to_nat n) cs)
             /\ exists ts, Forall2 text_of (filter has_key (firstn (N.to_nat n) cs)) ts
                /\ (grows w -> cb_elems sb' = cb_elems sb ++ join ts))).
Proof.
  intros Hwf H. unfold l8w8jwt_write_claims in H. destruct claims as [|b cs].
  - inversion H; subst. split; [apply quiet_refl|]. auto.
  - destruct (N.eqb_spec n 0) as [->|Hn].
    { inversion H; subst. split; [apply quiet_refl|]. split; [reflexivity|]. right. left. auto. }
    minv H. rewrite cb_init_eq in Hm. destruct (w_alloc w (w_next w)) eqn:Ea; inversion Hm; subst.
    + minv H. apply write_each_inv in Hm0 as (Hq & Hid & Hl & Hr & ts & Hts & Hg).
      minv H. apply free_id_inv in Hm0 as [_ ->]. inversion H; subst. cbn [cb_id].
      split; [apply quiet_alloc_free; auto|]. split; [exact Hid|].
      right. right. right. split; [reflexivity|]. split; [lia|]. split; [reflexivity|].
      exists b, cs. split; [reflexivity|]. split; [exact Hl|]. split; [exact Hr|].
      exists ts. split; [exact Hts|]. intros Hgr. apply Hg.
      eapply grows_later; [apply later_ok|exact Hgr].
    + inversion H; subst. split; [apply quiet_no|]. split; [reflexivity|].
      right. right. left. auto.
Qed.
Lemma write_claims_total p sb b cs n w :
  (n <= N.of_nat (length cs))%N -> Forall (readable p) (firstn (N.to_nat n) cs) -> wf w ->
  exists r w', l8w8jwt_write_claims p sb (CArr b cs) n w = Ret r w'.
Proof.
  intros Hn Hr Hwf. unfold l8w8jwt_write_claims.
  destruct (n =? 0)%N; [do 2 eexists; reflexivity|].
  unfold mbind at 1. rewrite cb_init_eq.
  destruct (w_alloc w (w_next w)) eqn:Ea; [|do 2 eexists; reflexivity].
  destruct (write_each_total p cs sb (CB (w_next w) []) n true (w_ok w) Hn Hr) as (sb' & w1 & H).
  unfold mbind at 1. rewrite H. apply write_each_inv in H as (Hq & _).
  unfold cb_free. cbn [cb_id]. unfold mbind at 1. rewrite free_id_eq.
  - do 2 eexists. reflexivity.
  - destruct Hq as [_ Hq]. rewrite Hq. cbn. apply upd_live_same.
Qed.
