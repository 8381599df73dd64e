(** * Lemmas about decoding: ownership, segments, signature verification *)
From Verif Require Import Base BaseProofs HeapProofs Util UtilProofs Claim Base64 SpecB64
  Base64EncApi Base64DecProofs Base64Api Jsmn Env Encode Decode SpecJson SpecJwa ClaimProofs UnescapeProofs
  SignProofs.
From Coq Require Import ZifyBool ZifyNat ZifyN Permutation.
Ltac Zify.zify_post_hook ::= Z.div_mod_to_equations.

(** ** Ownership: [adds w w' l]: from [w] to [w'] exactly the fresh blocks [l] became live. *)
Definition adds (w w' : world) (l : list nat) : Prop :=
  later w w' /\ NoDup l /\ (forall i, In i l -> (w_next w <= i < w_next w')%nat)
  /\ (forall i, w_live w' i = true <-> w_live w i = true \/ In i l).

Lemma adds_quiet w w' : quiet w w' -> adds w w' [].
Proof.
  intros [H K]. split; [exact H|]. split; [constructor|]. split; [intros i []|].
  intros i. rewrite K. simpl. tauto.
Qed.
Lemma adds_refl w : adds w w [].
Proof. apply adds_quiet, quiet_refl. Qed.
Lemma adds_later w w' l : adds w w' l -> later w w'.
Proof. intros [H _]. exact H. Qed.
Lemma adds_wf w w' l : adds w w' l -> wf w -> wf w'.
Proof.
  intros ((_ & _ & _ & Hn & _) & _ & Hr & Hl) Hwf i Hi.
  destruct (w_live w' i) eqn:E; [|reflexivity]. apply Hl in E as [E|E].
  - rewrite Hwf in E by lia. discriminate.
  - apply Hr in E. lia.
Qed.
Lemma adds_trans a b c l1 l2 : adds a b l1 -> adds b c l2 -> adds a c (l1 ++ l2).
Proof.
  intros (L1 & N1 & R1 & V1) (L2 & N2 & R2 & V2).
  pose proof L1 as (_ & _ & _ & H1 & _). pose proof L2 as (_ & _ & _ & H2 & _).
  split; [eapply later_trans; eauto|]. split; [|split].
  - clear V1 V2. induction l1 as [|x l1 IH]; [exact N2|]. inversion N1; subst. cbn [app]. constructor.
    + intros Hin. apply in_app_iff in Hin as [Hin|Hin]; [contradiction|].
      apply R2 in Hin. specialize (R1 x (or_introl eq_refl)). lia.
    + apply IH; auto. intros i Hi. apply R1. right. exact Hi.
  - intros i Hi. apply in_app_iff in Hi as [Hi|Hi]; [apply R1 in Hi|apply R2 in Hi]; lia.
  - intros i. rewrite V2, V1, in_app_iff. tauto.
Qed.
Lemma adds_perm w w' l l' : Permutation l l' -> adds w w' l -> adds w w' l'.
Proof.
  intros Hp (H1 & H2 & H3 & H4). split; [exact H1|]. split; [eapply Permutation_NoDup; eauto|].
  split.
  - intros i Hi. apply H3. eapply Permutation_in; [symmetry; exact Hp|exact Hi].
  - intros i. rewrite H4. split; intros [H|H]; auto; right; eapply Permutation_in; try exact H;
      [exact Hp|symmetry; exact Hp].
Qed.
Lemma adds_ok w : adds w (w_ok w) [w_next w].
Proof.
  split; [apply later_ok|]. split; [constructor; [intros []|constructor]|]. split.
  - intros i [<-|[]]. simpl. lia.
  - intros i. cbn [w_ok w_live In]. unfold upd_live. destruct (Nat.eqb_spec i (w_next w)) as [->|H];
      intuition congruence.
Qed.
Lemma adds_no w : adds w (w_no w) [].
Proof. apply adds_quiet, quiet_no. Qed.
Lemma adds_free w w' l1 id l2 :
  wf w -> adds w w' (l1 ++ id :: l2) -> w_live w' id = true /\ adds w (w_free w' id) (l1 ++ l2).
Proof.
  intros Hwf (H1 & H2 & H3 & H4).
  assert (Hin : In id (l1 ++ id :: l2)) by (apply in_app_iff; right; left; reflexivity).
  split; [apply H4; right; exact Hin|].
  pose proof (NoDup_remove _ _ _ H2) as [Hn Hni].
  split; [eapply later_trans; [exact H1|apply later_free]|]. split; [exact Hn|]. split.
  - intros i Hi. apply H3. apply in_app_iff in Hi. apply in_app_iff. simpl. tauto.
  - intros i. cbn [w_free w_live]. unfold upd_live. destruct (Nat.eqb_spec i id) as [->|Hi].
    + split; [discriminate|]. intros [H|H]; [|contradiction].
      apply H3 in Hin. rewrite Hwf in H by lia. discriminate.
    + rewrite H4, !in_app_iff. simpl. intuition congruence.
Qed.
Lemma adds_cons_free w w' id l :
  wf w -> adds w w' (id :: l) -> w_live w' id = true /\ adds w (w_free w' id) l.
Proof. intros Hwf H. apply (adds_free w w' [] id l Hwf H). Qed.
Lemma adds_fresh w w' l id : wf w -> adds w w' l -> In id l -> w_live w id = false.
Proof. intros Hwf (_ & _ & H & _) Hin. apply Hwf. apply H in Hin. lia. Qed.

(** ** strchr *)
Lemma strchr_inv c m o : c <> x00 -> strchr m c = OK o ->
  match o with
  | Some n => exists s r, m = s ++ c :: r /\ length s = n /\ ~ In c s /\ no_nul s
  | None => exists s r, m = s ++ x00 :: r /\ ~ In c s /\ no_nul s
  end.
Proof.
  intros Hc. revert o. induction m as [|x m IH]; intros o H; cbn [strchr] in H; [discriminate|].
  destruct (Byte.eqb x c) eqn:E.
  { apply byte_eqb_eq in E. inversion H; subst. exists [], m. repeat split; intros []. }
  apply byte_eqb_neq in E. destruct (is_nul x) eqn:En.
  { apply is_nul_true in En. inversion H; subst. exists [], m. repeat split; intros []. }
  apply is_nul_false in En. apply ubind_inv in H as (o' & Ho & H). inversion H; subst. clear H.
  specialize (IH _ Ho). destruct o' as [n|]; cbn [option_map].
  - destruct IH as (s & r & -> & Hl & Hn & Hz). exists (x :: s), r.
    split; [reflexivity|]. split; [simpl; lia|]. split; [intros [|]; congruence|].
    intros [|]; [congruence|contradiction].
  - destruct IH as (s & r & -> & Hn & Hz). exists (x :: s), r.
    split; [reflexivity|]. split; [intros [|]; congruence|]. intros [|]; [congruence|contradiction].
Qed.
Lemma strchr_some c s r : c <> x00 -> ~ In c s -> no_nul s -> strchr (s ++ c :: r) c = OK (Some (length s)).
Proof.
  intros Hc. induction s as [|x s IH]; intros H1 H2; cbn [app strchr].
  - rewrite byte_eqb_refl. reflexivity.
  - apply no_nul_cons in H2 as [Hx H2]. cbn [In] in H1.
    destruct (Byte.eqb x c) eqn:E; [apply byte_eqb_eq in E; exfalso; apply H1; auto|].
    destruct (is_nul x) eqn:En; [apply is_nul_true in En; contradiction|].
    rewrite IH by auto. reflexivity.
Qed.
Lemma strchr_none c s r : c <> x00 -> ~ In c s -> no_nul s -> strchr (s ++ x00 :: r) c = OK None.
Proof.
  intros Hc. induction s as [|x s IH]; intros H1 H2; cbn [app strchr].
  - destruct (Byte.eqb x00 c) eqn:E; [apply byte_eqb_eq in E; congruence|]. reflexivity.
  - apply no_nul_cons in H2 as [Hx H2]. cbn [In] in H1.
    destruct (Byte.eqb x c) eqn:E; [apply byte_eqb_eq in E; exfalso; apply H1; auto|].
    destruct (is_nul x) eqn:En; [apply is_nul_true in En; contradiction|].
    rewrite IH by auto. reflexivity.
Qed.

(** ** Base64 segments *)
(** [b64_decodes t o tail]: the text [t] decodes to [o], with [tail] behind it in the buffer. *)
Definition b64_decodes (t o tail : bytes) : Prop :=
  let l := syms true t in
  t <> [] /\ bad_count true (length l) = false
  /\ exists lf, dec_all true l = Some (o, lf)
     /\ tail = lf ++ repeat x00 (dec_size (length l) - (length o + length lf)).
Lemma b64_decodes_len t o tail : b64_decodes t o tail -> (1 <= length o)%nat /\ (1 <= length tail)%nat.
Proof.
  intros (_ & Hb & lf & Hd & ->). pose proof (dec_len_bound _ _ _ _ Hb Hd) as [H1 _].
  pose proof (dec_room _ _ _ _ _ eq_refl Hb Hd) as H2. split; [exact H1|].
  rewrite app_length, repeat_length. lia.
Qed.
Lemma b64_decodes_fun t o o' tail tail' : b64_decodes t o tail -> b64_decodes t o' tail' -> o = o' /\ tail = tail'.
Proof.
  intros (_ & _ & lf & H & ->) (_ & _ & lf' & H' & ->). rewrite H in H'. inversion H'; subst. auto.
Qed.

Lemma b64_decode_len b mem n w r w' :
  l8w8jwt_base64_decode true (Ptr b mem) n true true w = Ret r w' -> (n <= N.of_nat (length mem))%N.
Proof.
  unfold l8w8jwt_base64_decode. cbn [is_null negb orb].
  destruct (N.eqb_spec n 0) as [->|Hn]; [intros _; lia|].
  intros H. minvas H as m w1 Hm. apply lift_inv in Hm as [Hm ->]. inversion Hm; subst.
  minvas H as l w2 Hl. apply lift_inv in Hl as [Hl ->]. apply read_at_inv in Hl as [Hl _]. lia.
Qed.

Lemma b64_decode_inv b mem n w r w' :
  wf w -> l8w8jwt_base64_decode true (Ptr b mem) n true true w = Ret r w' ->
  (n <= N.of_nat (length mem))%N
  /\ ((b_rc r <> L8W8JWT_SUCCESS /\ (b_out r = None \/ b_out r = Some Null) /\ b_len r = None
       /\ adds w w' [])
      \/ (b_rc r = L8W8JWT_SUCCESS
          /\ exists o tail, b64_decodes (firstn (N.to_nat n) mem) o tail
             /\ b_out r = Some (Ptr (Some (w_next w)) (o ++ tail))
             /\ b_len r = Some (N.of_nat (length o)) /\ adds w w' [w_next w])).
Proof.
  intros Hwf H. pose proof (b64_decode_len _ _ _ _ _ _ H) as Hl. split; [exact Hl|].
  destruct (decode_cases true b mem n w Hwf Hl) as (r' & w'' & H' & Hwf' & Hcs).
  rewrite H in H'. inversion H'; subst r' w''. clear H'.
  assert (Lt : later w w').
  { clear Hcs. revert H. unfold l8w8jwt_base64_decode. cbn [is_null negb orb].
    destruct (n =? 0)%N; [intros H; inversion H; apply later_refl|]. intros H.
    minvas H as m w1 H1. apply lift_inv in H1 as [_ ->].
    minvas H as m1 w1 H1. apply lift_inv in H1 as [_ ->].
    minvas H as m2 w1 H1. apply lift_inv in H1 as [_ ->].
    destruct (_ || _); [inversion H; apply later_refl|].
    minvas H as o w1 H1. rewrite calloc_eq in H1.
    destruct (w_alloc w (w_next w)); inversion H1; subst; clear H1.
    2:{ inversion H. apply later_no. }
    minvas H as m3 w1 H1. apply lift_inv in H1 as [_ ->]. destruct m3.
    - inversion H. apply later_ok.
    - minvas H as u w1 H1. cbn [free] in H1. apply free_id_inv in H1 as [_ ->]. inversion H.
      eapply later_trans; [apply later_ok|apply later_free]. }
  destruct Hcs as [(Hrc & Ho & Hln & Hlv)|(Hrc & Ha & -> & Hn & Hb & o & lf & z & Hd & -> & Ho & Hln)].
  - left. split; [exact Hrc|]. split; [exact Ho|]. split; [exact Hln|]. apply adds_quiet. split; auto.
  - right. split; [exact Hrc|]. exists o. eexists. split.
    + rewrite syms_strip in Hb, Hd. split.
      { intros E. apply (f_equal (@length byte)) in E. rewrite firstn_length in E. simpl in E. lia. }
      split; [exact Hb|]. exists lf. split; [exact Hd|reflexivity].
    + rewrite syms_strip in Ho. split; [exact Ho|]. split; [exact Hln|]. apply adds_ok.
Qed.

Definition seg_blocks (s : seg) : list nat := match s_ptr s with Ptr (Some id) _ => [id] | _ => [] end.
Definition seg_heap (s : seg) : Prop := match s_ptr s with Ptr None _ => False | _ => True end.
Definition segs_blocks (sg : segs) : list nat :=
  seg_blocks (sg_header sg) ++ seg_blocks (sg_payload sg) ++ seg_blocks (sg_signature sg).
Definition segs_heap (sg : segs) : Prop :=
  seg_heap (sg_header sg) /\ seg_heap (sg_payload sg) /\ seg_heap (sg_signature sg).
(** The segment holds what [t] decodes to. *)
Definition seg_of (t : bytes) (s : seg) : Prop :=
  exists id o tail, b64_decodes t o tail /\ s = Seg (Ptr (Some id) (o ++ tail)) (N.of_nat (length o)).

(** The parts of a token text. *)
Definition no_dot (s : bytes) : Prop := ~ In x2e s.
Definition three_parts (jwt h pl rest : bytes) : Prop :=
  jwt = h ++ lit "." ++ pl ++ lit "." ++ rest /\ no_dot h /\ no_nul h /\ no_dot pl /\ no_nul pl.

Definition segments_ok (p : platform) (dp : dec_params) (sg : segs) : Prop :=
  exists b jwt, dp_jwt dp = Ptr b jwt
  /\ ((exists h pl rest n, three_parts jwt h pl rest
        /\ n = to_size p (Z.of_N (dp_jwt_length dp) - Z.of_nat (length h + length pl + 2))
        /\ (n <= N.of_nat (length rest))%N
        /\ seg_of h (sg_header sg) /\ seg_of pl (sg_payload sg)
        /\ seg_of (firstn (N.to_nat n) rest) (sg_signature sg))
      \/ (dp_alg dp = (-1)%Z
          /\ exists h s rest n, jwt = h ++ lit "." ++ s ++ x00 :: rest
             /\ no_dot h /\ no_nul h /\ no_dot s /\ no_nul s
             /\ n = to_size p (Z.of_N (dp_jwt_length dp) - Z.of_nat (length h + 1))
             /\ (n <= N.of_nat (length (s ++ x00 :: rest)))%N
             /\ seg_of h (sg_header sg) /\ seg_of (firstn (N.to_nat n) (s ++ x00 :: rest)) (sg_payload sg)
             /\ sg_signature sg = seg0)).

(** What a base64 call leaves in a segment. *)
Lemma seg_upd_inv b mem n w r w' :
  wf w -> l8w8jwt_base64_decode true (Ptr b mem) n true true w = Ret r w' ->
  let s := seg_upd seg0 r in
  adds w w' (seg_blocks s) /\ seg_heap s /\ (n <= N.of_nat (length mem))%N
  /\ (b_rc r <> L8W8JWT_SUCCESS -> s = seg0)
  /\ (b_rc r = L8W8JWT_SUCCESS -> seg_of (firstn (N.to_nat n) mem) s).
Proof.
  intros Hwf H s. apply b64_decode_inv in H as (Hl & [(Hrc & Ho & Hn & Ha)|(Hrc & o & tail & Hd & Ho & Hn & Ha)]); auto.
  - assert (E : s = seg0) by (unfold s, seg_upd; rewrite Hn; destruct Ho as [-> | ->]; reflexivity).
    rewrite E. split; [exact Ha|]. split; [exact I|]. split; [exact Hl|]. split; [reflexivity|congruence].
  - assert (E : s = Seg (Ptr (Some (w_next w)) (o ++ tail)) (N.of_nat (length o)))
      by (unfold s, seg_upd; rewrite Ho, Hn; reflexivity).
    rewrite E. split; [exact Ha|]. split; [exact I|]. split; [exact Hl|]. split; [congruence|].
    intros _. exists (w_next w), o, tail. auto.
Qed.

Lemma decode_segments_inv p dp w rc sg w' :
  wf w -> l8w8jwt_decode_segments p dp w = Ret (rc, sg) w' ->
  adds w w' (segs_blocks sg) /\ segs_heap sg
  /\ (rc = L8W8JWT_SUCCESS -> segments_ok p dp sg).
Proof.
  intros Hwf H. unfold l8w8jwt_decode_segments in H.
  minvas H as jwt w1 H1. apply lift_inv in H1 as [Hj ->].
  destruct (dp_jwt dp) as [|b jwt'] eqn:Ej; inversion Hj; subst jwt'. clear Hj.
  minvas H as o w1 H1. apply lift_inv in H1 as [Ho ->]. apply strchr_inv in Ho; [|discriminate].
  destruct o as [n1|].
  2:{ inversion H; subst. split; [apply adds_refl|]. split; [repeat split|]. discriminate. }
  destruct Ho as (h & r1 & -> & <- & Hd1 & Hz1).
  minvas H as r w1 H1. apply (seg_upd_inv _ _ _ _ _ _ Hwf) in H1. cbv zeta in H1.
  set (sh := seg_upd seg0 r) in *. destruct H1 as (A1 & G1 & _ & F1 & S1).
  pose proof (adds_wf _ _ _ A1 Hwf) as Hwf1.
  destruct (Z.eqb_spec (b_rc r) L8W8JWT_SUCCESS) as [E1|E1]; cbn [negb] in H.
  2:{ inversion H; subst. unfold segs_blocks, segs_heap. cbn. rewrite app_nil_r.
      split; [exact A1|]. split; [repeat split; exact G1|].
      unfold b64_err. destruct (Z.eqb_spec (b_rc r) L8W8JWT_OUT_OF_MEM) as [->|]; discriminate. }
  specialize (S1 E1). rewrite Nat2N.id, firstn_app_exact in S1.
  replace (skipn (S (length h)) (h ++ x2e :: r1)) with r1 in H
    by (rewrite skipn_app, skipn_all2 by lia; replace (S (length h) - length h)%nat with 1%nat by lia; reflexivity).
  minvas H as o w2 H1. apply lift_inv in H1 as [Ho ->]. apply strchr_inv in Ho; [|discriminate].
  destruct o as [n2|].
  - destruct Ho as (pl & rest & -> & <- & Hd2 & Hz2). cbn [andb] in H.
    minvas H as r2 w2 H1. apply (seg_upd_inv _ _ _ _ _ _ Hwf1) in H1. cbv zeta in H1.
    set (sp := seg_upd seg0 r2) in *. destruct H1 as (A2 & G2 & _ & F2 & S2).
    pose proof (adds_wf _ _ _ A2 Hwf1) as Hwf2.
    destruct (Z.eqb_spec (b_rc r2) L8W8JWT_SUCCESS) as [E2|E2]; cbn [negb] in H.
    2:{ inversion H; subst. unfold segs_blocks, segs_heap. cbn. rewrite app_nil_r.
        split; [eapply adds_trans; eauto|]. split; [repeat split; auto|].
        unfold b64_err. destruct (Z.eqb_spec (b_rc r2) L8W8JWT_OUT_OF_MEM) as [->|]; discriminate. }
    specialize (S2 E2). rewrite Nat2N.id, firstn_app_exact in S2.
    replace (skipn (S (length pl)) (pl ++ x2e :: rest)) with rest in H
      by (rewrite skipn_app, skipn_all2 by lia; replace (S (length pl) - length pl)%nat with 1%nat by lia; reflexivity).
    minvas H as r3 w3 H1. apply (seg_upd_inv _ _ _ _ _ _ Hwf2) in H1. cbv zeta in H1.
    set (ss := seg_upd seg0 r3) in *. destruct H1 as (A3 & G3 & L3 & F3 & S3).
    assert (A : adds w w3 (seg_blocks sh ++ seg_blocks sp ++ seg_blocks ss))
      by (eapply adds_trans; [eauto|eapply adds_trans; eauto]).
    destruct (Z.eqb_spec (b_rc r3) L8W8JWT_SUCCESS) as [E3|E3]; cbn [negb] in H; inversion H; subst; clear H.
    2:{ split; [exact A|]. split; [repeat split; auto|].
        unfold b64_err. destruct (Z.eqb_spec (b_rc r3) L8W8JWT_OUT_OF_MEM) as [->|]; discriminate. }
    split; [exact A|]. split; [repeat split; auto|]. intros _.
    eexists. eexists. split; [exact Ej|]. left. exists h, pl, rest.
    replace (S (length h) + S (length pl))%nat with (length h + length pl + 2)%nat in * by lia.
    eexists. split; [split; [reflexivity|auto]|]. split; [reflexivity|].
    split; [exact L3|]. split; [exact S1|]. split; [exact S2|]. exact (S3 E3).
  - destruct Ho as (s & rest & -> & Hd2 & Hz2). cbn [andb] in H.
    destruct (Z.eqb_spec (dp_alg dp) (-1)) as [Ea|Ea]; cbn [negb] in H.
    2:{ inversion H; subst. unfold segs_blocks, segs_heap. cbn. rewrite app_nil_r.
        split; [exact A1|]. split; [repeat split; exact G1|]. discriminate. }
    minvas H as r2 w2 H1. apply (seg_upd_inv _ _ _ _ _ _ Hwf1) in H1. cbv zeta in H1.
    set (sp := seg_upd seg0 r2) in *. destruct H1 as (A2 & G2 & L2 & F2 & S2).
    destruct (Z.eqb_spec (b_rc r2) L8W8JWT_SUCCESS) as [E2|E2]; cbn [negb] in H; inversion H; subst; clear H;
      unfold segs_blocks, segs_heap; cbn; rewrite app_nil_r;
      (split; [eapply adds_trans; eauto|]; split; [repeat split; auto|]).
    2:{ unfold b64_err. destruct (Z.eqb_spec (b_rc r2) L8W8JWT_OUT_OF_MEM) as [->|]; discriminate. }
    intros _. eexists. eexists. split; [exact Ej|]. right. split; [exact Ea|].
    exists h, s, rest. replace (Z.of_nat (length h + 1)) with (Z.of_nat (S (length h))) by lia.
    eexists. split; [reflexivity|]. do 4 (split; [auto|]). split; [reflexivity|]. cbn [sg_header sg_payload sg_signature].
    split; [exact L2|]. split; [exact S1|]. split; [exact (S2 E2)|reflexivity].
Qed.

(** ** Signature verification *)
Lemma app_eq_length {A} (a b c d : list A) : a ++ b = c ++ d -> length a = length c -> a = c /\ b = d.
Proof.
  revert c. induction a as [|x a IH]; intros [|y c] H L; try discriminate L; [auto|].
  cbn [app] in H. inversion H; subst. destruct (IH c H2) as [-> ->]; [simpl in L; lia|auto].
Qed.
Lemma hexdig_nul v : hexdig x00 = Some v -> False.
Proof. vm_compute. discriminate. Qed.
Lemma unhex_no_nul s : forall kb, unhex s = Some kb -> no_nul s.
Proof.
  induction s as [|a|a b s IH] using list2_ind; intros kb H; [intros []|discriminate|].
  cbn [unhex] in H. destruct (hexdig a) as [u|] eqn:E1; [|discriminate].
  destruct (hexdig b) as [v|] eqn:E2; [|discriminate]. destruct (unhex s) as [r|]; [|discriminate].
  intros [->|[->|Hin]]; [eapply hexdig_nul; eauto|eapply hexdig_nul; eauto|exact (IH r eq_refl Hin)].
Qed.
Lemma prefixb_spec a m : prefixb a m = true <-> exists r, m = a ++ r.
Proof.
  revert m. induction a as [|x a IH]; intros m; cbn [prefixb].
  - split; [intros _; exists m; reflexivity|reflexivity].
  - destruct m as [|y m]; [split; [discriminate|intros (r & H); discriminate]|].
    rewrite andb_true_iff, byte_eqb_eq, IH. split.
    + intros (-> & r & ->). exists r. reflexivity.
    + intros (r & H). inversion H; subst. split; eauto.
Qed.
Lemma substrb_spec n m : substrb n m = true <-> exists a r, m = a ++ n ++ r.
Proof.
  induction m as [|y m IH]; cbn [substrb]; rewrite orb_true_iff, prefixb_spec.
  - split.
    + intros [(r & H)|H]; [exists [], r; exact H|discriminate].
    + intros (a & r & H). left. destruct a; [exists r; exact H|discriminate].
  - rewrite IH. split.
    + intros [(r & H)|(a & r & H)]; [exists [], r; exact H|exists (y :: a), r; rewrite H; reflexivity].
    + intros (a & r & H). destruct a as [|x a]; [left; exists r; exact H|].
      right. inversion H; subst. eauto.
Qed.
Lemma before_nul_cstr s r : no_nul s -> before_nul (s ++ x00 :: r) = s.
Proof.
  induction s as [|c s IH]; intros H; [reflexivity|]. apply no_nul_cons in H as [H1 H2].
  cbn [app before_nul]. apply is_nul_false in H1. rewrite H1, IH by auto. reflexivity.
Qed.
Lemma before_nul_zeros k n : before_nul (k ++ repeat x00 n) = before_nul k.
Proof.
  induction k as [|c k IH]; cbn [app before_nul].
  - destruct n; reflexivity.
  - destruct (is_nul c); [reflexivity|]. rewrite IH. reflexivity.
Qed.
Lemma strstr_inv key needle b :
  strstr_found key needle = OK b -> (b = true <-> exists x y, before_nul key = x ++ needle ++ y).
Proof.
  unfold strstr_found. intros H. apply ubind_inv in H as (n & Hn & H). inversion H; subst. clear H.
  apply strlen_inv in Hn as (s & r & -> & Hz & ->). rewrite Nat2N.id, firstn_app_exact, before_nul_cstr by auto.
  apply substrb_spec.
Qed.

Section Verify.
Variables (p : platform) (e : env) (k : bytes) (n : N).
Hypothesis Hk : length k = N.to_nat n.
Hypothesis Hn : (0 < n <= 8192)%N.
Let key := k ++ repeat x00 (N.to_nat (L8W8JWT_MAX_KEY_SIZE - n)).

Lemma take_key_inv kl s : adjust_key_length key n = OK kl -> take key kl = OK s -> s = pem_text k.
Proof.
  intros Ha Ht. destruct (adjust_key_eq k n Hk Hn) as (kl' & Ha' & _ & _ & E). fold key in Ha', E.
  rewrite Ha' in Ha. inversion Ha; subst kl'. rewrite Ht in E. destruct (kl <=? 8192)%N; congruence.
Qed.
Lemma load_cert_inv kl o :
  adjust_key_length key n = OK kl -> load_cert e key kl = OK o ->
  (certificate k /\ o = option_map Some (e_x509_parse e (pem_text k)))
  \/ (~ certificate k /\ o = Some None).
Proof.
  intros Ha H. unfold load_cert in H. apply ubind_inv in H as (c & Hc & H). apply strstr_inv in Hc.
  unfold key in Hc. rewrite before_nul_zeros in Hc. fold key in Hc.
  destruct c.
  - left. split; [apply Hc; reflexivity|]. apply ubind_inv in H as (s & Hs & H).
    apply (take_key_inv kl) in Hs; auto. subst s. inversion H. destruct (e_x509_parse e (pem_text k)); reflexivity.
  - right. split; [intros C; apply Hc in C; discriminate|]. congruence.
Qed.
Lemma public_key_inv kl crt pk :
  adjust_key_length key n = OK kl -> load_cert e key kl = OK (Some crt) ->
  public_key e crt key kl = OK (Some pk) -> public_key_of e k pk.
Proof.
  intros Ha Hc H. apply (load_cert_inv kl) in Hc; auto. unfold public_key in H.
  destruct Hc as [(C & E)|(C & E)].
  - left. split; [exact C|]. destruct (e_x509_parse e (pem_text k)) as [x|]; [|discriminate].
    cbn in E. inversion E; subst. congruence.
  - right. split; [exact C|]. inversion E; subst. apply ubind_inv in H as (s & Hs & H).
    apply (take_key_inv kl) in Hs; auto. subst s. congruence.
Qed.
Lemma verify_hash_inv alg j msg hash :
  supported alg j -> (3 <= alg <= 12)%Z -> verify_hash e alg msg = Some hash ->
  exists d0, e_md e (j_hash j) msg = Some d0 /\ hash = fit (md_size (j_hash j)) d0.
Proof.
  intros Hj R H. unfold verify_hash in H.
  replace ((3 <=? alg) && (alg <=? 12))%Z with true in H by lia.
  assert (E : dec_md_info_from_alg alg = Some (j_hash j)).
  { destruct Hj as [Hin <-]. simpl in Hin. decompose [or] Hin; try contradiction; subst; reflexivity. }
  rewrite E in H. destruct (e_md e (j_hash j) msg) as [d0|]; inversion H; subst. eauto.
Qed.

Definition verified_iff (j : jwa) (msg sig tail : bytes) (f : bool) : Prop :=
  f = false <-> exists looked, signature_read e j k sig tail looked /\ verified_by e j k msg looked.

Lemma verify_hs_inv alg j crt kl msg hash sig tail f :
  supported alg j -> j_family j = HS -> adjust_key_length key n = OK kl ->
  verify_switch p e alg crt key kl msg hash (sig ++ tail) (N.of_nat (length sig)) = OK (VFlag f) ->
  verified_iff j msg sig tail f.
Proof.
  intros Hj Hf Ha H.
  destruct (adjust_key_eq k n Hk Hn) as (kl' & Ha' & _ & E & _). fold key in Ha', E.
  rewrite Ha' in Ha. inversion Ha; subst kl'.
  assert (H' : (match e_hmac e (j_hash j) (hmac_key k) msg with
          | None => OK (VFlag true)
          | Some mac =>
              eq <-u memcmp_eq (sig ++ tail) (fit 64 (fit (md_size (j_hash j)) mac)) (md_size (j_hash j)) ;;
              OK (VFlag (negb eq))
          end) = OK (VFlag f)).
  { rewrite <- H. unfold verify_switch. destruct Hj as [Hin <-]. simpl in Hin.
    decompose [or] Hin; try contradiction; subst; simpl in Hf; try discriminate Hf; cbn [j_id j_hash dec_md_info_from_alg];
      rewrite E; reflexivity. }
  clear H. unfold verified_iff, signature_read, verified_by. rewrite Hf.
  destruct (e_hmac e (j_hash j) (hmac_key k) msg) as [mac|].
  2:{ inversion H'; subst. split; [discriminate|]. intros (m & _ & mac & Hm & _). discriminate. }
  apply ubind_inv in H' as (q & Hq & H). inversion H; subst. clear H. unfold memcmp_eq in Hq.
  apply ubind_inv in Hq as (x & Hx & Hq). apply ubind_inv in Hq as (y & Hy & Hq). inversion Hq; subst. clear Hq.
  apply take_inv in Hx as [Hl ->]. apply take_inv in Hy as [_ ->].
  assert (Ey : firstn (N.to_nat (md_size (j_hash j))) (fit 64 (fit (md_size (j_hash j)) mac)) = fit (md_size (j_hash j)) mac).
  { apply firstn_fit_fit. destruct (j_hash j); simpl; lia. }
  rewrite Ey, negb_false_iff, bytes_eqb_eq. split.
  - intros Eq. eauto.
  - intros (m & -> & mac' & Hm & Eq). inversion Hm; subst. exact Eq.
Qed.

Lemma public_key_fun pk pk' : public_key_of e k pk -> public_key_of e k pk' -> pk = pk'.
Proof. intros [[C H]|[C H]] [[C' H']|[C' H']]; try contradiction; congruence. Qed.

Lemma verify_rs_inv alg j crt kl msg hash sig tail f :
  supported alg j -> j_family j = RS -> adjust_key_length key n = OK kl ->
  load_cert e key kl = OK (Some crt) -> verify_hash e alg msg = Some hash ->
  verify_switch p e alg crt key kl msg hash (sig ++ tail) (N.of_nat (length sig)) = OK (VFlag f) ->
  verified_iff j msg sig tail f.
Proof.
  intros Hj Hf Ha Hc Hh H.
  assert (H' : (3 <= alg <= 12)%Z /\ (o <-u public_key e crt key kl ;;
          match o with
          | None => OK (VExit L8W8JWT_KEY_PARSE_FAILURE)
          | Some pk =>
              s <-u take (sig ++ tail) (N.of_nat (length sig)) ;;
              OK (VFlag (negb (e_pk_verify e pk (j_hash j) hash s)))
          end) = OK (VFlag f)).
  { rewrite <- H. unfold verify_switch. pose proof Hj as [Hin <-]. simpl in Hin. clear - Hin Hf.
    decompose [or] Hin; try contradiction; subst; simpl in Hf; try discriminate Hf;
      (split; [cbn [j_id]; lia|reflexivity]). }
  clear H. destruct H' as [R H]. apply (verify_hash_inv alg j) in Hh as (d0 & Hd & ->); auto.
  apply ubind_inv in H as (o & Ho & H). destruct o as [pk|]; [|discriminate].
  apply (public_key_inv kl crt) in Ho; auto. apply ubind_inv in H as (s & Hs & H).
  apply take_inv in Hs as [_ ->]. rewrite Nat2N.id, firstn_app_exact in H.
  unfold verified_iff, signature_read, verified_by. rewrite Hf.
  assert (Ef : f = negb (e_pk_verify e pk (j_hash j) (fit (md_size (j_hash j)) d0) sig)) by congruence.
  rewrite Ef, negb_false_iff. split.
  - intros Ev. exists sig. split; [reflexivity|]. exists pk, (fit (md_size (j_hash j)) d0). eauto.
  - intros (l & -> & pk' & d & Hp & (d1 & Hd1 & ->) & Ev).
    rewrite (public_key_fun _ _ Ho Hp). replace d0 with d1 by congruence. exact Ev.
Qed.

Lemma verify_ps_inv alg j crt kl msg hash sig tail f :
  supported alg j -> j_family j = PS -> adjust_key_length key n = OK kl ->
  load_cert e key kl = OK (Some crt) -> verify_hash e alg msg = Some hash ->
  verify_switch p e alg crt key kl msg hash (sig ++ tail) (N.of_nat (length sig)) = OK (VFlag f) ->
  verified_iff j msg sig tail f.
Proof.
  intros Hj Hf Ha Hc Hh H.
  assert (H' : (3 <= alg <= 12)%Z /\ (o <-u public_key e crt key kl ;;
          match o with
          | None => OK (VExit L8W8JWT_KEY_PARSE_FAILURE)
          | Some pk =>
              if negb (e_pk_rsa e pk) then KO NullDeref
              else
                s <-u take (sig ++ tail) (e_rsa_len e pk) ;;
                OK (VFlag (negb (e_pss_verify e pk (j_hash j) hash s)))
          end) = OK (VFlag f)).
  { rewrite <- H. unfold verify_switch. pose proof Hj as [Hin <-]. simpl in Hin. clear - Hin Hf.
    decompose [or] Hin; try contradiction; subst; simpl in Hf; try discriminate Hf;
      (split; [cbn [j_id]; lia|reflexivity]). }
  clear H. destruct H' as [R H]. apply (verify_hash_inv alg j) in Hh as (d0 & Hd & ->); auto.
  apply ubind_inv in H as (o & Ho & H). destruct o as [pk|]; [|discriminate].
  apply (public_key_inv kl crt) in Ho; auto. destruct (e_pk_rsa e pk) eqn:Er; [|discriminate].
  cbn [negb] in H. apply ubind_inv in H as (s & Hs & H).
  apply take_inv in Hs as [Hl ->].
  unfold verified_iff, signature_read, verified_by. rewrite Hf.
  match type of H with OK (VFlag ?x) = _ => assert (Ef : f = x) by congruence end.
  rewrite Ef, negb_false_iff. split.
  - intros Ev. eexists. split; [exists pk; split; [exact Ho|reflexivity]|].
    exists pk, (fit (md_size (j_hash j)) d0). split; [exact Ho|]. split; [eauto|]. split; [exact Er|].
    split; [rewrite firstn_length; lia|exact Ev].
  - intros (l & (pk1 & Hp1 & ->) & pk' & d & Hp & (d1 & Hd1 & ->) & _ & _ & Ev).
    rewrite (public_key_fun _ _ Hp1 Ho) in Ev. rewrite (public_key_fun _ _ Hp Ho) in Ev.
    replace d0 with d1 by congruence. exact Ev.
Qed.

Lemma halves (sig : bytes) :
  let m := (length sig / 2)%nat in
  firstn (2 * m) sig = firstn m sig ++ firstn m (skipn m sig)
  /\ length (firstn m sig) = m /\ length (firstn m (skipn m sig)) = m.
Proof.
  intros m. assert (2 * m <= length sig)%nat by (unfold m; lia).
  split; [|rewrite !firstn_length, skipn_length; lia].
  rewrite firstn_skipn_comm. replace (2 * m)%nat with (m + m)%nat by lia.
  rewrite <- (firstn_skipn m (firstn (m + m) sig)) at 1. f_equal.
  rewrite firstn_firstn. f_equal. lia.
Qed.

Lemma verify_es_inv alg j c b wd crt kl msg hash sig tail f :
  supported alg j -> j_family j = ES c b wd -> adjust_key_length key n = OK kl ->
  load_cert e key kl = OK (Some crt) -> verify_hash e alg msg = Some hash ->
  verify_switch p e alg crt key kl msg hash (sig ++ tail) (N.of_nat (length sig)) = OK (VFlag f) ->
  verified_iff j msg sig tail f.
Proof.
  intros Hj Hf Ha Hc Hh H. set (half := (N.of_nat (length sig) / 2)%N).
  assert (H' : (3 <= alg <= 12)%Z /\ (o <-u public_key e crt key kl ;;
          match o with
          | None => OK (VExit L8W8JWT_KEY_PARSE_FAILURE)
          | Some pk =>
              if negb (e_pk_ec e pk) then KO NullDeref
              else if negb (e_ecdsa_from_keypair e pk) then OK (VExit L8W8JWT_KEY_PARSE_FAILURE)
              else
                r <-u take (sig ++ tail) half ;;
                s <-u take (skipn (N.to_nat half) (sig ++ tail)) half ;;
                OK (VFlag (negb (e_ecdsa_verify e pk hash (mpi_read_binary r) (mpi_read_binary s))))
          end) = OK (VFlag f)).
  { rewrite <- H. unfold verify_switch. pose proof Hj as [Hin <-]. simpl in Hin. clear - Hin Hf.
    decompose [or] Hin; try contradiction; subst; simpl in Hf; try discriminate Hf;
      (split; [cbn [j_id]; lia|reflexivity]). }
  clear H. destruct H' as [R H]. apply (verify_hash_inv alg j) in Hh as (d0 & Hd & ->); auto.
  apply ubind_inv in H as (o & Ho & H). destruct o as [pk|]; [|discriminate].
  apply (public_key_inv kl crt) in Ho; auto. destruct (e_pk_ec e pk) eqn:Er; [|discriminate].
  cbn [negb] in H. destruct (e_ecdsa_from_keypair e pk); [|discriminate]. cbn [negb] in H.
  apply ubind_inv in H as (r & Hr & H). apply take_inv in Hr as [_ ->].
  apply ubind_inv in H as (s & Hs & H). apply take_inv in Hs as [_ ->].
  set (m := (length sig / 2)%nat). assert (Em : N.to_nat half = m) by (unfold half, m; lia).
  rewrite Em in H. destruct (halves sig) as (E1 & L1 & L2). fold m in E1, L1, L2.
  rewrite (firstn_app m sig), (skipn_app m sig), (firstn_app m (skipn m sig)) in H.
  rewrite skipn_length in H.
  replace (m - length sig)%nat with 0%nat in H by (unfold m; lia).
  replace (m - (length sig - m))%nat with 0%nat in H by (unfold m; lia).
  cbn [firstn skipn] in H. rewrite !app_nil_r, !mpi_read_be in H.
  unfold verified_iff, signature_read, verified_by. rewrite Hf. fold m.
  match type of H with OK (VFlag ?x) = _ => assert (Ef : f = x) by congruence end.
  rewrite Ef, negb_false_iff. split.
  - intros Ev. eexists. split; [reflexivity|].
    exists pk, (fit (md_size (j_hash j)) d0), (firstn m sig), (firstn m (skipn m sig)).
    split; [exact Ho|]. split; [eauto|]. split; [exact Er|]. split; [exact E1|]. split; [congruence|exact Ev].
  - intros (l & -> & pk' & d & r & s & Hp & (d1 & Hd1 & ->) & _ & E2 & Hrs & Ev).
    rewrite (public_key_fun _ _ Hp Ho) in Ev. replace d0 with d1 by congruence.
    rewrite E1 in E2. assert (Hl : length (firstn m sig) = length r).
    { apply (f_equal (@length byte)) in E2. rewrite !app_length in E2. lia. }
    apply app_eq_length in E2; [|exact Hl]. destruct E2 as [-> ->]. exact Ev.
Qed.

Lemma pem_text_hmac : without_final_nul (pem_text k) = hmac_key k /\ length (pem_text k) = S (length (hmac_key k)).
Proof.
  unfold pem_text, hmac_key, without_final_nul. assert (Hne : k <> []) by (intros ->; simpl in Hk; lia).
  destruct (exists_last Hne) as (k0 & z & E0). rewrite E0. rewrite !last_last.
  destruct (is_nul z) eqn:Ez.
  - rewrite last_last, Ez, removelast_last, app_length. simpl. split; [reflexivity|lia].
  - rewrite last_last. cbn [is_nul]. change (is_nul x00) with true. cbv iota.
    rewrite removelast_last, !app_length. simpl. split; [reflexivity|lia].
Qed.

Lemma verify_ed_inv alg j crt kl msg hash sig tail f :
  supported alg j -> j_family j = ED -> hex_if_ed j k -> adjust_key_length key n = OK kl ->
  verify_switch p e alg crt key kl msg hash (sig ++ tail) (N.of_nat (length sig)) = OK (VFlag f) ->
  verified_iff j msg sig tail f.
Proof.
  intros Hj Hf Hx Ha H.
  destruct (adjust_key_eq k n Hk Hn) as (kl' & Ha' & Hkl & E & E2). fold key in Ha', E, E2.
  rewrite Ha' in Ha. assert (Ekl : kl' = kl) by congruence. rewrite Ekl in Hkl, E, E2.
  destruct pem_text_hmac as [Ep Lp].
  assert (H' : (if negb (p_eddsa p) then OK (VExit L8W8JWT_UNSUPPORTED_ALG)
          else
            ok <-u (if (kl =? 64)%N then OK true
                    else if (kl =? 65)%N
                    then (b <-u read_at key 64 ;; OK (is_nul b)) else OK false) ;;
            if negb ok then OK (VExit L8W8JWT_WRONG_KEY_TYPE)
            else
              '(r, out, _) <-u l8w8jwt_hexstr2bin p (Ptr None key) kl
                                 (Ptr None (repeat x00 33)) 33 false ;;
              if negb (r =? 0)%Z then OK (VExit L8W8JWT_WRONG_KEY_TYPE)
              else
                match out with
                | None => KO UninitUse
                | Some pub =>
                    s <-u take (sig ++ tail) 64 ;;
                    OK (VFlag (negb (e_ed_verify e s msg (firstn 32 pub))))
                end) = OK (VFlag f)).
  { rewrite <- H. unfold verify_switch. pose proof Hj as [Hin <-]. simpl in Hin. clear - Hin Hf.
    decompose [or] Hin; try contradiction; subst; simpl in Hf; try discriminate Hf; reflexivity. }
  clear H. destruct (p_eddsa p); [|discriminate]. cbn [negb] in H'.
  apply ubind_inv in H' as (ok & Hok & H). destruct ok; [|discriminate]. cbn [negb] in H.
  assert (Hkl64 : (kl = 64 \/ kl = 65)%N).
  { destruct (N.eqb_spec kl 64); [auto|]. destruct (N.eqb_spec kl 65); [auto|discriminate]. }
  assert (Elen : length key = N.to_nat L8W8JWT_MAX_KEY_SIZE).
  { unfold key. rewrite app_length, repeat_length. unfold L8W8JWT_MAX_KEY_SIZE. lia. }
  assert (Et : firstn (N.to_nat kl) key = pem_text k).
  { unfold take in E2. replace (kl <=? 8192)%N with true in E2 by (symmetry; apply N.leb_le; lia).
    destruct (kl <=? N.of_nat (length key))%N; cbv iota in E2; [congruence|discriminate]. }
  rewrite hexstr2bin_cases in H by (rewrite ?repeat_length, ?Elen; unfold L8W8JWT_MAX_KEY_SIZE; lia).
  rewrite Et, Ep in H. assert (Lh : length (pem_text k) = N.to_nat kl).
  { rewrite <- Et, firstn_length, Elen. unfold L8W8JWT_MAX_KEY_SIZE. lia. }
  destruct (Nat.eqb_spec (length (hmac_key k) mod 2) 0) as [Ev|]; [|discriminate]. cbn [negb] in H.
  assert (L64 : length (hmac_key k) = 64%nat) by lia.
  rewrite L64 in H. change (33 <? N.of_nat (64 / 2) + 1)%N with false in H. cbv iota in H.
  destruct (hex_loop_ok p (hmac_key k) [] (repeat x00 33)) as (o & Hlo & Ll & Hv).
  { rewrite L64, repeat_length. simpl. lia. }
  unfold cur_start in H. rewrite Hlo in H. cbn [ubind negb Z.eqb] in H.
  apply ubind_inv in H as (s & Hs & H). apply take_inv in Hs as [Hl ->].
  destruct (Hx Hf) as (hx & kb & Hkx & Hkb).
  assert (Eh : hx = hmac_key k).
  { unfold hmac_key. assert (Hne : k <> []) by (intros E0; rewrite E0 in Hk; simpl in Hk; lia).
    destruct Hkx as [->| ->].
    - destruct (exists_last Hne) as (k0 & z & E0). rewrite E0, last_last. destruct (is_nul z) eqn:Ez; [|reflexivity].
      exfalso. apply is_nul_true in Ez. subst z. apply unhex_no_nul in Hkb. apply Hkb. rewrite E0.
      apply in_app_iff. right. left. reflexivity.
    - rewrite last_last, removelast_last. reflexivity. }
  subst hx. rewrite unhex_eq in Hkb. rewrite (Hv _ Hkb) in *. clear Hv.
  unfold cur_buf in H. cbn [c_done c_rest] in H. rewrite app_nil_r, rev_involutive in H.
  replace 32%nat with (length kb) in H by (rewrite Ll, L64; reflexivity).
  rewrite firstn_app_exact in H. rewrite <- unhex_eq in Hkb.
  unfold verified_iff, signature_read, verified_by. rewrite Hf.
  match type of H with OK (VFlag ?x) = _ => assert (Ef : f = x) by congruence end.
  change (N.to_nat 64) with 64%nat in Ef.
  rewrite Ef, negb_false_iff. split.
  - intros Evf. eexists. split; [reflexivity|]. exists (hmac_key k), kb. split; [exact Hkx|].
    split; [exact L64|]. split; [exact Hkb|]. split; [rewrite firstn_length; lia|exact Evf].
  - intros (l & -> & hx & kb' & Hkx' & _ & Hkb' & _ & Evf).
    assert (Eh : hx = hmac_key k).
    { assert (length hx = length kb' * 2 + length hx mod 2)%nat.
      { apply unhex_length in Hkb'. lia. }
      destruct Hkx as [Ea|Ea], Hkx' as [Eb|Eb]; rewrite Ea in Eb.
      - congruence.
      - exfalso. apply unhex_no_nul in Hkb. apply Hkb. rewrite Eb. apply in_app_iff. right. left. reflexivity.
      - exfalso. apply unhex_no_nul in Hkb'. apply Hkb'. rewrite <- Eb. apply in_app_iff. right. left. reflexivity.
      - apply app_inv_tail in Eb. congruence. }
    subst hx. rewrite Hkb in Hkb'. congruence.
Qed.

Lemma verify_switch_inv alg j crt kl msg hash sig tail f :
  supported alg j -> hex_if_ed j k -> adjust_key_length key n = OK kl ->
  load_cert e key kl = OK (Some crt) -> verify_hash e alg msg = Some hash ->
  verify_switch p e alg crt key kl msg hash (sig ++ tail) (N.of_nat (length sig)) = OK (VFlag f) ->
  verified_iff j msg sig tail f.
Proof.
  intros Hj Hx Ha Hc Hh H. destruct (j_family j) eqn:Hf.
  - eapply verify_hs_inv; eauto.
  - eapply verify_rs_inv; eauto.
  - eapply verify_ps_inv; eauto.
  - eapply verify_es_inv; eauto.
  - eapply verify_ed_inv; eauto.
Qed.
End Verify.

(** The bytes before the second dot: what the signature covers. *)
Lemma signing_input_cut jwt h pl rest :
  three_parts jwt h pl rest ->
  strchr jwt x2e = OK (Some (length h))
  /\ strchr (skipn (S (length h)) jwt) x2e = OK (Some (length pl))
  /\ firstn (S (length h) + length pl) jwt = h ++ lit "." ++ pl.
Proof.
  intros (-> & H1 & H2 & H3 & H4). change (lit ".") with [x2e]. cbn [app].
  split; [apply strchr_some; auto; discriminate|].
  replace (skipn (S (length h)) (h ++ x2e :: pl ++ x2e :: rest)) with (pl ++ x2e :: rest)
    by (rewrite skipn_app, skipn_all2 by lia; replace (S (length h) - length h)%nat with 1%nat by lia; reflexivity).
  split; [apply strchr_some; auto; discriminate|].
  replace (h ++ x2e :: pl ++ x2e :: rest) with ((h ++ x2e :: pl) ++ x2e :: rest)
    by (rewrite <- app_assoc; reflexivity).
  replace (S (length h) + length pl)%nat with (length (h ++ x2e :: pl)) by (rewrite app_length; simpl; lia).
  apply firstn_app_exact.
Qed.

Lemma verify_body_inv p e dp j b jwt h pl rest k sig tail f :
  dp_jwt dp = Ptr b jwt -> three_parts jwt h pl rest ->
  supported (dp_alg dp) j -> caller_key (dp_verification_key dp) (dp_verification_key_length dp) k ->
  hex_if_ed j k ->
  verify_body p e dp (sig ++ tail) (N.of_nat (length sig)) = OK (VFlag f) ->
  verified_iff e k j (h ++ lit "." ++ pl) sig tail f.
Proof.
  intros Ej H3 Hj Hck Hx H. unfold verify_body in H.
  apply ubind_inv in H as (key & Hl & H). apply ubind_inv in H as (kl & Ha & H).
  apply ubind_inv in H as (o & Hc & H). destruct o as [crt|]; [|discriminate].
  rewrite Ej in H. cbn [deref ubind] in H. destruct (signing_input_cut _ _ _ _ H3) as (E1 & E2 & E3).
  rewrite E1 in H. cbn [ubind] in H. rewrite E2 in H. cbn [ubind] in H. rewrite E3 in H.
  destruct (verify_hash e (dp_alg dp) (h ++ lit "." ++ pl)) as [hash|] eqn:Eh; [|discriminate].
  set (n := dp_verification_key_length dp) in *.
  destruct (load_key_inv _ _ _ Hl) as (b' & m & Eq & Hm & Hn & Ek).
  destruct Hck as (b2 & m2 & Eq2 & Hm2 & Ek2). rewrite Eq in Eq2. inversion Eq2; subst b2 m2.
  rewrite <- Ek2 in Ek.
  assert (Hk : length k = N.to_nat n) by (rewrite Ek2, firstn_length; lia).
  assert (Hn0 : (0 < n)%N).
  { unfold adjust_key_length in Ha. destruct (N.eqb_spec n 0); [discriminate|lia]. }
  subst key. eapply (verify_switch_inv p e k n Hk (conj Hn0 Hn)); eauto.
Qed.
