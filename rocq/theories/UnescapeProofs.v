(** * Lemmas about unescaping (src/decode.c:80-163), claim lookup and release (src/claim.c) *)
From Verif Require Import Base BaseProofs HeapProofs Util UtilProofs Claim Jsmn Env Encode Decode
  SpecJson ClaimProofs.
From Coq Require Import ZifyBool ZifyNat ZifyN.
Ltac Zify.zify_post_hook ::= Z.div_mod_to_equations.

(** ** Unescaping as a function *)
Fixpoint unesc (s : bytes) : bytes :=
  match s with
  | [] => []
  | c :: t =>
      if Byte.eqb c x5c then
        match t with
        | [] => [c]
        | e :: t' => match unescape_char e with Some u => u :: unesc t' | None => c :: unesc t end
        end
      else c :: unesc t
  end.

Lemma len_ind {A} (P : list A -> Prop) :
  (forall l, (forall l', (length l' < length l)%nat -> P l') -> P l) -> forall l, P l.
Proof.
  intros H l. assert (G : forall n l, (length l < n)%nat -> P l); [|apply (G (S (length l))); lia].
  induction n as [|n IH]; intros l0 Hl; [lia|]. apply H. intros l' Hl'. apply IH. lia.
Qed.

Lemma unesc_length s : (length (unesc s) <= length s)%nat.
Proof.
  induction s as [s IH] using len_ind. destruct s as [|c t]; [simpl; lia|]. cbn [unesc].
  pose proof (IH t) as IHt. cbn [length] in *.
  destruct (Byte.eqb c x5c); [|cbn [length]; lia].
  destruct t as [|e t']; [simpl; lia|].
  pose proof (IH t') as IHt'. cbn [length] in *.
  destruct (unescape_char e); cbn [length]; lia.
Qed.

Lemma cur_put_ok f r x : (0 < length r)%nat -> cur_put (Cur f r) x = OK (Cur (x :: f) (skipn 1 r)).
Proof. intros. destruct r; simpl in *; [lia|reflexivity]. Qed.
Lemma cur_set_ok f r x : (0 < length r)%nat -> cur_set (Cur f r) x = OK (Cur f (x :: skipn 1 r)).
Proof. intros. destruct r; simpl in *; [lia|reflexivity]. Qed.

Lemma unescape_string_eq s : forall f r,
  (length (unesc s) <= length r)%nat ->
  l8w8jwt_unescape_string (Cur f r) s
  = OK (Cur (rev (unesc s) ++ f) (skipn (length (unesc s)) r)).
Proof.
  induction s as [s IH] using len_ind. intros f r Hr.
  destruct s as [|c t]; [reflexivity|].
  assert (Hstep : forall x t', (length t' < length (c :: t))%nat ->
            (S (length (unesc t')) <= length r)%nat ->
            (c0 <-u cur_put (Cur f r) x ;; l8w8jwt_unescape_string c0 t')
            = OK (Cur (rev (x :: unesc t') ++ f) (skipn (length (x :: unesc t')) r))).
  { intros x t' Hl Hr'. rewrite cur_put_ok by lia. cbn [ubind].
    rewrite IH by (try rewrite skipn_length; lia).
    cbn [rev length]. rewrite <- app_assoc, skipn_skipn. repeat f_equal; lia. }
  cbn [l8w8jwt_unescape_string unesc] in *.
  destruct (Byte.eqb c x5c).
  - destruct t as [|e t'].
    + cbn [length] in Hr. rewrite cur_put_ok by lia. reflexivity.
    + destruct (unescape_char e) as [u|]; apply Hstep; cbn [length] in *; lia.
  - apply Hstep; cbn [length] in *; lia.
Qed.

(** ** strncpy *)
Fixpoint ncpy (s : bytes) : bytes :=
  match s with [] => [] | c :: t => if is_nul c then repeat x00 (length s) else c :: ncpy t end.
Lemma ncpy_length s : length (ncpy s) = length s.
Proof.
  induction s as [|c s IH]; [reflexivity|]. cbn [ncpy].
  destruct (is_nul c); [apply repeat_length|]. cbn [length]. congruence.
Qed.
Lemma ncpy_no_nul s : no_nul s -> ncpy s = s.
Proof.
  induction s as [|c s IH]; intros H; [reflexivity|]. apply no_nul_cons in H as [H1 H2].
  apply is_nul_false in H1. cbn [ncpy]. rewrite H1, IH by auto. reflexivity.
Qed.
Lemma strncpy_eq src n : (n <= length src)%nat -> strncpy_bytes src n = OK (ncpy (firstn n src)).
Proof.
  revert n. induction src as [|c t IH]; intros n Hn.
  - simpl in Hn. replace n with 0%nat by lia. reflexivity.
  - destruct n as [|n]; [reflexivity|]. cbn [strncpy_bytes firstn ncpy length] in *.
    destruct (is_nul c).
    + rewrite firstn_length. replace (Nat.min n (length t)) with n by lia. reflexivity.
    + rewrite IH by lia. reflexivity.
Qed.
Lemma cur_puts_eq s : forall f r, (length s <= length r)%nat ->
  cur_puts (Cur f r) s = OK (Cur (rev s ++ f) (skipn (length s) r)).
Proof.
  induction s as [|x s IH]; intros f r H; [reflexivity|]. cbn [cur_puts length rev] in *.
  rewrite cur_put_ok by lia. cbn [ubind]. rewrite IH by (rewrite skipn_length; lia).
  rewrite skipn_skipn, <- app_assoc. repeat f_equal; lia.
Qed.

(** ** [l8w8jwt_unescape_claim] as a function *)
Definition padded (s : bytes) (n : N) : bytes := s ++ repeat x00 (N.to_nat (n + 1) - length s).
Definition claim_value_of (type : Z) (vs : bytes) : bytes :=
  if (type =? L8W8JWT_CLAIM_TYPE_STRING)%Z then unesc vs else ncpy vs.

Lemma skipn_repeat {A} (x : A) k n : skipn k (repeat x n) = repeat x (n - k).
Proof.
  revert n. induction k as [|k IH]; intros n; [simpl; f_equal; lia|].
  destruct n; [reflexivity|]. simpl. apply IH.
Qed.
Lemma cons_repeat {A} (x : A) n : (0 < n)%nat -> x :: repeat x (n - 1) = repeat x n.
Proof. intros. destruct n; [lia|]. simpl. rewrite Nat.sub_0_r. reflexivity. Qed.

Lemma finish_buf s n : (length s < n)%nat ->
  cur_buf (Cur (rev s ++ []) (x00 :: skipn 1 (skipn (length s) (repeat x00 n))))
  = s ++ repeat x00 (n - length s).
Proof.
  intros. unfold cur_buf. cbn [c_done c_rest]. rewrite app_nil_r, rev_involutive. f_equal.
  rewrite skipn_skipn, skipn_repeat.
  replace (n - (1 + length s))%nat with ((n - length s) - 1)%nat by lia. apply cons_repeat. lia.
Qed.

Definition unescape_fun (p : platform) (type : Z) (ks vs : bytes) (w : world)
  : res (Z * option claim) :=
  if w_alloc w (w_next w) then
    if w_alloc w (S (w_next w)) then
      Ret (L8W8JWT_SUCCESS,
           Some (Claim (Ptr (Some (w_next w)) (padded (unesc ks) (N.of_nat (length ks))))
                       (N.of_nat (length (unesc ks)))
                       (Ptr (Some (S (w_next w)))
                            (padded (claim_value_of type vs) (N.of_nat (length vs))))
                       (N.of_nat (length (claim_value_of type vs))) type))
          (w_ok (w_ok w))
    else Ret (L8W8JWT_OUT_OF_MEM, None) (w_free (w_no (w_ok w)) (w_next w))
  else
    if w_alloc w (S (w_next w)) then
      Ret (L8W8JWT_OUT_OF_MEM, None) (w_free (w_ok (w_no w)) (S (w_next w)))
    else Ret (L8W8JWT_OUT_OF_MEM, None) (w_no (w_no w)).

Lemma unescape_claim_eq p type key klen value vlen w :
  (klen <= N.of_nat (length key))%N -> (vlen <= N.of_nat (length value))%N ->
  (klen + 1 < size_mod p)%N -> (vlen + 1 < size_mod p)%N ->
  l8w8jwt_unescape_claim p type key klen value vlen w
  = unescape_fun p type (firstn (N.to_nat klen) key) (firstn (N.to_nat vlen) value) w.
Proof.
  intros Hk Hv Hkm Hvm. unfold l8w8jwt_unescape_claim, unescape_fun.
  rewrite !N.mod_small by lia.
  unfold mbind at 1. rewrite calloc_eq.
  assert (Eks : length (firstn (N.to_nat klen) key) = N.to_nat klen) by (rewrite firstn_length; lia).
  assert (Evs : length (firstn (N.to_nat vlen) value) = N.to_nat vlen) by (rewrite firstn_length; lia).
  set (ks := firstn (N.to_nat klen) key) in *. set (vs := firstn (N.to_nat vlen) value) in *.
  destruct (w_alloc w (w_next w)) eqn:E1; unfold mbind at 1; rewrite calloc_eq;
    cbn [w_ok w_no w_alloc w_next];
    destruct (w_alloc w (S (w_next w))) eqn:E2.
  - unfold mbind at 1. rewrite take_ok by lia. cbn [lift].
    fold ks. unfold cur_start. unfold mbind at 1.
    pose proof (unesc_length ks) as Hu.
    rewrite unescape_string_eq by (rewrite repeat_length; lia). cbn [lift].
    unfold mbind at 1. rewrite cur_set_ok by (rewrite skipn_length, repeat_length; lia). cbn [lift].
    assert (Ek : cur_buf (Cur (rev (unesc ks) ++ [])
                   (x00 :: skipn 1 (skipn (length (unesc ks)) (repeat x00 (N.to_nat (klen + 1))))))
                 = padded (unesc ks) (N.of_nat (length ks))).
    { rewrite finish_buf by lia. unfold padded. rewrite Eks. repeat f_equal. lia. }
    assert (Ekl : cur_off (Cur (rev (unesc ks) ++ [])
                   (x00 :: skipn 1 (skipn (length (unesc ks)) (repeat x00 (N.to_nat (klen + 1))))))
                 = N.of_nat (length (unesc ks))).
    { unfold cur_off. cbn [c_done]. rewrite app_nil_r, rev_length. reflexivity. }
    rewrite Ek, Ekl. unfold claim_value_of.
    destruct (type =? L8W8JWT_CLAIM_TYPE_STRING)%Z.
    + pose proof (unesc_length vs) as Hu2.
      unfold mbind at 1. rewrite take_ok by lia. cbn [lift]. fold vs.
      unfold mbind at 1. rewrite unescape_string_eq by (rewrite repeat_length; lia). cbn [lift].
      unfold mbind at 1. rewrite cur_set_ok by (rewrite skipn_length, repeat_length; lia).
      cbn [lift]. rewrite finish_buf by lia. unfold cur_off. cbn [c_done].
      rewrite app_nil_r, rev_length. unfold mret, padded. rewrite Evs. repeat f_equal. lia.
    + pose proof (ncpy_length vs) as Hu2.
      unfold mbind at 1. rewrite strncpy_eq by lia. cbn [lift]. fold vs.
      unfold mbind at 1. rewrite cur_puts_eq by (rewrite repeat_length; lia). cbn [lift].
      unfold mbind at 1. rewrite cur_set_ok by (rewrite skipn_length, repeat_length; lia).
      cbn [lift]. rewrite finish_buf by lia. unfold mret, padded. rewrite Evs. repeat f_equal; lia.
  - unfold mbind at 1. cbn [free]. rewrite free_id_eq by (cbn; apply upd_live_same). reflexivity.
  - unfold mbind at 1. cbn [free]. unfold mret at 1.
    unfold mbind at 1. rewrite free_id_eq by (cbn; apply upd_live_same). reflexivity.
  - reflexivity.
Qed.

(** ** Escape followed by unescape *)
(** Characters with no \u escape. *)
Definition survives (c : byte) : Prop :=
  (32 <= b2n c)%N /\ c <> x7f \/ In c [x08; x09; x0a; x0c; x0d].
Definition survivesb (c : byte) : bool :=
  (32 <=? b2n c)%N && negb (Byte.eqb c x7f) || existsb (Byte.eqb c) [x08; x09; x0a; x0c; x0d].
Lemma survivesb_spec c : survivesb c = true <-> survives c.
Proof.
  unfold survivesb, survives. rewrite orb_true_iff, andb_true_iff, negb_true_iff, byte_eqb_neq,
    existsb_exists. split.
  - intros [(H & K)|(x & Hx & E)]; [left; split; [lia|auto]|].
    apply byte_eqb_eq in E. subst. auto.
  - intros [(H & K)|H]; [left; split; [lia|auto]|]. right. exists c. split; auto.
    apply byte_eqb_refl.
Qed.

Definition unesc_esc_ok (c : byte) : bool :=
  if survivesb c then
    match esc c with
    | [x] => Byte.eqb x c && negb (Byte.eqb c x5c)
    | [x; e] => Byte.eqb x x5c
                && match unescape_char e with Some u => Byte.eqb u c | None => false end
    | _ => false
    end
  else
    match esc c with
    | [x; y; h1; h2; h3; h4] =>
        Byte.eqb x x5c && Byte.eqb y x75
        && forallb (fun b => negb (Byte.eqb b x5c)) [h1; h2; h3; h4]
    | _ => false
    end.
Lemma unesc_esc_ok_all c : unesc_esc_ok c = true.
Proof. apply (sweep1 unesc_esc_ok). vm_compute. reflexivity. Qed.

Lemma unesc_esc c t :
  (survives c /\ unesc (esc c ++ t) = c :: unesc t)
  \/ (~ survives c /\ length (esc c) = 6%nat /\ unesc (esc c ++ t) = esc c ++ unesc t).
Proof.
  pose proof (unesc_esc_ok_all c) as H. unfold unesc_esc_ok in H.
  destruct (survivesb c) eqn:Es.
  - left. split; [apply survivesb_spec; auto|].
    destruct (esc c) as [|x1 [|x2 [|x3 l]]]; try discriminate.
    + apply andb_true_iff in H as [H1 H2]. apply byte_eqb_eq in H1. subst x1.
      apply negb_true_iff in H2. cbn [app unesc]. rewrite H2. reflexivity.
    + apply andb_true_iff in H as [H1 H2]. apply byte_eqb_eq in H1. subst x1.
      cbn [app unesc]. rewrite byte_eqb_refl. destruct (unescape_char x2); [|discriminate].
      apply byte_eqb_eq in H2. congruence.
  - right. split; [intros Hs; apply survivesb_spec in Hs; congruence|].
    destruct (esc c) as [|x1 [|x2 [|x3 [|x4 [|x5 [|x6 [|x7 l]]]]]]]; try discriminate.
    split; [reflexivity|].
    apply andb_true_iff in H as [H H3]. apply andb_true_iff in H as [H1 H2].
    apply byte_eqb_eq in H1. apply byte_eqb_eq in H2. subst.
    cbn [forallb] in H3. repeat (apply andb_true_iff in H3 as [? H3]).
    repeat match goal with K : negb _ = true |- _ => apply negb_true_iff in K end.
    cbn [app unesc]. rewrite byte_eqb_refl. cbn [unescape_char].
    change (Byte.eqb x75 x5c) with false. cbv iota.
    repeat match goal with K : Byte.eqb _ _ = false |- _ => rewrite K; clear K end. reflexivity.
Qed.
Lemma unesc_escape s : Forall survives s -> unesc (escape s) = s.
Proof.
  induction 1 as [|c s Hc Hs IH]; [reflexivity|]. unfold escape. cbn [flat_map].
  destruct (unesc_esc c (flat_map esc s)) as [(_ & ->)|(H & _)]; [|contradiction].
  f_equal. exact IH.
Qed.
Lemma unesc_escape_len s : (length s <= length (unesc (escape s)))%nat
  /\ (length (unesc (escape s)) = length s -> Forall survives s).
Proof.
  induction s as [|c s (IH1 & IH2)]; [split; [simpl; lia|constructor]|].
  unfold escape in *. cbn [flat_map].
  destruct (unesc_esc c (flat_map esc s)) as [(Hc & ->)|(H & Hl & ->)].
  - cbn [length]. split; [lia|]. intros E. constructor; auto.
  - rewrite app_length. cbn [length]. split; [lia|]. intros E. lia.
Qed.
Lemma unesc_escape_iff s : unesc (escape s) = s <-> Forall survives s.
Proof.
  split; [|apply unesc_escape]. intros H. apply unesc_escape_len. congruence.
Qed.

(** ** Claim lookup *)
(** The key of a claim as a C string. *)
Definition c_string (q : ptr) (s : bytes) : Prop := exists b r, q = Ptr b (s ++ x00 :: r) /\ no_nul s.

Lemma strncmp_cstr s1 r1 : forall s2 r2 n, no_nul s1 -> no_nul s2 ->
  exists z, strncmp (s1 ++ x00 :: r1) (s2 ++ x00 :: r2) n = OK z
    /\ (z = 0%Z <-> firstn (N.to_nat n) s1 = firstn (N.to_nat n) s2).
Proof.
  induction s1 as [|a s1 IH]; intros s2 r2 n H1 H2.
  - cbn [app strncmp]. destruct (N.eqb_spec n 0) as [->|Hn]; [exists 0%Z; simpl; tauto|].
    rewrite firstn_nil. destruct s2 as [|b s2]; cbn [app].
    + exists 0%Z. rewrite firstn_nil. split; [reflexivity|tauto].
    + apply no_nul_cons in H2 as [Hb H2].
      destruct (Byte.eqb x00 b) eqn:E; [apply byte_eqb_eq in E; congruence|].
      eexists. split; [reflexivity|].
      replace (N.to_nat n) with (S (N.to_nat (n - 1))) by lia. cbn [firstn].
      split; [|discriminate]. intros Hz. exfalso. apply Hb. symmetry. apply b2z_inj. lia.
  - apply no_nul_cons in H1 as [Ha H1].
    cbn [app strncmp]. destruct (N.eqb_spec n 0) as [->|Hn]; [exists 0%Z; simpl; tauto|].
    replace (N.to_nat n) with (S (N.to_nat (n - 1))) by lia. cbn [firstn].
    destruct s2 as [|b s2]; cbn [app].
    + destruct (Byte.eqb a x00) eqn:E; [apply byte_eqb_eq in E; congruence|].
      eexists. split; [reflexivity|]. split; [|discriminate].
      intros Hz. exfalso. apply Ha. apply b2z_inj. lia.
    + apply no_nul_cons in H2 as [Hb H2].
      destruct (Byte.eqb a b) eqn:E.
      * apply byte_eqb_eq in E. subst b. apply is_nul_false in Ha. rewrite Ha.
        destruct (IH s2 r2 (n - 1)%N H1 H2) as (z & Hz & Hiff). exists z. split; [exact Hz|].
        rewrite Hiff. split; [congruence|]. intros Hc. inversion Hc. reflexivity.
      * apply byte_eqb_neq in E. eexists. split; [reflexivity|].
        split; [intros Hz; exfalso; apply E; apply b2z_inj; lia|congruence].
Qed.

(** ** Releasing claims *)
(** Heap blocks of a claim, in the order they are freed. *)
Definition claim_blocks (c : claim) : list nat :=
  match c_key c, c_value c with
  | Ptr (Some k) _, Ptr (Some v) _ => [k; v]
  | _, _ => []
  end.
(** A claim whose strings are separate heap blocks at least as long as recorded. *)
Definition heap_claim (c : claim) : Prop :=
  exists k kb v vb, c_key c = Ptr (Some k) kb /\ c_value c = Ptr (Some v) vb
    /\ (c_key_length c <= N.of_nat (length kb))%N /\ (c_value_length c <= N.of_nat (length vb))%N.
Definition array_blocks (cs : list claim) : list nat := flat_map claim_blocks cs.

Definition w_free_all (w : world) (ids : list nat) : world := fold_left w_free ids w.
Lemma w_free_all_live ids : forall w i,
  w_live (w_free_all w ids) i = true <-> w_live w i = true /\ ~ In i ids.
Proof.
  induction ids as [|x ids IH]; intros w i; [simpl; tauto|].
  cbn [w_free_all fold_left In]. change (fold_left w_free ids (w_free w x)) with (w_free_all (w_free w x) ids).
  rewrite IH. cbn [w_free w_live]. unfold upd_live.
  destruct (Nat.eqb_spec i x) as [->|Hx]; [intuition congruence|].
  intuition congruence.
Qed.
Lemma w_free_all_app a b w : w_free_all w (a ++ b) = w_free_all (w_free_all w a) b.
Proof. apply fold_left_app. Qed.

Lemma free_each_eq cs : forall w,
  Forall heap_claim cs -> NoDup (array_blocks cs) ->
  (forall i, In i (array_blocks cs) -> w_live w i = true) ->
  free_each cs (N.of_nat (length cs)) w = Ret tt (w_free_all w (array_blocks cs)).
Proof.
  induction cs as [|c cs IH]; intros w Hh Hnd Hl; [reflexivity|].
  inversion Hh as [|? ? (k & kb & v & vb & Ek & Ev & Hkl & Hvl) Hh']; subst.
  assert (Eb : array_blocks (c :: cs) = k :: v :: array_blocks cs).
  { unfold array_blocks. cbn [flat_map]. unfold claim_blocks. rewrite Ek, Ev. reflexivity. }
  rewrite Eb in *. cbn [length].
  cbn [free_each]. destruct (N.eqb_spec (N.of_nat (S (length cs))) 0); [lia|].
  rewrite Ek, Ev.
  assert (Hzk : zeroize (Ptr (Some k) kb) (c_key_length c) w = Ret tt w).
  { unfold zeroize. destruct (N.leb_spec (c_key_length c) (N.of_nat (length kb))); [|lia].
    cbn [negb]. rewrite Hl by (left; reflexivity). reflexivity. }
  assert (Hzv : zeroize (Ptr (Some v) vb) (c_value_length c) w = Ret tt w).
  { unfold zeroize. destruct (N.leb_spec (c_value_length c) (N.of_nat (length vb))); [|lia].
    cbn [negb]. rewrite Hl by (right; left; reflexivity). reflexivity. }
  unfold mbind at 1. rewrite Hzk. unfold mbind at 1. rewrite Hzv.
  unfold mbind at 1. cbn [free]. rewrite free_id_eq by (apply Hl; left; reflexivity).
  inversion Hnd as [|? ? Hk Hnd']; subst. inversion Hnd' as [|? ? Hv Hnd'']; subst.
  unfold mbind at 1.
  rewrite free_id_eq.
  - replace (N.of_nat (S (length cs)) - 1)%N with (N.of_nat (length cs)) by lia.
    rewrite IH; auto. intros i Hi. cbn [w_free w_live]. unfold upd_live.
    destruct (Nat.eqb_spec i v) as [->|]; [contradiction|].
    destruct (Nat.eqb_spec i k) as [->|]; [exfalso; apply Hk; right; exact Hi|].
    apply Hl. right. right. exact Hi.
  - cbn [w_free w_live]. unfold upd_live. destruct (Nat.eqb_spec v k) as [->|].
    + exfalso. apply Hk. left. reflexivity.
    + apply Hl. right. left. reflexivity.
Qed.

Lemma free_claims_eq id cs w :
  Forall heap_claim cs -> NoDup (id :: array_blocks cs) ->
  (forall i, In i (id :: array_blocks cs) -> w_live w i = true) ->
  l8w8jwt_free_claims (CArr (Some id) cs) (N.of_nat (length cs)) w
  = Ret tt (w_free (w_free_all w (array_blocks cs)) id).
Proof.
  intros Hh Hnd Hl. inversion Hnd as [|? ? Hi Hnd']; subst.
  unfold l8w8jwt_free_claims, mbind. rewrite free_each_eq; auto.
  - apply free_id_eq. apply w_free_all_live. split; [apply Hl; left; reflexivity|exact Hi].
  - intros i H. apply Hl. right. exact H.
Qed.
