(** * Proofs about the base64 decoder model *)
From Verif Require Import Base BaseProofs HeapProofs Base64 SpecB64 Base64EncProofs Base64EncApi.
From Coq Require Import ZifyBool ZifyNat ZifyN.
Ltac Zify.zify_post_hook ::= Z.div_mod_to_equations.

Lemma list4_ind {A} (P : list A -> Prop) :
  P [] -> (forall a, P [a]) -> (forall a b, P [a; b]) -> (forall a b c, P [a; b; c]) ->
  (forall a b c d t, P t -> P (a :: b :: c :: d :: t)) -> forall l, P l.
Proof.
  intros H0 H1 H2 H3 H4.
  assert (H : forall l, P l /\ (forall a, P (a :: l)) /\ (forall a b, P (a :: b :: l))
                        /\ (forall a b c, P (a :: b :: c :: l))).
  { induction l as [|x l (IH & IH1 & IH2 & IH3)]; repeat split; auto. }
  intros l. apply H.
Qed.

(** ** The decoding table *)
Arguments dtable : simpl never.
Arguments dt : simpl never.
Definition accepted (url : bool) (c : byte) : bool := negb (dt (dtable url) c =? 128)%N.

Lemma dt_alpha url i : (i < 64)%N -> dt (dtable url) (alpha_char url i) = i.
Proof.
  intros H. apply N.eqb_eq. revert i H. apply (sweepN 64). destruct url; vm_compute; reflexivity.
Qed.
Lemma alpha_not_eq url i : (i < 64)%N -> Byte.eqb (alpha_char url i) x3d = false.
Proof.
  intros H. apply negb_true_iff. revert i H.
  apply (sweepN 64 (fun i => negb (Byte.eqb (alpha_char url i) x3d))).
  destruct url; vm_compute; reflexivity.
Qed.
Lemma dt_eq url : dt (dtable url) x3d = 0%N.
Proof. destruct url; vm_compute; reflexivity. Qed.
Lemma accepted_alpha url i : (i < 64)%N -> accepted url (alpha_char url i) = true.
Proof. intros. unfold accepted. rewrite dt_alpha by auto. lia. Qed.
Lemma accepted_eq url : accepted url x3d = true.
Proof. unfold accepted. rewrite dt_eq. reflexivity. Qed.

(** Characters accepted by the decoder, against RFC 4648. *)
Lemma accepted_spec url c :
  accepted url c = true <-> In c (rfc4648_alphabet url) \/ c = x3d.
Proof.
  assert (E : accepted url c = existsb (Byte.eqb c) (rfc4648_alphabet url ++ [x3d])).
  { apply eqb_prop. revert c.
    apply (sweep1 (fun c => Bool.eqb (accepted url c)
                              (existsb (Byte.eqb c) (rfc4648_alphabet url ++ [x3d])))).
    destruct url; vm_compute; reflexivity. }
  rewrite E, existsb_exists. split.
  - intros (x & Hi & Hx). apply byte_eqb_eq in Hx. subst x.
    apply in_app_or in Hi as [Hi|[<-|[]]]; auto.
  - intros [Hi| ->].
    + exists c. split; [apply in_or_app; auto|apply byte_eqb_refl].
    + exists x3d. split; [apply in_or_app; simpl; auto|reflexivity].
Qed.

Lemma dt_lt url c : accepted url c = true -> (dt (dtable url) c < 64)%N.
Proof.
  intros H. apply accepted_spec in H as [H| ->]; [|rewrite dt_eq; lia].
  assert (E : forallb (fun c => (dt (dtable url) c <? 64)%N) (rfc4648_alphabet url) = true)
    by (destruct url; vm_compute; reflexivity).
  rewrite forallb_forall in E. specialize (E _ H). lia.
Qed.

Lemma accepted_dt url c : accepted url c = negb (dt (dtable url) c =? 128)%N.
Proof. reflexivity. Qed.
Lemma accepted_nl url : accepted url x0a = false.
Proof. destruct url; vm_compute; reflexivity. Qed.
Lemma accepted_not_nul url c : accepted url c = true -> c <> x00.
Proof. intros H ->. destruct url; vm_compute in H; discriminate. Qed.
Global Opaque dtable dt accepted.

Definition syms (url : bool) (s : bytes) : bytes := filter (accepted url) s.

Lemma dec_count_filter url s :
  dec_count (dtable url) s = N.of_nat (length (syms url s)).
Proof.
  induction s as [|c t IH]; auto. cbn [dec_count syms filter]. fold (syms url t).
  rewrite accepted_dt. destruct (dt (dtable url) c =? 128)%N; cbn [negb length]; rewrite IH; lia.
Qed.

(** ** Skipping foreign characters *)
Lemma dec_loop_filter url s : forall block pad c,
  dec_loop (dtable url) s block pad c = dec_loop (dtable url) (syms url s) block pad c.
Proof.
  induction s as [|x t IH]; intros block pad c; auto.
  cbn [syms filter]. rewrite accepted_dt. fold (syms url t).
  destruct (dt (dtable url) x =? 128)%N eqn:E; cbn [negb].
  - cbn [dec_loop]. rewrite E. apply IH.
  - cbn [dec_loop]. rewrite E. cbv zeta.
    destruct block as [|b0 [|b1 [|b2 [|b3 bl]]]]; try apply IH.
    destruct (cur_put c _) as [c1|]; [|reflexivity]. cbn [ubind].
    destruct (cur_put c1 _) as [c2|]; [|reflexivity]. cbn [ubind].
    destruct (cur_put c2 _) as [c3|]; [|reflexivity]. cbn [ubind].
    destruct (_ =? 0)%N; [apply IH|reflexivity].
Qed.

(** ** Groups of four *)
Definition is_eq (c : byte) : bool := Byte.eqb c x3d.
Definition pads (l : bytes) : nat := length (filter is_eq l).

Definition trio (url : bool) (a b c e : byte) : bytes :=
  let v x := dt (dtable url) x in
  [n2b (v a * 4 + v b / 16); n2b (v b * 16 + v c / 4); n2b (v c * 64 + v e)].

(** Decoding a list of accepted characters: the bytes produced and the bytes left behind the
    cursor; [None] = invalid padding. *)
Fixpoint dgroups (url : bool) (l : bytes) : option (bytes * bytes) :=
  match l with
  | a :: b :: c :: e :: t =>
      match pads [a; b; c; e] with
      | 0%nat => match dgroups url t with
                 | Some (o, lf) => Some (trio url a b c e ++ o, lf)
                 | None => None
                 end
      | 1%nat => Some (firstn 2 (trio url a b c e), skipn 2 (trio url a b c e))
      | 2%nat => Some (firstn 1 (trio url a b c e), skipn 1 (trio url a b c e))
      | _ => None
      end
  | _ => Some ([], [])
  end.

Lemma lor_add_4 a b : (a < 64)%N -> (b < 64)%N -> n2b (N.lor (N.shiftl a 2) (N.shiftr b 4)) = n2b (a * 4 + b / 16).
Proof.
  intros Ha Hb. apply byte_eqb_eq. revert a b Ha Hb.
  apply (sweepN2 64 64 (fun a b => Byte.eqb (n2b (N.lor (N.shiftl a 2) (N.shiftr b 4))) (n2b (a * 4 + b / 16)))).
  vm_compute. reflexivity.
Qed.
Lemma lor_add_16 a b : (a < 64)%N -> (b < 64)%N -> n2b (N.lor (N.shiftl a 4) (N.shiftr b 2)) = n2b (a * 16 + b / 4).
Proof.
  intros Ha Hb. apply byte_eqb_eq. revert a b Ha Hb.
  apply (sweepN2 64 64 (fun a b => Byte.eqb (n2b (N.lor (N.shiftl a 4) (N.shiftr b 2))) (n2b (a * 16 + b / 4)))).
  vm_compute. reflexivity.
Qed.
Lemma lor_add_64 a b : (a < 64)%N -> (b < 64)%N -> n2b (N.lor (N.shiftl a 6) b) = n2b (a * 64 + b).
Proof.
  intros Ha Hb. apply byte_eqb_eq. revert a b Ha Hb.
  apply (sweepN2 64 64 (fun a b => Byte.eqb (n2b (N.lor (N.shiftl a 6) b)) (n2b (a * 64 + b)))).
  vm_compute. reflexivity.
Qed.

Definition all_acc (url : bool) (l : bytes) : Prop := forall c, In c l -> accepted url c = true.
Lemma all_acc_cons url c l : all_acc url (c :: l) <-> accepted url c = true /\ all_acc url l.
Proof. unfold all_acc. simpl. split; intros; [split|destruct H; destruct H0; subst]; auto. Qed.
Lemma all_acc_app url a b : all_acc url (a ++ b) <-> all_acc url a /\ all_acc url b.
Proof. unfold all_acc. split; [split|]; intros; auto using in_or_app.
  apply in_app_or in H0. destruct H, H0; auto. Qed.
Lemma all_acc_syms url s : all_acc url (syms url s).
Proof. intros c H. apply filter_In in H. tauto. Qed.
Lemma syms_acc url s : all_acc url s -> syms url s = s.
Proof.
  induction s as [|c s IH]; intros H; auto. apply all_acc_cons in H as [H1 H2].
  unfold syms in *. simpl. rewrite H1, IH; auto.
Qed.
Lemma syms_app url a b : syms url (a ++ b) = syms url a ++ syms url b.
Proof. apply filter_app. Qed.

Lemma dgroups_len url l : forall o lf, dgroups url l = Some (o, lf) ->
  (length o + length lf <= 3 * (length l / 4))%nat.
Proof.
  induction l as [|a|a b|a b c|a b c e t IH] using list4_ind; intros o lf H;
    try (simpl in H; inversion H; simpl; lia).
  cbn [dgroups] in H.
  assert (Hl : (length (a :: b :: c :: e :: t) / 4 = S (length t / 4))%nat).
  { cbn [length]. replace (S (S (S (S (length t))))) with (length t + 1 * 4)%nat by lia.
    rewrite Nat.div_add by lia. lia. }
  rewrite Hl. destruct (pads [a; b; c; e]) as [|[|[|?]]]; [| | |discriminate].
  - destruct (dgroups url t) as [[o' lf']|] eqn:E; [|discriminate]. inversion H; subst.
    specialize (IH _ _ eq_refl). unfold trio. cbn [app length]. lia.
  - inversion H; subst. cbn [length firstn skipn trio]. lia.
  - inversion H; subst. cbn [length firstn skipn trio]. lia.
Qed.

Lemma nonacc url x : accepted url x = true -> (dt (dtable url) x =? 128)%N = false.
Proof. rewrite accepted_dt. intros H. apply negb_true_iff in H. exact H. Qed.

Lemma dec_loop_groups url l : forall f r,
  all_acc url l -> (3 * (length l / 4) <= length r)%nat ->
  dec_loop (dtable url) l [] 0 (Cur f r)
  = match dgroups url l with
    | Some (o, lf) =>
        OK (DecDone (Cur (rev o ++ f) (lf ++ skipn (length o + length lf) r)))
    | None => OK DecBadPad
    end.
Proof.
  induction l as [|a|a b|a b c|a b c e t IH] using list4_ind; intros f r Hacc Hlen.
  - reflexivity.
  - apply all_acc_cons in Hacc as [Ha _]. cbn [dec_loop]. rewrite (nonacc _ _ Ha). reflexivity.
  - apply all_acc_cons in Hacc as [Ha Hacc]. apply all_acc_cons in Hacc as [Hb _].
    cbn [dec_loop app]. rewrite (nonacc _ _ Ha), (nonacc _ _ Hb). reflexivity.
  - apply all_acc_cons in Hacc as [Ha Hacc]. apply all_acc_cons in Hacc as [Hb Hacc].
    apply all_acc_cons in Hacc as [Hc _].
    cbn [dec_loop app]. rewrite (nonacc _ _ Ha), (nonacc _ _ Hb), (nonacc _ _ Hc). reflexivity.
  - apply all_acc_cons in Hacc as [Ha Hacc]. apply all_acc_cons in Hacc as [Hb Hacc].
    apply all_acc_cons in Hacc as [Hc Hacc]. apply all_acc_cons in Hacc as [He Hacc].
    assert (Hl : (length (a :: b :: c :: e :: t) / 4 = S (length t / 4))%nat).
    { cbn [length]. replace (S (S (S (S (length t))))) with (length t + 1 * 4)%nat by lia.
      rewrite Nat.div_add by lia. lia. }
    rewrite Hl in Hlen.
    destruct r as [|r0 [|r1 [|r2 r]]]; cbn [length] in Hlen; try lia.
    cbn [dec_loop app].
    rewrite (nonacc _ _ Ha), (nonacc _ _ Hb), (nonacc _ _ Hc), (nonacc _ _ He).
    cbn [cur_put c_rest c_done ubind].
    rewrite lor_add_4 by (apply dt_lt; auto).
    rewrite lor_add_16 by (apply dt_lt; auto).
    rewrite lor_add_64 by (apply dt_lt; auto).
    cbn [dgroups]. set (T := trio url a b c e).
    change (n2b (dt (dtable url) a * 4 + dt (dtable url) b / 16)) with (nth 0 T x00).
    change (n2b (dt (dtable url) b * 16 + dt (dtable url) c / 4)) with (nth 1 T x00).
    change (n2b (dt (dtable url) c * 64 + dt (dtable url) e)) with (nth 2 T x00).
    assert (HT : T = [nth 0 T x00; nth 1 T x00; nth 2 T x00]) by reflexivity.
    revert HT. generalize (nth 0 T x00) (nth 1 T x00) (nth 2 T x00). intros t0 t1 t2 HT.
    rewrite HT. clear HT T.
    unfold pads, is_eq. cbn [filter].
    destruct (Byte.eqb a x3d), (Byte.eqb b x3d), (Byte.eqb c x3d), (Byte.eqb e x3d);
      cbn [length N.eqb N.succ Pos.eqb Pos.succ cur_back c_done c_rest ubind firstn skipn]; try reflexivity.
    rewrite IH by (auto; lia).
    destruct (dgroups url t) as [[o lf]|]; [|reflexivity].
    do 3 f_equal. cbn [app rev length skipn Nat.add]. rewrite <- !app_assoc. reflexivity.
Qed.

(** ** The decoder as a function *)
Definition strip_nul (s : bytes) : bytes :=
  if is_nul (last s x01) then removelast s else s.
Definition dec_r (k : nat) : nat := match (k mod 4)%nat with 3%nat => 1 | 2%nat => 2 | _ => 0 end.
Definition bad_count (url : bool) (k : nat) : bool :=
  (Nat.eqb k 0 || Nat.eqb (k mod 4) 1 || (negb url && negb (Nat.eqb (k mod 4) 0)))%nat.

Definition dec_all (url : bool) (l : bytes) : option (bytes * bytes) :=
  dgroups url (l ++ repeat x3d (dec_r (length l))).
Definition dec_size (k : nat) : nat := (k / 4 * 3 + 16)%nat.

Lemma dec_len4 url k : bad_count url k = false -> ((k + dec_r k) mod 4 = 0)%nat.
Proof.
  unfold bad_count, dec_r. intros H.
  destruct (k mod 4)%nat as [|[|[|[|m]]]] eqn:E.
  - lia.
  - rewrite orb_true_r in H. discriminate.
  - lia.
  - lia.
  - lia.
Qed.

Lemma strip_nul_take mem n : (0 < n)%N -> (n <= N.of_nat (length mem))%N ->
  firstn (N.to_nat (if is_nul (nth (N.to_nat (n - 1)) mem x00) then n - 1 else n)) mem
  = strip_nul (firstn (N.to_nat n) mem).
Proof.
  intros Hn Hl. unfold strip_nul.
  assert (Hlen : length (firstn (N.to_nat n) mem) = N.to_nat n) by (rewrite firstn_length; lia).
  assert (El : last (firstn (N.to_nat n) mem) x01 = nth (N.to_nat (n - 1)) mem x00).
  { destruct (exists_last (l := firstn (N.to_nat n) mem)) as (s' & z & Es).
    - intros E. rewrite E in Hlen. simpl in Hlen. lia.
    - rewrite Es, last_last.
      assert (Hs' : length s' = N.to_nat (n - 1)).
      { rewrite Es, app_length in Hlen. simpl in Hlen. lia. }
      rewrite <- (firstn_skipn (N.to_nat n) mem), Es, <- app_assoc.
      rewrite app_nth2 by lia. rewrite Hs', Nat.sub_diag. reflexivity. }
  rewrite El. destruct (is_nul _); [|reflexivity].
  rewrite removelast_firstn_len, firstn_firstn, Hlen.
  f_equal. lia.
Qed.

Lemma repeat_acc url k : all_acc url (repeat x3d k).
Proof. intros c H. apply repeat_spec in H. subst. apply accepted_eq. Qed.

Theorem base64_decode_fun url b mem n w :
  wf w -> (0 < n)%N -> (n <= N.of_nat (length mem))%N ->
  let s := strip_nul (firstn (N.to_nat n) mem) in
  let l := syms url s in
  l8w8jwt_base64_decode url (Ptr b mem) n true true w
  = if bad_count url (length l) then Ret (B64 L8W8JWT_INVALID_ARG None None) w
    else if negb (w_alloc w (w_next w))
    then Ret (B64 L8W8JWT_OUT_OF_MEM (Some Null) None) (w_no w)
    else match dec_all url l with
         | None => Ret (B64 L8W8JWT_INVALID_ARG (Some Null) None) (w_free (w_ok w) (w_next w))
         | Some (o, lf) =>
             Ret (B64 L8W8JWT_SUCCESS
                    (Some (Ptr (Some (w_next w))
                             (o ++ lf ++ repeat x00 (dec_size (length l) - (length o + length lf)))))
                    (Some (N.of_nat (length o)))) (w_ok w)
         end.
Proof.
  intros Hwf Hn Hl s l. unfold l8w8jwt_base64_decode. cbn [is_null negb orb].
  destruct (N.eqb_spec n 0); [lia|].
  unfold mbind at 1, lift at 1. cbn [deref].
  unfold mbind at 1, lift at 1. rewrite read_at_ok by lia.
  unfold mbind at 1, lift at 1. rewrite take_ok by (destruct (is_nul _); lia).
  rewrite strip_nul_take by auto. fold s.
  rewrite dec_count_filter. fold l.
  assert (Hmod : (N.of_nat (length l) mod 4)%N = N.of_nat (length l mod 4)%nat).
  { rewrite Nat2N.inj_mod. reflexivity. }
  rewrite Hmod.
  assert (Hbad : ((N.of_nat (length l) =? 0)%N || (N.of_nat (length l mod 4) =? 1)%N)
                 || (negb url && (0 <? N.of_nat (length l mod 4))%N)
                 = bad_count url (length l)).
  { unfold bad_count. generalize (length l). intros k.
    assert (E1 : (N.of_nat k =? 0)%N = Nat.eqb k 0) by lia. rewrite E1.
    generalize (k mod 4)%nat. intros m.
    assert (E2 : (N.of_nat m =? 1)%N = Nat.eqb m 1) by lia. rewrite E2.
    assert (E3 : (0 <? N.of_nat m)%N = negb (Nat.eqb m 0)) by lia. rewrite E3. reflexivity. }
  rewrite Hbad. destruct (bad_count url (length l)) eqn:Eb; [reflexivity|].
  unfold mbind at 1. rewrite calloc_eq.
  destruct (w_alloc w (w_next w)) eqn:Eal; cbn [negb]; [|reflexivity].
  assert (Hr : N.to_nat (if (N.of_nat (length l mod 4) =? 3)%N then 1 else N.of_nat (length l mod 4))
               = dec_r (length l)).
  { unfold dec_r. unfold bad_count in Eb.
    destruct (length l mod 4)%nat as [|[|[|[|m]]]] eqn:E.
    - reflexivity.
    - rewrite orb_true_r in Eb. discriminate.
    - reflexivity.
    - reflexivity.
    - lia. }
  rewrite Hr.
  assert (Hsz : N.to_nat (N.of_nat (length l) / 4 * 3 + 16) = dec_size (length l)).
  { unfold dec_size. lia. }
  rewrite Hsz.
  unfold mbind at 1, lift at 1.
  rewrite dec_loop_filter, syms_app. fold l.
  rewrite (syms_acc url (repeat x3d _)) by apply repeat_acc.
  assert (Hfit : (3 * (length (l ++ repeat x3d (dec_r (length l))) / 4)
                  <= length (repeat x00 (dec_size (length l))))%nat).
  { rewrite app_length, !repeat_length. unfold dec_size.
    assert (dec_r (length l) <= 2)%nat.
    { unfold dec_r. destruct (length l mod 4)%nat as [|[|[|[|?]]]]; lia. }
    lia. }
  unfold cur_start. rewrite dec_loop_groups; auto.
  2: { apply all_acc_app. split; [apply all_acc_syms|apply repeat_acc]. }
  unfold dec_all. destruct (dgroups url (l ++ repeat x3d (dec_r (length l)))) as [[o lf]|] eqn:Eg.
  - unfold mret, cur_buf, cur_off. cbn [c_done c_rest].
    rewrite app_nil_r, rev_involutive, rev_length.
    apply dgroups_len in Eg. do 4 f_equal. f_equal. f_equal.
    rewrite repeat_length in Hfit.
    assert (Hge : (length o + length lf <= dec_size (length l))%nat) by lia.
    assert (Es : dec_size (length l)
                 = ((length o + length lf) + (dec_size (length l) - (length o + length lf)))%nat) by lia.
    rewrite Es at 1. rewrite repeat_app.
    rewrite <- (repeat_length x00 (length o + length lf)) at 1.
    rewrite skipn_app_exact. reflexivity.
  - unfold mbind, free. rewrite free_id_eq; [reflexivity|]. simpl. apply upd_live_same.
Qed.

(** Output is never empty. *)
Lemma dgroups_nonempty url l o lf :
  (4 <= length l)%nat -> dgroups url l = Some (o, lf) -> (1 <= length o)%nat.
Proof.
  intros Hl H. destruct l as [|a [|b [|c [|e t]]]]; simpl in Hl; try lia.
  cbn [dgroups] in H. destruct (pads [a; b; c; e]) as [|[|[|?]]].
  - destruct (dgroups url t) as [[o' lf']|]; inversion H; subst. simpl. lia.
  - inversion H; subst. simpl. lia.
  - inversion H; subst. simpl. lia.
  - discriminate.
Qed.
Lemma dec_all_nonempty url l o lf :
  bad_count url (length l) = false -> dec_all url l = Some (o, lf) -> (1 <= length o)%nat.
Proof.
  intros Hb H. eapply dgroups_nonempty; [|exact H].
  rewrite app_length, repeat_length. pose proof (dec_len4 _ _ Hb).
  unfold bad_count in Hb. destruct (Nat.eqb_spec (length l) 0); [discriminate|]. lia.
Qed.

(** ** Decoding what the encoder produced *)
Lemma value_quad url a b c :
  trio url (alpha_char url (idx0 a)) (alpha_char url (idx1 a b)) (alpha_char url (idx2 b c))
    (alpha_char url (idx3 c)) = [a; b; c].
Proof.
  unfold trio.
  rewrite !dt_alpha by (first [apply idx0_lt|apply idx1_lt|apply idx2_lt|apply idx3_lt]).
  rewrite idx0_val, idx1_val, idx2_val, idx3_val.
  pose proof (b2n_lt a). pose proof (b2n_lt b). pose proof (b2n_lt c).
  transitivity [n2b (b2n a); n2b (b2n b); n2b (b2n c)]; [|rewrite !n2b_b2n; reflexivity].
  f_equal; [apply n2b_eq_mod; lia|]. f_equal; [apply n2b_eq_mod; lia|].
  f_equal. apply n2b_eq_mod; lia.
Qed.

Lemma pads_quad url a b c : pads (quad url a b c) = 0%nat.
Proof.
  unfold pads, quad, is_eq. cbn [filter].
  rewrite !alpha_not_eq by (first [apply idx0_lt|apply idx1_lt|apply idx2_lt|apply idx3_lt]).
  reflexivity.
Qed.

Lemma trio_1 url a :
  trio url (alpha_char url (idx0 a)) (alpha_char url (idx1e a)) x3d x3d = [a; x00; x00].
Proof.
  unfold trio. rewrite dt_eq.
  rewrite !dt_alpha by (first [apply idx0_lt|apply idx1e_lt]).
  rewrite idx0_val, idx1e_val. pose proof (b2n_lt a).
  transitivity [n2b (b2n a); n2b 0; n2b 0]; [|rewrite !n2b_b2n; reflexivity].
  f_equal; [apply n2b_eq_mod; lia|]. f_equal. apply n2b_eq_mod; lia.
Qed.
Lemma trio_2 url a b :
  trio url (alpha_char url (idx0 a)) (alpha_char url (idx1 a b)) (alpha_char url (idx2e b)) x3d
  = [a; b; x00].
Proof.
  unfold trio. rewrite dt_eq.
  rewrite !dt_alpha by (first [apply idx0_lt|apply idx1_lt|apply idx2e_lt]).
  rewrite idx0_val, idx1_val, idx2e_val. pose proof (b2n_lt a). pose proof (b2n_lt b).
  transitivity [n2b (b2n a); n2b (b2n b); n2b 0]; [|rewrite !n2b_b2n; reflexivity].
  f_equal; [apply n2b_eq_mod; lia|]. f_equal; [apply n2b_eq_mod; lia|].
  f_equal. apply n2b_eq_mod; lia.
Qed.

Lemma dgroups_padded url s :
  exists k, dgroups url (rfc4648_padded url s) = Some (s, repeat x00 k).
Proof.
  induction s as [|a|a b|a b c t IH] using list3_ind.
  - exists 0%nat. reflexivity.
  - exists 2%nat. unfold rfc4648_padded. rewrite unpadded_1.
    change (rfc4648_padding [a]) with [x3d; x3d]. cbn [app dgroups].
    assert (Hp : pads [alpha_char url (idx0 a); alpha_char url (idx1e a); x3d; x3d] = 2%nat).
    { unfold pads, is_eq. cbn [filter].
      rewrite !alpha_not_eq by (first [apply idx0_lt|apply idx1e_lt]). reflexivity. }
    rewrite Hp, trio_1. reflexivity.
  - exists 1%nat. unfold rfc4648_padded. rewrite unpadded_2.
    change (rfc4648_padding [a; b]) with [x3d]. cbn [app dgroups].
    assert (Hp : pads [alpha_char url (idx0 a); alpha_char url (idx1 a b);
                       alpha_char url (idx2e b); x3d] = 1%nat).
    { unfold pads, is_eq. cbn [filter].
      rewrite !alpha_not_eq by (first [apply idx0_lt|apply idx1_lt|apply idx2e_lt]). reflexivity. }
    rewrite Hp, trio_2. reflexivity.
  - destruct IH as (k & IH). exists k. rewrite padded_cons3. unfold quad. cbn [app dgroups].
    fold (quad url a b c). rewrite pads_quad, IH, value_quad. reflexivity.
Qed.

Lemma unpadded_acc url s : all_acc url (rfc4648_unpadded url s).
Proof.
  induction s as [|a|a b|a b c t IH] using list3_ind.
  - intros c [].
  - rewrite unpadded_1. intros c [<-|[<-|[]]]; apply accepted_alpha;
      first [apply idx0_lt|apply idx1e_lt].
  - rewrite unpadded_2. intros c [<-|[<-|[<-|[]]]]; apply accepted_alpha;
      first [apply idx0_lt|apply idx1_lt|apply idx2e_lt].
  - rewrite unpadded_cons3. apply all_acc_app. split; auto.
    unfold quad. intros x [<-|[<-|[<-|[<-|[]]]]]; apply accepted_alpha;
      first [apply idx0_lt|apply idx1_lt|apply idx2_lt|apply idx3_lt].
Qed.
Lemma padding_acc url s : all_acc url (rfc4648_padding s).
Proof.
  unfold rfc4648_padding. intros c H.
  destruct (length s mod 3)%nat as [|[|[|?]]]; simpl in H; intuition; subst; apply accepted_eq.
Qed.
Lemma padded_acc url s : all_acc url (rfc4648_padded url s).
Proof. apply all_acc_app. split; [apply unpadded_acc|apply padding_acc]. Qed.

Lemma padding_repeat url s :
  rfc4648_padding s = repeat x3d (dec_r (length (rfc4648_unpadded url s))).
Proof.
  rewrite unpadded_length. unfold rfc4648_padding, dec_r. generalize (length s). intros n.
  assert (H : (n mod 3 = 0 \/ n mod 3 = 1 \/ n mod 3 = 2)%nat) by lia.
  destruct H as [H|[H|H]]; rewrite H.
  - assert (E : (((4 * n + 2) / 3) mod 4 = 0)%nat) by lia. rewrite E. reflexivity.
  - assert (E : (((4 * n + 2) / 3) mod 4 = 2)%nat) by lia. rewrite E. reflexivity.
  - assert (E : (((4 * n + 2) / 3) mod 4 = 3)%nat) by lia. rewrite E. reflexivity.
Qed.

Lemma syms_lines url s : all_acc url s -> forall room n,
  syms url (lines_of n room s) = s.
Proof.
  pose proof (accepted_nl url) as Hnl.
  induction s as [|c t IH]; intros Hacc room n.
  - simpl. destruct (Nat.eqb room n); simpl; auto. rewrite Hnl. reflexivity.
  - apply all_acc_cons in Hacc as [Hc Ht]. destruct room; simpl.
    + rewrite Hnl, Hc. f_equal. apply IH; auto.
    + rewrite Hc. f_equal. apply IH; auto.
Qed.

Lemma syms_text url s :
  syms url (b64_text url s) = if url then rfc4648_unpadded url s else rfc4648_padded url s.
Proof.
  unfold b64_text. destruct url.
  - apply syms_acc, unpadded_acc.
  - apply syms_lines, padded_acc.
Qed.

Lemma dec_all_text url s : s <> [] ->
  let l := syms url (b64_text url s) in
  bad_count url (length l) = false /\ exists k, dec_all url l = Some (s, repeat x00 k).
Proof.
  intros Hs l. unfold l. rewrite syms_text.
  assert (Hlen : (1 <= length s)%nat) by (destruct s; simpl; [congruence|lia]).
  destruct url.
  - split.
    + unfold bad_count. rewrite unpadded_length. generalize dependent (length s). intros. cbn [negb andb].
      rewrite orb_false_r. apply orb_false_iff. split; lia.
    + unfold dec_all. rewrite <- (padding_repeat true s). apply (dgroups_padded true).
  - split.
    + unfold bad_count. rewrite padded_length. generalize dependent (length s). intros. cbn [negb andb].
      repeat (apply orb_false_iff; split); lia.
    + unfold dec_all.
      assert (E : dec_r (length (rfc4648_padded false s)) = 0%nat).
      { unfold dec_r. rewrite padded_length.
        assert (E : ((4 * ((length s + 2) / 3)) mod 4 = 0)%nat) by lia. rewrite E. reflexivity. }
      rewrite E. simpl. rewrite app_nil_r. apply (dgroups_padded false).
Qed.

(** The encoder's text contains no NUL. *)
Lemma all_acc_no_nul url s : all_acc url s -> no_nul s.
Proof. intros H Hin. apply H in Hin. apply (accepted_not_nul url) in Hin. congruence. Qed.
Lemma lines_no_nul n room s : no_nul s -> no_nul (lines_of n room s).
Proof.
  revert room. induction s as [|c t IH]; intros room H.
  - simpl. destruct (Nat.eqb room n); intros Hin; simpl in Hin; intuition discriminate.
  - apply no_nul_cons in H as [H1 H2]. destruct room; simpl.
    + apply no_nul_cons. split; [discriminate|]. apply no_nul_cons. split; auto.
    + apply no_nul_cons. split; auto.
Qed.
Lemma text_no_nul url s : no_nul (b64_text url s).
Proof.
  unfold b64_text. destruct url.
  - apply (all_acc_no_nul true), unpadded_acc.
  - apply lines_no_nul. apply (all_acc_no_nul false), padded_acc.
Qed.
Lemma strip_nul_no s : no_nul s -> strip_nul s = s.
Proof.
  intros H. unfold strip_nul. destruct (is_nul (last s x01)) eqn:E; auto.
  apply is_nul_true in E. destruct s as [|c t]; [discriminate|].
  destruct (exists_last (l := c :: t)) as (s' & z & Es); [discriminate|].
  rewrite Es, last_last in E. subst z. exfalso. apply H. rewrite Es.
  apply in_or_app. right. left. reflexivity.
Qed.

(** Decoding the encoder's text (with anything behind it). *)
Lemma decode_text url b s rest w :
  wf w -> s <> [] -> w_alloc w (w_next w) = true ->
  exists z,
  l8w8jwt_base64_decode url (Ptr b (b64_text url s ++ rest)) (N.of_nat (length (b64_text url s)))
    true true w
  = Ret (B64 L8W8JWT_SUCCESS (Some (Ptr (Some (w_next w)) (s ++ x00 :: repeat x00 z)))
             (Some (N.of_nat (length s)))) (w_ok w).
Proof.
  intros Hwf Hs Hal.
  destruct (dec_all_text url s Hs) as (Hb & k & Hd).
  assert (Ht : (0 < N.of_nat (length (b64_text url s)))%N).
  { destruct (b64_text url s) eqn:E; [|simpl; lia].
    unfold bad_count in Hb. simpl in Hb. discriminate. }
  rewrite base64_decode_fun by (auto; rewrite app_length; lia).
  rewrite Nat2N.id, firstn_app_exact, strip_nul_no by apply text_no_nul.
  rewrite Hb, Hal. cbn [negb]. rewrite Hd.
  exists (k + (dec_size (length (syms url (b64_text url s))) - (length s + k)) - 1)%nat.
  pose proof (dgroups_len _ _ _ _ Hd) as Hlen. rewrite repeat_length in *.
  rewrite <- repeat_app.
  assert (Hpos : (length s + k < dec_size (length (syms url (b64_text url s))))%nat).
  { rewrite app_length, repeat_length in Hlen. unfold dec_size.
    assert (dec_r (length (syms url (b64_text url s))) <= 2)%nat.
    { unfold dec_r. destruct (_ mod 4)%nat as [|[|[|[|?]]]]; lia. }
    lia. }
  assert (E : (k + (dec_size (length (syms url (b64_text url s))) - (length s + k)))%nat
    = S (k + (dec_size (length (syms url (b64_text url s))) - (length s + k)) - 1)) by lia.
  rewrite E at 1. reflexivity.
Qed.
