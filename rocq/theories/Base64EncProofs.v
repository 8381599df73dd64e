(** * Proofs about the base64 encoder model *)
From Verif Require Import Base BaseProofs Base64 SpecB64.
From Coq Require Import ZifyBool ZifyNat ZifyN.
Ltac Zify.zify_post_hook ::= Z.div_mod_to_equations.

Lemma list3_ind {A} (P : list A -> Prop) :
  P [] -> (forall a, P [a]) -> (forall a b, P [a; b]) ->
  (forall a b c t, P t -> P (a :: b :: c :: t)) -> forall l, P l.
Proof.
  intros H0 H1 H2 H3.
  assert (H : forall l, P l /\ (forall a, P (a :: l)) /\ (forall a b, P (a :: b :: l))).
  { induction l as [|x l (IH & IH1 & IH2)]; repeat split; auto. }
  intros l. apply H.
Qed.

(** ** The tables *)
Definition alpha_char (url : bool) (i : N) : byte := nth (N.to_nat i) (table_of url) x00.

Lemma tables_agree url i : (i < 64)%N ->
  alpha_char url i = nth (N.to_nat i) (rfc4648_alphabet url) x00.
Proof.
  intros Hi.
  assert (H : Byte.eqb (alpha_char url i) (nth (N.to_nat i) (rfc4648_alphabet url) x00) = true).
  { revert i Hi. apply (sweepN 64). destruct url; vm_compute; reflexivity. }
  apply byte_eqb_eq. exact H.
Qed.

Lemma put_tab_ok url c i x t : (i < 64)%N -> c_rest c = x :: t ->
  put_tab (table_of url) c i = OK (Cur (alpha_char url i :: c_done c) t).
Proof.
  intros Hi Hc. unfold put_tab. rewrite read_at_ok.
  - simpl. unfold cur_put. rewrite Hc. reflexivity.
  - apply (N.lt_trans _ _ _ Hi). destruct url; reflexivity.
Qed.

(** ** Indices computed by the encoder *)
Definition idx0 (a : byte) : N := N.shiftr (b2n a) 2.
Definition idx1 (a b : byte) : N := N.lor (N.shiftl (N.land (b2n a) 3) 4) (N.shiftr (b2n b) 4).
Definition idx2 (b c : byte) : N := N.lor (N.shiftl (N.land (b2n b) 15) 2) (N.shiftr (b2n c) 6).
Definition idx3 (c : byte) : N := N.land (b2n c) 63.
Definition idx1e (a : byte) : N := N.shiftl (N.land (b2n a) 3) 4.
Definition idx2e (b : byte) : N := N.shiftl (N.land (b2n b) 15) 2.

Lemma idx0_val a : idx0 a = (b2n a / 4)%N.
Proof.
  apply N.eqb_eq. revert a. apply sweep1. vm_compute. reflexivity.
Qed.
Lemma idx1_val a b : idx1 a b = (b2n a mod 4 * 16 + b2n b / 16)%N.
Proof.
  apply N.eqb_eq. revert a b. apply sweep2. vm_compute. reflexivity.
Qed.
Lemma idx2_val a b : idx2 a b = (b2n a mod 16 * 4 + b2n b / 64)%N.
Proof.
  apply N.eqb_eq. revert a b. apply sweep2. vm_compute. reflexivity.
Qed.
Lemma idx3_val a : idx3 a = (b2n a mod 64)%N.
Proof. apply N.eqb_eq. revert a. apply sweep1. vm_compute. reflexivity. Qed.
Lemma idx1e_val a : idx1e a = (b2n a mod 4 * 16)%N.
Proof. apply N.eqb_eq. revert a. apply sweep1. vm_compute. reflexivity. Qed.
Lemma idx2e_val a : idx2e a = (b2n a mod 16 * 4)%N.
Proof. apply N.eqb_eq. revert a. apply sweep1. vm_compute. reflexivity. Qed.

Lemma idx0_lt a : (idx0 a < 64)%N.
Proof. rewrite idx0_val. pose proof (b2n_lt a). lia. Qed.
Lemma idx1_lt a b : (idx1 a b < 64)%N.
Proof. rewrite idx1_val. pose proof (b2n_lt a). pose proof (b2n_lt b). lia. Qed.
Lemma idx2_lt a b : (idx2 a b < 64)%N.
Proof. rewrite idx2_val. pose proof (b2n_lt a). pose proof (b2n_lt b). lia. Qed.
Lemma idx3_lt a : (idx3 a < 64)%N.
Proof. rewrite idx3_val. pose proof (b2n_lt a). lia. Qed.
Lemma idx1e_lt a : (idx1e a < 64)%N.
Proof. rewrite idx1e_val. pose proof (b2n_lt a). lia. Qed.
Lemma idx2e_lt a : (idx2e a < 64)%N.
Proof. rewrite idx2e_val. pose proof (b2n_lt a). lia. Qed.

(** ** The bit-level specification, group by group *)
Ltac sweep_char :=
  unfold rfc4648_char; rewrite tables_agree;
  [ f_equal; f_equal; apply N.eqb_eq | first [apply idx0_lt|apply idx1_lt|apply idx2_lt|apply idx3_lt|apply idx1e_lt|apply idx2e_lt] ].

Definition bit (a : byte) (k : N) : bool := N.testbit (b2n a) k.

Lemma char0 url a :
  rfc4648_char url [bit a 7; bit a 6; bit a 5; bit a 4; bit a 3; bit a 2] = alpha_char url (idx0 a).
Proof. sweep_char. revert a. apply sweep1. vm_compute. reflexivity. Qed.
Lemma char1 url a b :
  rfc4648_char url [bit a 1; bit a 0; bit b 7; bit b 6; bit b 5; bit b 4]
  = alpha_char url (idx1 a b).
Proof. sweep_char. revert a b. apply sweep2. vm_compute. reflexivity. Qed.
Lemma char2 url b c :
  rfc4648_char url [bit b 3; bit b 2; bit b 1; bit b 0; bit c 7; bit c 6]
  = alpha_char url (idx2 b c).
Proof. sweep_char. revert b c. apply sweep2. vm_compute. reflexivity. Qed.
Lemma char3 url c :
  rfc4648_char url [bit c 5; bit c 4; bit c 3; bit c 2; bit c 1; bit c 0]
  = alpha_char url (idx3 c).
Proof. sweep_char. revert c. apply sweep1. vm_compute. reflexivity. Qed.
Lemma char1e url a :
  rfc4648_char url [bit a 1; bit a 0; false; false; false; false] = alpha_char url (idx1e a).
Proof. sweep_char. revert a. apply sweep1. vm_compute. reflexivity. Qed.
Lemma char2e url b :
  rfc4648_char url [bit b 3; bit b 2; bit b 1; bit b 0; false; false] = alpha_char url (idx2e b).
Proof. sweep_char. revert b. apply sweep1. vm_compute. reflexivity. Qed.

Definition quad (url : bool) (a b c : byte) : bytes :=
  [alpha_char url (idx0 a); alpha_char url (idx1 a b); alpha_char url (idx2 b c);
   alpha_char url (idx3 c)].

Lemma unpadded_cons3 url a b c t :
  rfc4648_unpadded url (a :: b :: c :: t) = quad url a b c ++ rfc4648_unpadded url t.
Proof.
  unfold rfc4648_unpadded, bits_of_bytes.
  change (flat_map (fun b0 => msb_bits 8 (b2n b0)) (a :: b :: c :: t)) with
    ([bit a 7; bit a 6; bit a 5; bit a 4; bit a 3; bit a 2; bit a 1; bit a 0;
      bit b 7; bit b 6; bit b 5; bit b 4; bit b 3; bit b 2; bit b 1; bit b 0;
      bit c 7; bit c 6; bit c 5; bit c 4; bit c 3; bit c 2; bit c 1; bit c 0]
      ++ flat_map (fun b0 => msb_bits 8 (b2n b0)) t).
  cbn [app six_bit_groups map].
  rewrite char0, char1, char2, char3. reflexivity.
Qed.
Lemma unpadded_1 url a :
  rfc4648_unpadded url [a] = [alpha_char url (idx0 a); alpha_char url (idx1e a)].
Proof.
  unfold rfc4648_unpadded, bits_of_bytes.
  change (flat_map (fun b0 => msb_bits 8 (b2n b0)) [a]) with
    ([bit a 7; bit a 6; bit a 5; bit a 4; bit a 3; bit a 2; bit a 1; bit a 0]).
  cbn [app six_bit_groups map firstn repeat]. rewrite char0, char1e. reflexivity.
Qed.
Lemma unpadded_2 url a b :
  rfc4648_unpadded url [a; b]
  = [alpha_char url (idx0 a); alpha_char url (idx1 a b); alpha_char url (idx2e b)].
Proof.
  unfold rfc4648_unpadded, bits_of_bytes.
  change (flat_map (fun b0 => msb_bits 8 (b2n b0)) [a; b]) with
    ([bit a 7; bit a 6; bit a 5; bit a 4; bit a 3; bit a 2; bit a 1; bit a 0;
      bit b 7; bit b 6; bit b 5; bit b 4; bit b 3; bit b 2; bit b 1; bit b 0]).
  cbn [app six_bit_groups map firstn repeat]. rewrite char0, char1, char2e. reflexivity.
Qed.
Lemma unpadded_nil url : rfc4648_unpadded url [] = [].
Proof. reflexivity. Qed.

Lemma padding_cons3 (a b c : byte) t : rfc4648_padding (a :: b :: c :: t) = rfc4648_padding t.
Proof.
  unfold rfc4648_padding. cbn [length].
  replace (S (S (S (length t))) mod 3)%nat with (length t mod 3)%nat; [reflexivity|].
  replace (S (S (S (length t)))) with (length t + 1 * 3)%nat by lia.
  rewrite Nat.mod_add by lia. reflexivity.
Qed.
Lemma padded_cons3 url a b c t :
  rfc4648_padded url (a :: b :: c :: t) = quad url a b c ++ rfc4648_padded url t.
Proof.
  unfold rfc4648_padded. rewrite unpadded_cons3, padding_cons3, app_assoc. reflexivity.
Qed.

Lemma unpadded_length url s : length (rfc4648_unpadded url s) = ((4 * length s + 2) / 3)%nat.
Proof.
  induction s as [|a|a b|a b c t IH] using list3_ind.
  - reflexivity.
  - rewrite unpadded_1. reflexivity.
  - rewrite unpadded_2. reflexivity.
  - rewrite unpadded_cons3, app_length, IH. unfold quad. cbn [length].
    generalize (length t). intros. lia.
Qed.
Lemma padded_length url s : length (rfc4648_padded url s) = (4 * ((length s + 2) / 3))%nat.
Proof.
  induction s as [|a|a b|a b c t IH] using list3_ind.
  - reflexivity.
  - unfold rfc4648_padded. rewrite unpadded_1. reflexivity.
  - unfold rfc4648_padded. rewrite unpadded_2. reflexivity.
  - rewrite padded_cons3, app_length, IH. unfold quad. cbn [length].
    generalize (length t). intros. lia.
Qed.

(** ** Line breaking *)
Lemma lines_room0 s : lines_of 72 0 s = x0a :: lines_of 72 72 s.
Proof. destruct s; reflexivity. Qed.
Lemma lines_app4 r a b c d t :
  lines_of 72 (S (S (S (S r)))) (a :: b :: c :: d :: t) = a :: b :: c :: d :: lines_of 72 r t.
Proof. reflexivity. Qed.
Lemma lines_length n room s : (1 <= n)%nat -> (room <= n)%nat ->
  (length (lines_of n room s) = length s + (length s + (n - room) + (n - 1)) / n)%nat.
Proof.
  intros Hn. revert room. induction s as [|c t IH]; intros room Hr.
  - cbn [lines_of length]. destruct (Nat.eqb_spec room n).
    + subst. rewrite Nat.sub_diag. simpl. rewrite Nat.div_small; lia.
    + simpl. apply Nat.div_unique with (r := (n - 1 - room)%nat); lia.
  - cbn [lines_of]. destruct room as [|r].
    + cbn [length]. rewrite IH by lia.
      replace (length t + (n - (n - 1)) + (n - 1))%nat with (length t + n)%nat by lia.
      replace (S (length t) + (n - 0) + (n - 1))%nat with (length t + n + 1 * n)%nat by lia.
      rewrite Nat.div_add by lia. lia.
    + cbn [length]. rewrite IH by lia.
      replace (S (length t) + (n - S r) + (n - 1))%nat with (length t + (n - r) + (n - 1))%nat by lia.
      lia.
Qed.

(** ** What the encoder writes *)
Definition written (url : bool) (s : bytes) : bytes :=
  if url then rfc4648_unpadded true s ++ repeat x00 (length (rfc4648_padding s))
  else in_lines_of_72 (rfc4648_padded false s).

(** From a loop state with [ll] characters on the current line. *)
Definition written_from (url : bool) (ll : Z) (s : bytes) : bytes :=
  if url then rfc4648_unpadded true s ++ repeat x00 (length (rfc4648_padding s))
  else lines_of 72 (72 - Z.to_nat ll) (rfc4648_padded false s).

Definition enc_rest (url : bool) (s : bytes) (ll : Z) (c : cursor) : U (cursor * N) :=
  let t := table_of url in
  '(rest, ll, c) <-u enc_groups url t s ll c ;;
  '(ll, sub, c) <-u enc_tail url t rest ll c ;;
  c <-u (if negb (ll =? 0)%Z && negb url then cur_put c x0a else OK c) ;;
  OK (c, sub).

Definition sub_of (url : bool) (s : bytes) : N :=
  if url then N.of_nat (length (rfc4648_padding s)) else 0%N.

Lemma list_uncons {A} (l : list A) n : (S n <= length l)%nat ->
  exists x t, l = x :: t /\ (n <= length t)%nat.
Proof. destruct l; simpl; intros; [lia|]. eexists _, _. split; eauto. lia. Qed.

Ltac uncons H := let x := fresh "x" in let t := fresh "r" in let E := fresh "E" in
  destruct (list_uncons _ _ H) as (x & t & E & ?); subst; clear H.

Definition ll_ok (url : bool) (ll : Z) (s : bytes) : Prop :=
  if url then (0 <= ll)%Z /\ (ll + 4 * ((Z.of_nat (length s) + 2) / 3) <= INT_MAX)%Z
  else exists k, ll = (4 * k)%Z /\ (0 <= k < 18)%Z.

Lemma enc_rest_ok url s : forall ll f r,
  ll_ok url ll s ->
  (length (written_from url ll s) <= length r)%nat ->
  enc_rest url s ll (Cur f r)
  = OK (Cur (rev (written_from url ll s) ++ f) (skipn (length (written_from url ll s)) r),
        sub_of url s).
Proof.
  induction s as [|a|a b|a b c t IH] using list3_ind; intros ll f r Hll Hlen.
  - (* nothing left *)
    unfold enc_rest. cbn [enc_groups enc_tail ubind].
    destruct url; [rewrite andb_false_r; reflexivity|].
    destruct Hll as (k & -> & Hk). unfold written_from, rfc4648_padded in *.
    rewrite unpadded_nil in *. cbn [app rfc4648_padding length] in *.
    change (rfc4648_padding []) with (@nil byte) in *. cbn [lines_of] in *.
    destruct (Z.eqb_spec (4 * k) 0) as [E|E].
    + rewrite E in *. reflexivity.
    + destruct (Nat.eqb_spec (72 - Z.to_nat (4 * k)) 72); [lia|].
      cbn [length] in Hlen. destruct r as [|x r]; cbn [length] in Hlen; [lia|]. reflexivity.
  - (* one byte *)
    unfold enc_rest. cbn [enc_groups ubind].
    assert (H4 : exists x0 x1 x2 x3 r', r = x0 :: x1 :: x2 :: x3 :: r').
    { destruct url.
      - unfold written_from in Hlen. rewrite unpadded_1 in Hlen. cbn in Hlen.
        destruct r as [|? [|? [|? [|? ?]]]]; cbn in Hlen; try lia. eauto 10.
      - destruct Hll as (k & -> & Hk). unfold written_from in Hlen. rewrite lines_length in Hlen by lia.
        rewrite padded_length in Hlen. cbn [length] in Hlen.
        change (4 * ((1 + 2) / 3))%nat with 4%nat in Hlen.
        destruct r as [|? [|? [|? [|? ?]]]]; cbn [length] in Hlen; try lia. eauto 10. }
    destruct H4 as (x0 & x1 & x2 & x3 & r' & ->).
    unfold enc_tail. fold (idx0 a). fold (idx1e a).
    erewrite put_tab_ok by (try apply idx0_lt; reflexivity). cbn [ubind c_done].
    erewrite put_tab_ok by (try apply idx1e_lt; reflexivity). cbn [ubind c_done c_rest cur_put].
    unfold int_add.
    assert (Hr : ((INT_MIN <=? ll + 4) && (ll + 4 <=? INT_MAX))%Z = true).
    { unfold ll_ok in Hll. destruct url; cbn [length] in Hll; unfold INT_MIN, INT_MAX in *;
        [| destruct Hll as (k & -> & ?)]; lia. }
    rewrite Hr. cbn [ubind].
    assert (Hnz : (ll + 4 =? 0)%Z = false).
    { unfold ll_ok in Hll. destruct url; [|destruct Hll as (k & -> & ?)]; lia. }
    rewrite Hnz. destruct url; cbn [negb andb ubind].
    + unfold written_from. rewrite unpadded_1. reflexivity.
    + destruct Hll as (k & -> & Hk).
      unfold written_from, rfc4648_padded in *. rewrite unpadded_1 in *.
      change (rfc4648_padding [a]) with [x3d; x3d] in *. cbn [app] in *.
      assert (HR : exists q, (72 - Z.to_nat (4 * k) = S (S (S (S q))) /\ q < 69)%nat).
      { exists (68 - Z.to_nat (4 * k))%nat. lia. }
      destruct HR as (q & HR & Hq). rewrite HR in *. rewrite lines_app4 in *.
      cbn [lines_of] in *. destruct (Nat.eqb_spec q 72); [lia|].
      cbn [length] in Hlen. destruct r' as [|y r']; cbn [length] in Hlen; [lia|]. reflexivity.
  - (* two bytes *)
    unfold enc_rest. cbn [enc_groups ubind].
    assert (H4 : exists x0 x1 x2 x3 r', r = x0 :: x1 :: x2 :: x3 :: r').
    { destruct url.
      - unfold written_from in Hlen. rewrite unpadded_2 in Hlen. cbn in Hlen.
        destruct r as [|? [|? [|? [|? ?]]]]; cbn in Hlen; try lia. eauto 10.
      - destruct Hll as (k & -> & Hk). unfold written_from in Hlen. rewrite lines_length in Hlen by lia.
        rewrite padded_length in Hlen. cbn [length] in Hlen.
        change (4 * ((2 + 2) / 3))%nat with 4%nat in Hlen.
        destruct r as [|? [|? [|? [|? ?]]]]; cbn [length] in Hlen; try lia. eauto 10. }
    destruct H4 as (x0 & x1 & x2 & x3 & r' & ->).
    unfold enc_tail. fold (idx0 a). fold (idx1 a b). fold (idx2e b).
    erewrite put_tab_ok by (try apply idx0_lt; reflexivity). cbn [ubind c_done].
    erewrite put_tab_ok by (try apply idx1_lt; reflexivity). cbn [ubind c_done].
    erewrite put_tab_ok by (try apply idx2e_lt; reflexivity). cbn [ubind c_done c_rest cur_put].
    unfold int_add.
    assert (Hr : ((INT_MIN <=? ll + 4) && (ll + 4 <=? INT_MAX))%Z = true).
    { unfold ll_ok in Hll. destruct url; cbn [length] in Hll; unfold INT_MIN, INT_MAX in *;
        [| destruct Hll as (k & -> & ?)]; lia. }
    rewrite Hr. cbn [ubind].
    assert (Hnz : (ll + 4 =? 0)%Z = false).
    { unfold ll_ok in Hll. destruct url; [|destruct Hll as (k & -> & ?)]; lia. }
    rewrite Hnz. destruct url; cbn [negb andb ubind].
    + unfold written_from. rewrite unpadded_2. reflexivity.
    + destruct Hll as (k & -> & Hk).
      unfold written_from, rfc4648_padded in *. rewrite unpadded_2 in *.
      change (rfc4648_padding [a; b]) with [x3d] in *. cbn [app] in *.
      assert (HR : exists q, (72 - Z.to_nat (4 * k) = S (S (S (S q))) /\ q < 69)%nat).
      { exists (68 - Z.to_nat (4 * k))%nat. lia. }
      destruct HR as (q & HR & Hq). rewrite HR in *. rewrite lines_app4 in *.
      cbn [lines_of] in *. destruct (Nat.eqb_spec q 72); [lia|].
      cbn [length] in Hlen. destruct r' as [|y r']; cbn [length] in Hlen; [lia|]. reflexivity.
  - (* a full group *)
    unfold enc_rest. cbn [enc_groups].
    fold (idx0 a). fold (idx1 a b). fold (idx2 b c). fold (idx3 c).
    assert (HW : exists tl, written_from url ll (a :: b :: c :: t) = quad url a b c ++ tl).
    { unfold written_from. destruct url.
      - rewrite unpadded_cons3, <- app_assoc. eauto.
      - destruct Hll as (k & -> & Hk). rewrite padded_cons3. unfold quad. cbn [app].
        replace (72 - Z.to_nat (4 * k))%nat with (S (S (S (S (68 - Z.to_nat (4 * k)))))) by lia.
        rewrite lines_app4. eauto. }
    assert (H4 : exists x0 x1 x2 x3 r', r = x0 :: x1 :: x2 :: x3 :: r').
    { destruct HW as (tl & HW). rewrite HW in Hlen. unfold quad in Hlen. cbn in Hlen.
      destruct r as [|? [|? [|? [|? ?]]]]; cbn in Hlen; try lia. eauto 10. }
    destruct H4 as (x0 & x1 & x2 & x3 & r' & ->). clear HW.
    erewrite put_tab_ok by (try apply idx0_lt; reflexivity). cbn [ubind c_done].
    erewrite put_tab_ok by (try apply idx1_lt; reflexivity). cbn [ubind c_done].
    erewrite put_tab_ok by (try apply idx2_lt; reflexivity). cbn [ubind c_done].
    erewrite put_tab_ok by (try apply idx3_lt; reflexivity). cbn [ubind c_done].
    unfold int_add.
    assert (Hr : ((INT_MIN <=? ll + 4) && (ll + 4 <=? INT_MAX))%Z = true).
    { unfold ll_ok in Hll. destruct url; cbn [length] in Hll; unfold INT_MIN, INT_MAX in *;
        [| destruct Hll as (k & -> & ?)]; lia. }
    rewrite Hr. cbn [ubind].
    destruct url.
    + rewrite andb_false_r.
      change (enc_rest true t (ll + 4)
                (Cur (alpha_char true (idx3 c) :: alpha_char true (idx2 b c)
                      :: alpha_char true (idx1 a b) :: alpha_char true (idx0 a) :: f) r')
              = OK (Cur (rev (written_from true ll (a :: b :: c :: t)) ++ f)
                      (skipn (length (written_from true ll (a :: b :: c :: t)))
                         (x0 :: x1 :: x2 :: x3 :: r')), sub_of true (a :: b :: c :: t))).
      unfold sub_of, written_from in *.
      rewrite unpadded_cons3, padding_cons3 in *. rewrite <- app_assoc in *.
      unfold quad in *. cbn [app length] in *.
      rewrite IH.
      * unfold sub_of. rewrite !rev_app_distr. cbn [rev skipn]. rewrite <- !app_assoc.
        cbn [app]. do 3 f_equal. rewrite rev_app_distr. rewrite <- !app_assoc. reflexivity.
      * unfold ll_ok in *. cbn [length] in Hll. lia.
      * lia.
    + destruct Hll as (k & -> & Hk). unfold sub_of, written_from in *.
      rewrite padded_cons3 in *. unfold quad in *. cbn [app] in *.
      replace (72 - Z.to_nat (4 * k))%nat with (S (S (S (S (68 - Z.to_nat (4 * k)))))) in * by lia.
      rewrite lines_app4 in *. cbn [length] in Hlen.
      destruct (Z.leb_spec 72 (4 * k + 4)).
      * assert (k = 17)%Z by lia. subst k. cbn [andb negb].
        change (68 - Z.to_nat (4 * 17))%nat with 0%nat in *.
        rewrite lines_room0 in *. cbn [length] in Hlen.
        destruct r' as [|y r']; cbn [length] in Hlen; [lia|]. cbn [cur_put c_rest ubind c_done].
        change (enc_rest false t 0
                (Cur (x0a :: alpha_char false (idx3 c) :: alpha_char false (idx2 b c)
                      :: alpha_char false (idx1 a b) :: alpha_char false (idx0 a) :: f) r')
          = OK (Cur (rev (alpha_char false (idx0 a) :: alpha_char false (idx1 a b)
                          :: alpha_char false (idx2 b c) :: alpha_char false (idx3 c)
                          :: x0a :: lines_of 72 72 (rfc4648_padded false t)) ++ f)
                    (skipn (length (alpha_char false (idx0 a) :: alpha_char false (idx1 a b)
                          :: alpha_char false (idx2 b c) :: alpha_char false (idx3 c)
                          :: x0a :: lines_of 72 72 (rfc4648_padded false t)))
                       (x0 :: x1 :: x2 :: x3 :: y :: r')), 0%N)).
        rewrite IH.
        -- change (72 - Z.to_nat 0)%nat with 72%nat. cbn [rev length skipn].
           rewrite <- !app_assoc. reflexivity.
        -- exists 0%Z. lia.
        -- change (72 - Z.to_nat 0)%nat with 72%nat. lia.
      * cbn [andb].
        change (enc_rest false t (4 * k + 4)
                (Cur (alpha_char false (idx3 c) :: alpha_char false (idx2 b c)
                      :: alpha_char false (idx1 a b) :: alpha_char false (idx0 a) :: f) r')
          = OK (Cur (rev (alpha_char false (idx0 a) :: alpha_char false (idx1 a b)
                          :: alpha_char false (idx2 b c) :: alpha_char false (idx3 c)
                          :: lines_of 72 (68 - Z.to_nat (4 * k)) (rfc4648_padded false t)) ++ f)
                    (skipn (length (alpha_char false (idx0 a) :: alpha_char false (idx1 a b)
                          :: alpha_char false (idx2 b c) :: alpha_char false (idx3 c)
                          :: lines_of 72 (68 - Z.to_nat (4 * k)) (rfc4648_padded false t)))
                       (x0 :: x1 :: x2 :: x3 :: r')), 0%N)).
        replace (68 - Z.to_nat (4 * k))%nat with (72 - Z.to_nat (4 * k + 4))%nat in * by lia.
        rewrite IH.
        -- cbn [rev length skipn]. rewrite <- !app_assoc. reflexivity.
        -- exists (k + 1)%Z. lia.
        -- lia.
Qed.

(** ** Buffer size *)
Lemma written_length url s :
  length (written url s)
  = if url then (4 * ((length s + 2) / 3))%nat
    else let l := (4 * ((length s + 2) / 3))%nat in (l + (l + 71) / 72)%nat.
Proof.
  unfold written. destruct url.
  - rewrite app_length, repeat_length.
    pose proof (padded_length true s) as H. unfold rfc4648_padded in H.
    rewrite app_length in H. exact H.
  - unfold in_lines_of_72. rewrite lines_length by lia. rewrite padded_length.
    rewrite Nat.sub_diag, Nat.add_0_r. reflexivity.
Qed.

(** [b64_olen] without wrap-around. *)
Lemma b64_olen_nowrap p n : (6 <= p_size_bits p)%N -> (n * 4 < size_mod p)%N ->
  let x := (n * 4 / 3 + 4)%N in b64_olen p n = (x + x / 72 + 1)%N.
Proof.
  intros Hw H x. unfold b64_olen.
  assert (Hm : (64 <= size_mod p)%N).
  { unfold size_mod. change 64%N with (2 ^ 6)%N. apply N.pow_le_mono_r; lia. }
  rewrite (N.mod_small (n * 4)) by lia.
  assert (E1 : ((n * 4 / 3 + 4) mod size_mod p = x)%N).
  { apply N.mod_small. lia. }
  rewrite E1.
  assert (E2 : ((x + x / 72) mod size_mod p = x + x / 72)%N).
  { apply N.mod_small. unfold x in *. lia. }
  rewrite E2. apply N.mod_small. unfold x in *. lia.
Qed.

Lemma enc_fill_ok url s buf :
  (url = true -> (4 * ((Z.of_nat (length s) + 2) / 3) <= INT_MAX)%Z) ->
  (length (written url s) < length buf)%nat ->
  enc_fill url s buf
  = OK (written url s ++ x00 :: skipn (S (length (written url s))) buf,
        (N.of_nat (length (written url s)) - sub_of url s)%N).
Proof.
  intros Hint Hlen. unfold enc_fill.
  assert (E : enc_rest url s 0 (cur_start buf)
    = OK (Cur (rev (written url s)) (skipn (length (written url s)) buf), sub_of url s)).
  { unfold cur_start. rewrite enc_rest_ok.
    - unfold written_from, written, in_lines_of_72.
      change (72 - Z.to_nat 0)%nat with 72%nat. rewrite app_nil_r. reflexivity.
    - unfold ll_ok. destruct url; [specialize (Hint eq_refl); lia|]. exists 0%Z. lia.
    - unfold written_from, written, in_lines_of_72 in *.
      change (72 - Z.to_nat 0)%nat with 72%nat. lia. }
  unfold enc_rest in E.
  destruct (enc_groups url (table_of url) s 0 (cur_start buf)) as [[[rest ll] c]|]; [|discriminate].
  cbn [ubind] in *.
  destruct (enc_tail url (table_of url) rest ll c) as [[[ll' sub] c']|]; [|discriminate].
  cbn [ubind] in *.
  destruct (if negb (ll' =? 0)%Z && negb url then cur_put c' x0a else OK c') as [c''|]; [|discriminate].
  cbn [ubind] in *. inversion E; subst; clear E.
  destruct (skipn (length (written url s)) buf) as [|y r] eqn:Er.
  { assert (length (skipn (length (written url s)) buf) = 0%nat) by (rewrite Er; reflexivity).
    rewrite skipn_length in *. lia. }
  unfold cur_set, cur_buf, cur_off. cbn [c_rest c_done ubind].
  rewrite rev_involutive, rev_length. do 2 f_equal. f_equal. f_equal.
  replace (S (length (written url s))) with (1 + length (written url s))%nat by lia.
  rewrite <- skipn_skipn, Er. reflexivity.
Qed.
