(** * Lemmas about src/util.c and src/version.c *)
From Verif Require Import Base BaseProofs Util.
From Coq Require Import ZifyBool ZifyNat ZifyN.
Ltac Zify.zify_post_hook ::= Z.div_mod_to_equations.

(** ** Specification: ASCII case folding *)
Definition ascii_lower (b : byte) : byte :=
  if ((65 <=? b2n b) && (b2n b <=? 90))%N then n2b (b2n b + 32) else b.

(** Bytes on which [tolower((int)c)] is defined and agrees with ASCII case folding. *)
Definition plain (p : platform) (b : byte) : Prop := p_char_signed p = true -> (b2n b < 128)%N.

Lemma tolower_plain p b : plain p b -> tolower (char_val p b) = OK (b2z (ascii_lower b)).
Proof.
  intros H. unfold char_val.
  assert (E : p_char_signed p && (127 <? b2n b)%N = false).
  { destruct (p_char_signed p) eqn:Es; auto. specialize (H Es). cbn [andb]. lia. }
  rewrite E. unfold tolower, ascii_lower, b2z.
  pose proof (b2n_lt b).
  destruct (Z.ltb_spec (Z.of_N (b2n b)) (-1)); [lia|].
  destruct ((65 <=? b2n b) && (b2n b <=? 90))%N eqn:E2.
  - replace ((65 <=? Z.of_N (b2n b)) && (Z.of_N (b2n b) <=? 90))%Z with true by lia.
    rewrite b2n_n2b by lia. f_equal. lia.
  - replace ((65 <=? Z.of_N (b2n b)) && (Z.of_N (b2n b) <=? 90))%Z with false by lia. reflexivity.
Qed.

Lemma lower_nul b : ascii_lower b = x00 <-> b = x00.
Proof.
  split; [|intros ->; reflexivity].
  intros H. unfold ascii_lower in H.
  destruct ((65 <=? b2n b) && (b2n b <=? 90))%N eqn:E; auto.
  assert (E' : b2n (n2b (b2n b + 32)) = b2n x00) by (rewrite H; reflexivity).
  rewrite b2n_n2b in E' by lia. change (b2n x00) with 0%N in E'. lia.
Qed.
Lemma b2z_inj a b : b2z a = b2z b -> a = b.
Proof. unfold b2z. intros H. apply b2n_inj. lia. Qed.

Lemma strncmpic_loop_spec p s1 r1 : forall s2 r2 n ret,
  no_nul s1 -> no_nul s2 -> Forall (plain p) s1 -> Forall (plain p) s2 ->
  (n = 0%N \/ (s1 = [] /\ s2 = []) ->
     strncmpic_loop p (s1 ++ x00 :: r1) (s2 ++ x00 :: r2) n ret = OK ret)
  /\ ((0 < n)%N -> (s1 <> [] \/ s2 <> []) ->
     exists v, strncmpic_loop p (s1 ++ x00 :: r1) (s2 ++ x00 :: r2) n ret = OK v
       /\ (v = 0%Z <-> map ascii_lower (firstn (N.to_nat n) s1)
                       = map ascii_lower (firstn (N.to_nat n) s2))).
Proof.
  induction s1 as [|a s1 IH]; intros s2 r2 n ret Hn1 Hn2 Hp1 Hp2.
  - split.
    + intros [-> | (_ & ->)]; [|reflexivity]. destruct s2 as [|b s2]; [reflexivity|].
      cbn [app strncmpic_loop]. destruct (is_nul b); reflexivity.
    + intros Hn [H|H]; [congruence|]. destruct s2 as [|b s2]; [congruence|].
      apply no_nul_cons in Hn2 as [Hb Hn2]. inversion Hp2 as [|? ? Hpb Hp2']; subst.
      cbn [app strncmpic_loop].
      assert (Hb' : is_nul b = false) by (apply is_nul_false; auto).
      rewrite Hb'. cbn [is_nul Byte.eqb andb]. rewrite andb_false_r.
      destruct (N.eqb_spec n 0); [lia|].
      rewrite !tolower_plain by (auto; intros _; reflexivity). cbn [ubind].
      assert (Hne : (b2z (ascii_lower x00) - b2z (ascii_lower b) <> 0)%Z).
      { intros E. apply Hb. apply lower_nul. symmetry. apply b2z_inj. change (ascii_lower x00) with x00 in E. lia. }
      destruct (Z.eqb_spec (b2z (ascii_lower x00) - b2z (ascii_lower b)) 0); [contradiction|].
      cbn [negb]. eexists. split; [reflexivity|]. split; [contradiction|].
      destruct (N.to_nat n) eqn:E; [lia|]. simpl. discriminate.
  - apply no_nul_cons in Hn1 as [Ha Hn1]. inversion Hp1 as [|? ? Hpa Hp1']; subst.
    assert (Ha' : is_nul a = false) by (apply is_nul_false; auto).
    split.
    + intros [-> | (H & _)]; [|discriminate]. destruct s2 as [|b s2]; cbn [app strncmpic_loop];
        rewrite Ha'; reflexivity.
    + intros Hn _. destruct s2 as [|b s2]; cbn [app strncmpic_loop]; rewrite Ha'; cbn [andb].
      * destruct (N.eqb_spec n 0); [lia|].
        rewrite !tolower_plain by (auto; intros _; reflexivity). cbn [ubind].
        assert (Hne : (b2z (ascii_lower a) - b2z (ascii_lower x00) <> 0)%Z).
        { intros E. apply Ha. apply lower_nul. apply b2z_inj. change (ascii_lower x00) with x00 in E. lia. }
        destruct (Z.eqb_spec (b2z (ascii_lower a) - b2z (ascii_lower x00)) 0); [contradiction|].
        cbn [negb]. eexists. split; [reflexivity|]. split; [contradiction|].
        destruct (N.to_nat n) eqn:E; [lia|]. simpl. discriminate.
      * apply no_nul_cons in Hn2 as [Hb Hn2]. inversion Hp2 as [|? ? Hpb Hp2']; subst.
        destruct (N.eqb_spec n 0); [lia|].
        rewrite !tolower_plain by auto. cbn [ubind].
        replace (N.to_nat n) with (S (N.to_nat (n - 1))) by lia. cbn [firstn map].
        destruct (Z.eqb_spec (b2z (ascii_lower a) - b2z (ascii_lower b)) 0) as [E|E]; cbn [negb].
        -- assert (Eab : ascii_lower a = ascii_lower b) by (apply b2z_inj; lia).
           destruct (IH s2 r2 (n - 1)%N (b2z (ascii_lower a) - b2z (ascii_lower b))%Z)
             as [IH0 IH1]; auto.
           assert (Hd : (n - 1 = 0)%N \/ (s1 = [] /\ s2 = [])
                        \/ ((0 < n - 1)%N /\ (s1 <> [] \/ s2 <> []))).
           { destruct (N.eqb_spec (n - 1) 0); [auto|]. right.
             destruct s1; [destruct s2; auto|]; right; split; try lia; [right|left]; discriminate. }
           destruct Hd as [Hd|[Hd|(Hd1 & Hd2)]].
           ++ rewrite IH0 by auto. rewrite E. eexists. split; [reflexivity|].
              rewrite Hd. simpl. rewrite Eab. tauto.
           ++ destruct Hd as [-> ->]. rewrite IH0 by auto. rewrite E. eexists.
              split; [reflexivity|]. rewrite !firstn_nil. simpl. rewrite Eab. tauto.
           ++ destruct (IH1 Hd1 Hd2) as (v & Hv & Hiff). rewrite Hv. exists v.
              split; [reflexivity|]. rewrite Hiff, Eab. split; [congruence|].
              intros Hc. inversion Hc. reflexivity.
        -- eexists. split; [reflexivity|]. split; [contradiction|].
           intros Hc. inversion Hc as [[Hc1 Hc2]]. rewrite Hc1 in E. lia.
Qed.

(** ** Specification: hexadecimal *)
Fixpoint position (c : byte) (s : bytes) : option N :=
  match s with
  | [] => None
  | x :: t => if Byte.eqb x c then Some 0%N else option_map N.succ (position c t)
  end.
(** The value of a hexadecimal digit, either case. *)
Definition hex_value (c : byte) : option N :=
  match position c (lit "0123456789abcdef") with
  | Some v => Some v
  | None => position c (lit "0123456789ABCDEF")
  end.
(** The bytes a text of hexadecimal digit pairs denotes; [None] if it is not one. *)
Fixpoint hex_bytes (s : bytes) : option bytes :=
  match s with
  | [] => Some []
  | a :: b :: t =>
      match hex_value a, hex_value b, hex_bytes t with
      | Some x, Some y, Some r => Some (n2b (16 * x + y) :: r)
      | _, _, _ => None
      end
  | _ => None
  end.

Lemma hex_char c v p : hex_value c = Some v ->
  Z.rem (Z.rem (char_val p c) 32 + 9) 25 = Z.of_N v /\ (v < 16)%N.
Proof.
  assert (H : forall sg, forallb (fun c =>
    match hex_value c with
    | None => true
    | Some v => (Z.rem (Z.rem (if sg && (127 <? b2n c)%N then (b2z c - 256)%Z else b2z c) 32 + 9) 25 =? Z.of_N v)%Z
                && (v <? 16)%N
    end) all_bytes = true) by (intros []; vm_compute; reflexivity).
  intros Hv. specialize (H (p_char_signed p)).
  pose proof (sweep1 _ H c) as Hc. cbv beta in Hc. rewrite Hv in Hc.
  unfold char_val. lia.
Qed.
Lemma hex_value_range c v : hex_value c = Some v -> (v < 16)%N.
Proof. intros H. apply (hex_char c v (Platform 64 true true true true)). exact H. Qed.

Lemma hex_pair_spec p a b x y : hex_value a = Some x -> hex_value b = Some y ->
  hex_pair (char_val p a) (char_val p b) = n2b (16 * x + y).
Proof.
  intros Ha Hb. unfold hex_pair.
  destruct (hex_char _ _ p Ha) as [-> Hx]. destruct (hex_char _ _ p Hb) as [-> Hy].
  f_equal. lia.
Qed.

Lemma list2_ind {A} (P : list A -> Prop) :
  P [] -> (forall a, P [a]) -> (forall a b t, P t -> P (a :: b :: t)) -> forall l, P l.
Proof.
  intros H0 H1 H2.
  assert (H : forall l, P l /\ (forall a, P (a :: l))).
  { induction l as [|x l (IH & IH1)]; split; auto. }
  intros l. apply H.
Qed.

Lemma hex_loop_ok p s : forall f r,
  (length s / 2 <= length r)%nat ->
  exists o, hex_loop p s (Cur f r) = OK (Cur (rev o ++ f) (skipn (length s / 2) r))
    /\ length o = (length s / 2)%nat
    /\ (forall t, hex_bytes s = Some t -> o = t).
Proof.
  induction s as [|a|a b s IH] using list2_ind; intros f r Hr.
  - exists []. repeat split. intros t H. inversion H. reflexivity.
  - exists []. repeat split. intros t H. discriminate.
  - assert (E : (length (a :: b :: s) / 2 = S (length s / 2))%nat).
    { cbn [length]. replace (S (S (length s))) with (length s + 1 * 2)%nat by lia.
      rewrite Nat.div_add by lia. lia. }
    rewrite E in *. destruct r as [|x r]; [cbn [length] in Hr; lia|].
    cbn [length] in Hr.
    cbn [hex_loop cur_put c_rest c_done ubind].
    destruct (IH (hex_pair (char_val p a) (char_val p b) :: f) r) as (o & Ho & Hl & Hs); [lia|].
    exists (hex_pair (char_val p a) (char_val p b) :: o).
    rewrite Ho. cbn [rev skipn length]. rewrite <- app_assoc. split; [reflexivity|].
    split; [lia|]. intros t Ht. cbn [hex_bytes] in Ht.
    destruct (hex_value a) as [xa|] eqn:Ea; [|discriminate].
    destruct (hex_value b) as [xb|] eqn:Eb; [|discriminate].
    destruct (hex_bytes s) as [t'|] eqn:Et; [|discriminate].
    inversion Ht; subst. rewrite (Hs t') by reflexivity. f_equal. apply hex_pair_spec; auto.
Qed.

(** The text of [n] bytes without one trailing NUL. *)
Definition without_final_nul (s : bytes) : bytes :=
  if is_nul (last s x01) then removelast s else s.

Lemma hexstr2bin_cases p b m n ob o size nn :
  (0 < n)%N -> (n <= N.of_nat (length m))%N -> (size <= N.of_nat (length o))%N ->
  let s := without_final_nul (firstn (N.to_nat n) m) in
  let k := (length s / 2)%nat in
  l8w8jwt_hexstr2bin p (Ptr b m) n (Ptr ob o) size nn
  = if negb (Nat.eqb (length s mod 2) 0) then OK (2%Z, None, None)
    else if (size <? N.of_nat k + 1)%N then OK (3%Z, None, None)
    else
      match hex_loop p s (cur_start o) with
      | OK c => OK (0%Z, Some (cur_buf (Cur (c_done c) (x00 :: skipn 1 (c_rest c)))),
                    if nn then Some (N.of_nat k) else None)
      | KO u => KO u
      end.
Proof.
  intros Hn Hl Ho s k. unfold l8w8jwt_hexstr2bin.
  destruct (N.eqb_spec n 0); [lia|].
  rewrite read_at_ok by lia. cbn [ubind].
  set (hl := (if is_nul (nth (N.to_nat (n - 1)) m x00) then n - 1 else n)%N).
  assert (Hs : firstn (N.to_nat hl) m = s /\ N.of_nat (length s) = hl).
  { unfold s, without_final_nul, hl.
    assert (Hlen : length (firstn (N.to_nat n) m) = N.to_nat n) by (rewrite firstn_length; lia).
    assert (El : last (firstn (N.to_nat n) m) x01 = nth (N.to_nat (n - 1)) m x00).
    { destruct (exists_last (l := firstn (N.to_nat n) m)) as (s' & z & Es).
      - intros E. rewrite E in Hlen. simpl in Hlen. lia.
      - rewrite Es, last_last.
        assert (Hs' : length s' = N.to_nat (n - 1)).
        { rewrite Es, app_length in Hlen. simpl in Hlen. lia. }
        rewrite <- (firstn_skipn (N.to_nat n) m), Es, <- app_assoc.
        rewrite app_nth2 by lia. rewrite Hs', Nat.sub_diag. reflexivity. }
    rewrite El. destruct (is_nul _).
    - rewrite removelast_firstn_len, firstn_firstn, Hlen. split; [f_equal; lia|].
      rewrite firstn_length. lia.
    - split; [reflexivity|]. lia. }
  destruct Hs as [Hs1 Hs2].
  assert (E2 : (hl mod 2 =? 0)%N = Nat.eqb (length s mod 2) 0) by lia.
  rewrite E2. destruct (Nat.eqb (length s mod 2) 0) eqn:E; cbn [negb]; [|reflexivity].
  assert (Ek : (hl / 2)%N = N.of_nat k) by (unfold k; lia).
  rewrite Ek. destruct (N.ltb_spec size (N.of_nat k + 1)) as [H3|H3]; [reflexivity|].
  assert (Hhl : (hl <= N.of_nat (length m))%N) by (unfold hl; destruct (is_nul _); lia).
  rewrite take_ok by exact Hhl. cbn [ubind]. rewrite Hs1.
  unfold cur_start.
  destruct (hex_loop_ok p s [] o) as (out & Hout & Hlo & _); [fold k; lia|].
  rewrite Hout. cbn [ubind]. fold k. unfold cur_set. cbn [c_rest c_done].
  destruct (skipn k o) as [|y t] eqn:Es.
  - apply (f_equal (@length byte)) in Es. rewrite skipn_length in Es. simpl in Es. lia.
  - cbn [ubind skipn]. reflexivity.
Qed.
