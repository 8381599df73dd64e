(** * Lemmas about the tokenizer *)
From Verif Require Import Base BaseProofs Jsmn SpecJwa.
From Coq Require Import ZifyBool ZifyNat ZifyN.
Ltac Zify.zify_post_hook ::= Z.div_mod_to_equations.

(** ** One step of the main loop, with tests instead of a match over all characters *)
Definition opens (c : byte) : bool := Byte.eqb c x7b || Byte.eqb c x5b.
Definition closes (c : byte) : bool := Byte.eqb c x7d || Byte.eqb c x5d.
Definition blank (c : byte) : bool := existsb (Byte.eqb c) [x09; x0d; x0a; x20; x3a; x2c].

Lemma jmain_step f cap c t pos toks count :
  jmain (S f) cap (c :: t) pos toks count =
  if is_nul c then (count, toks)
  else if opens c then
    match push_tok cap toks (Tok (if Byte.eqb c x7b then JObject else JArray) pos (-1)) with
    | None => (JSMN_ERROR_NOMEM, toks)
    | Some toks' => jmain f cap t (pos + 1) toks' (count + 1)
    end
  else if closes c then
    match cap with
    | None => jmain f cap t (pos + 1) toks count
    | Some _ =>
        match close_last (if Byte.eqb c x7d then JObject else JArray) (pos + 1) toks with
        | None => (JSMN_ERROR_INVAL, toks)
        | Some toks' => jmain f cap t (pos + 1) toks' count
        end
    end
  else if Byte.eqb c x22 then
    match jstr 0 t 0 with
    | JErr e => (e, toks)
    | JFound n r =>
        match push_tok cap toks (Tok JString (pos + 1) (pos + 1 + n)) with
        | None => (JSMN_ERROR_NOMEM, toks)
        | Some toks' => jmain f cap r (pos + n + 2) toks' (count + 1)
        end
    end
  else if blank c then jmain f cap t (pos + 1) toks count
  else
    match jprim (c :: t) 0 with
    | JErr e => (e, toks)
    | JFound n r =>
        match push_tok cap toks (Tok JPrimitive pos (pos + n)) with
        | None => (JSMN_ERROR_NOMEM, toks)
        | Some toks' => jmain f cap r (pos + n) toks' (count + 1)
        end
    end.
Proof. destruct c; reflexivity. Qed.

(** ** Strings and primitives *)
Lemma is_hex_nul c : is_hex c = true -> c <> x00.
Proof. intros H ->. discriminate. Qed.
Lemma simple_escape_nul c : is_simple_escape c = true -> c <> x00.
Proof. intros H ->. discriminate. Qed.

Lemma jstr_found l : forall h n m r, jstr h l n = JFound m r ->
  exists body, l = body ++ x22 :: r /\ m = (n + Z.of_nat (length body))%Z /\ no_nul body.
Proof.
  assert (G : forall k l, (length l <= k)%nat -> forall h n m r, jstr h l n = JFound m r ->
    exists body, l = body ++ x22 :: r /\ m = (n + Z.of_nat (length body))%Z /\ no_nul body).
  { induction k as [|k IH]; intros l0 Hl h n m r H.
    - destruct l0; [discriminate|simpl in Hl; lia].
    - destruct l0 as [|c t]; [discriminate|]. cbn [length] in Hl. cbn [jstr] in H.
      destruct (is_nul c) eqn:Ec; [discriminate|]. apply is_nul_false in Ec.
      assert (One : forall h' n', jstr h' t n' = JFound m r -> n' = (n + 1)%Z ->
        exists body, c :: t = body ++ x22 :: r /\ m = (n + Z.of_nat (length body))%Z /\ no_nul body).
      { intros h' n' H' ->. apply IH in H' as (body & -> & -> & Hn); [|lia].
        exists (c :: body). split; [reflexivity|]. split; [cbn [length]; lia|]. apply no_nul_cons. auto. }
      destruct h as [|h].
      + destruct (Byte.eqb c x22) eqn:Eq.
        { apply byte_eqb_eq in Eq. inversion H; subst. exists []. split; [reflexivity|]. split; [simpl; lia|]. intros []. }
        destruct (Byte.eqb c x5c) eqn:Eb; [|eapply One; eauto].
        destruct t as [|e t']; [discriminate|]. cbn [length] in *.
        assert (Two : forall h', jstr h' t' (n + 2) = JFound m r -> e <> x00 ->
          exists body, c :: e :: t' = body ++ x22 :: r /\ m = (n + Z.of_nat (length body))%Z /\ no_nul body).
        { intros h' H' He. apply IH in H' as (body & -> & -> & Hn); [|lia].
          exists (c :: e :: body). split; [reflexivity|]. split; [cbn [length]; lia|].
          apply no_nul_cons. split; [auto|]. apply no_nul_cons. auto. }
        destruct (is_simple_escape e) eqn:Ee; [eapply Two; eauto using simple_escape_nul|].
        destruct (Byte.eqb e x75) eqn:Eu; [|discriminate]. apply byte_eqb_eq in Eu. subst e.
        eapply Two; eauto. discriminate.
      + destruct (is_hex c); [|discriminate]. eapply One; eauto. }
  intros h n m r. apply (G (length l) l). lia.
Qed.

Lemma jprim_found l : forall n m r, jprim l n = JFound m r ->
  exists body, l = body ++ r /\ m = (n + Z.of_nat (length body))%Z /\ no_nul body
    /\ (forall c t, r = c :: t -> is_nul c = true \/ prim_end c = true)
    /\ Forall (fun c => prim_end c = false /\ (32 <= b2n c < 127)%N) body.
Proof.
  induction l as [|c t IH]; intros n m r H; cbn [jprim] in H.
  - inversion H; subst. exists []. split; [reflexivity|]. split; [simpl; lia|]. split; [intros []|].
    split; [discriminate|constructor].
  - destruct (is_nul c) eqn:Ec.
    { inversion H; subst. exists []. split; [reflexivity|]. split; [simpl; lia|]. split; [intros []|].
      split; [intros c' t' E; inversion E; subst; auto|constructor]. }
    destruct (prim_end c) eqn:Ep.
    { inversion H; subst. exists []. split; [reflexivity|]. split; [simpl; lia|]. split; [intros []|].
      split; [intros c' t' E; inversion E; subst; auto|constructor]. }
    destruct (_ || _) eqn:Er; [discriminate|]. apply IH in H as (body & -> & -> & Hn & Hr & Hb).
    exists (c :: body). split; [reflexivity|]. split; [cbn [length]; lia|].
    split; [apply no_nul_cons; split; [apply is_nul_false; auto|auto]|]. split; [exact Hr|].
    constructor; [|exact Hb]. split; [exact Ep|]. lia.
Qed.
Lemma jprim_nonempty c t m r : is_nul c = false -> prim_end c = false ->
  jprim (c :: t) 0 = JFound m r -> (0 < m)%Z.
Proof.
  intros H1 H2 H. cbn [jprim] in H. rewrite H1, H2 in H. destruct (_ || _); [discriminate|].
  apply jprim_found in H as (b & _ & -> & _). lia.
Qed.
Lemma not_blank_prim c : is_nul c = false -> opens c = false -> closes c = false -> Byte.eqb c x22 = false ->
  blank c = false -> prim_end c = false.
Proof. destruct c; try reflexivity; discriminate. Qed.

Lemma jstr_err l h n r : jstr h l n = JErr r -> (r < 0)%Z.
Proof.
  assert (G : forall k l, (length l <= k)%nat -> forall h n, jstr h l n = JErr r -> (r < 0)%Z).
  { clear. induction k as [|k IH]; intros l Hl h n H.
    - destruct l; [|simpl in Hl; lia]. inversion H. reflexivity.
    - destruct l as [|c t]; [inversion H; reflexivity|]. cbn [length] in Hl. cbn [jstr] in H.
      destruct (is_nul c); [inversion H; reflexivity|].
      destruct h as [|h]; [|destruct (is_hex c); [eapply IH; [|exact H]; lia|inversion H; reflexivity]].
      destruct (Byte.eqb c x22); [discriminate|].
      destruct (Byte.eqb c x5c); [|eapply IH; [|exact H]; lia].
      destruct t as [|e t']; [inversion H; reflexivity|]. cbn [length] in Hl.
      destruct (is_simple_escape e); [eapply IH; [|exact H]; lia|].
      destruct (Byte.eqb e x75); [eapply IH; [|exact H]; lia|inversion H; reflexivity]. }
  intros H. apply (G (length l)) in H; auto.
Qed.
Lemma jprim_err l : forall n r, jprim l n = JErr r -> (r < 0)%Z.
Proof.
  induction l as [|c t IH]; intros n r H; cbn [jprim] in H; [discriminate|].
  destruct (is_nul c); [discriminate|]. destruct (prim_end c); [discriminate|].
  destruct (_ || _); [inversion H; reflexivity|]. eapply IH; eauto.
Qed.

(** ** Well-formed token lists *)
(** A token of a text whose first [n] bytes have been read. *)
Definition tok_ok (n : Z) (t : tok) : Prop :=
  t_type t <> JUndefined /\ (0 <= t_start t)%Z
  /\ ((t_end t = (-1)%Z /\ (t_type t = JObject \/ t_type t = JArray) /\ (t_start t < n)%Z)
      \/ ((t_start t <= t_end t <= n)%Z /\ (t_type t <> JString -> (t_start t < t_end t)%Z))).
Lemma tok_ok_le n m t : (n <= m)%Z -> tok_ok n t -> tok_ok m t.
Proof. intros H (H1 & H2 & [(H3 & H4 & H5)|(H3 & H4)]); (split; [exact H1|]; split; [exact H2|]); [left|right]; repeat split; auto; lia. Qed.
Lemma toks_ok_le n m l : (n <= m)%Z -> Forall (tok_ok n) l -> Forall (tok_ok m) l.
Proof. intros H. apply Forall_impl. intros t. apply tok_ok_le. exact H. Qed.

Lemma close_last_ok ty n l : forall l', close_last ty n l = Some l' -> Forall (tok_ok (n - 1)) l -> (0 < n)%Z ->
  Forall (tok_ok n) l' /\ length l' = length l.
Proof.
  induction l as [|t r IH]; intros l' H Hl Hn; [discriminate|]. cbn [close_last] in H.
  inversion Hl as [|? ? Ht Hr]; subst. destruct (tok_open t) eqn:Eo.
  - destruct (jtype_eqb (t_type t) ty); [|discriminate]. inversion H; subst. split; [|reflexivity].
    constructor; [|eapply toks_ok_le; [|exact Hr]; lia].
    destruct Ht as (H1 & H2 & H3). split; [exact H1|]. split; [exact H2|]. right. cbn [t_start t_end t_type].
    unfold tok_open in Eo. split; [|intros _]; destruct H3 as [(H3 & H4 & H5)|(H3 & H4)]; lia.
  - destruct (close_last ty n r) as [r'|] eqn:E; [|discriminate]. inversion H; subst.
    destruct (IH r' eq_refl Hr Hn) as [I1 I2]. split; [|cbn [length]; congruence].
    constructor; [eapply tok_ok_le; [|exact Ht]; lia|exact I1].
Qed.

Lemma jmain_ok cap f : forall rest pos toks count r toks',
  jmain f (Some cap) rest pos toks count = (r, toks') -> (0 <= r)%Z -> (length rest < f)%nat -> (0 <= pos)%Z ->
  Z.of_nat (length toks) = count -> Forall (tok_ok pos) toks ->
  exists used rest', rest = used ++ rest' /\ (rest' = [] \/ exists t, rest' = x00 :: t) /\ no_nul used
    /\ Forall (tok_ok (pos + Z.of_nat (length used))) toks' /\ Z.of_nat (length toks') = r.
Proof.
  induction f as [|f IH]; intros rest pos toks count r toks' H Hr Hf Hp Hc Ht; [lia|].
  destruct rest as [|c t].
  { cbn [jmain] in H. inversion H; subst. exists [], []. split; [reflexivity|]. split; [auto|].
    split; [intros []|]. split; [eapply toks_ok_le; [|exact Ht]; simpl; lia|reflexivity]. }
  rewrite jmain_step in H. cbn [length] in Hf.
  destruct (is_nul c) eqn:Ec.
  { inversion H; subst. apply is_nul_true in Ec. subst c. exists [], (x00 :: t). split; [reflexivity|].
    split; [eauto|]. split; [intros []|]. split; [eapply toks_ok_le; [|exact Ht]; simpl; lia|reflexivity]. }
  apply is_nul_false in Ec.
  assert (St : forall body r' pos' toks1 count1, c :: t = body ++ r' -> body <> [] -> no_nul body ->
    jmain f (Some cap) r' pos' toks1 count1 = (r, toks') -> pos' = (pos + Z.of_nat (length body))%Z ->
    Z.of_nat (length toks1) = count1 -> Forall (tok_ok pos') toks1 ->
    exists used rest', c :: t = used ++ rest' /\ (rest' = [] \/ exists t, rest' = x00 :: t) /\ no_nul used
    /\ Forall (tok_ok (pos + Z.of_nat (length used))) toks' /\ Z.of_nat (length toks') = r).
  { intros body r' pos' toks1 count1 E Hb Hn H' -> Hc' Ht'.
    assert (L : (0 < length body)%nat) by (destruct body; [contradiction|simpl; lia]).
    assert (Lf : (length r' < f)%nat).
    { apply (f_equal (@length byte)) in E. rewrite app_length in E. cbn [length] in E. lia. }
    apply IH in H' as (used & rest' & -> & Hr' & Hn' & Hk & Hl); auto; [|lia].
    exists (body ++ used), rest'. split; [rewrite <- app_assoc; exact E|]. split; [exact Hr'|].
    split; [intros Hin; apply in_app_iff in Hin as [Hin|Hin]; auto|]. rewrite app_length.
    split; [eapply toks_ok_le; [|exact Hk]; lia|exact Hl]. }
  assert (Hcn : no_nul [c]) by (apply no_nul_cons; split; [auto|intros []]).
  destruct (opens c) eqn:Eo.
  { unfold push_tok in H. destruct (Z.ltb_spec (Z.of_nat (length toks)) cap); [|inversion H; subst; exfalso; apply Hr; reflexivity].
    eapply (St [c] t _ _ _ eq_refl); [discriminate|exact Hcn|exact H|simpl; lia|cbn [length]; lia|].
    constructor; [|eapply toks_ok_le; [|exact Ht]; lia].
    split; [cbn [t_type]; destruct (Byte.eqb c x7b); discriminate|]. cbn [t_start t_end t_type]. split; [lia|].
    left. split; [reflexivity|]. split; [destruct (Byte.eqb c x7b); auto|lia]. }
  destruct (closes c) eqn:Ek.
  { destruct (close_last _ _ _) as [toks1|] eqn:E; [|inversion H; subst; exfalso; apply Hr; reflexivity].
    apply close_last_ok in E as [E1 E2]; [|eapply toks_ok_le; [|exact Ht]; lia|lia].
    eapply (St [c] t _ _ _ eq_refl); [discriminate|exact Hcn|exact H|simpl; lia|congruence|exact E1]. }
  destruct (Byte.eqb c x22) eqn:Eq.
  { destruct (jstr 0 t 0) as [er|n r1] eqn:E; [inversion H; subst|].
    { apply jstr_err in E. lia. }
    apply jstr_found in E as (body & -> & -> & Hn).
    unfold push_tok in H. destruct (Z.ltb_spec (Z.of_nat (length toks)) cap); [|inversion H; subst; exfalso; apply Hr; reflexivity].
    eapply (St (c :: body ++ [x22]) r1); [..|exact H| | |].
    - cbn [app]. rewrite <- app_assoc. reflexivity.
    - discriminate.
    - apply no_nul_cons. split; [auto|]. intros Hin. apply in_app_iff in Hin as [Hin|[Hin|[]]]; [auto|discriminate].
    - cbn [length]. rewrite app_length. cbn [length]. lia.
    - cbn [length]. lia.
    - constructor; [|eapply toks_ok_le; [|exact Ht]; lia]. split; [discriminate|]. cbn [t_start t_end t_type].
      split; [lia|]. right. split; [lia|]. intros C. congruence. }
  destruct (blank c) eqn:Ebl.
  { eapply (St [c] t _ _ _ eq_refl); [discriminate|exact Hcn|exact H|simpl; lia|exact Hc|].
    eapply toks_ok_le; [|exact Ht]. lia. }
  destruct (jprim (c :: t) 0) as [er|n r1] eqn:E.
  { inversion H; subst. apply jprim_err in E. lia. }
  pose proof (jprim_nonempty c t n r1 (proj2 (is_nul_false c) Ec)
    (not_blank_prim c (proj2 (is_nul_false c) Ec) Eo Ek Eq Ebl) E) as Hpos.
  apply jprim_found in E as (body & E & -> & Hn & _).
  unfold push_tok in H. destruct (Z.ltb_spec (Z.of_nat (length toks)) cap); [|inversion H; subst; exfalso; apply Hr; reflexivity].
  eapply (St body r1); [exact E| |exact Hn|exact H| | |].
  - intros ->. simpl in Hpos. lia.
  - lia.
  - cbn [length]. lia.
  - constructor; [|eapply toks_ok_le; [|exact Ht]; lia]. split; [discriminate|]. cbn [t_start t_end t_type].
    split; [lia|]. right. split; [lia|]. intros _. lia.
Qed.

(** A complete token of a text of [n] bytes. *)
Definition tok_in (n : nat) (t : tok) : Prop :=
  t_type t <> JUndefined /\ (0 <= t_start t <= t_end t)%Z /\ (t_end t <= Z.of_nat n)%Z
  /\ (t_type t <> JString -> (t_start t < t_end t)%Z).

Lemma jsmn_tokens js cap r toks :
  jsmn_parse js (Some cap) = (r, toks) -> (0 <= r)%Z ->
  Z.of_nat (length toks) = r /\ Forall (tok_in (length (before_nul js))) toks.
Proof.
  unfold jsmn_parse. destruct (jmain (S (length js)) (Some cap) js 0 [] 0) as [r1 toks1] eqn:E.
  destruct (Z.ltb_spec r1 0) as [Hr|Hr]; [intros H; inversion H; subst; lia|].
  destruct (existsb tok_open toks1) eqn:Eo; [intros H; inversion H; subst; vm_compute; congruence|].
  intros H _. inversion H; subst. rewrite rev_length.
  apply jmain_ok in E as (used & rest' & E & Hr' & Hn & Hk & Hl); [|exact Hr|lia|lia|reflexivity|constructor].
  split; [exact Hl|]. apply Forall_rev.
  assert (Eu : before_nul js = used).
  { subst js. clear - Hr' Hn. induction used as [|x u IH]; cbn [app].
    - destruct Hr' as [->|(t & ->)]; reflexivity.
    - apply no_nul_cons in Hn as [Hx Hn]. cbn [before_nul]. apply is_nul_false in Hx. rewrite Hx, IH; auto. }
  rewrite Eu. rewrite Forall_forall in *. intros t Ht. specialize (Hk t Ht).
  assert (Ho : tok_open t = false).
  { destruct (tok_open t) eqn:C; [|reflexivity]. rewrite <- Eo. symmetry. apply existsb_exists. eauto. }
  unfold tok_open in Ho. destruct Hk as (H1 & H2 & [(H3 & _)|(H3 & H4)]); [lia|].
  split; [exact H1|]. split; [lia|]. split; [lia|exact H4].
Qed.

(** The counting pass and the filling pass: with room for as many tokens as were counted, the
    second pass yields that many or finds unbalanced brackets. *)
Lemma jmain_count f : forall rest pos toks0 c r toks0' toks,
  jmain f None rest pos toks0 c = (r, toks0') -> (0 <= r)%Z -> Z.of_nat (length toks) = c -> (0 <= c)%Z ->
  (c <= r)%Z /\
  (fst (jmain f (Some r) rest pos toks c) = r \/ fst (jmain f (Some r) rest pos toks c) = JSMN_ERROR_INVAL).
Proof.
  induction f as [|f IH]; intros rest pos toks0 c r toks0' toks H Hr Hc H0; [inversion H; subst; vm_compute in Hr; congruence|].
  destruct rest as [|x t].
  { cbn [jmain] in *. inversion H; subst. split; [lia|]. left. reflexivity. }
  rewrite jmain_step in *. destruct (is_nul x); [inversion H; subst; split; [lia|left; reflexivity]|].
  assert (St : forall rest' pos' tk, jmain f None rest' pos' toks0 (c + 1) = (r, toks0') ->
    (c <= r)%Z /\
    (fst match push_tok (Some r) toks tk with
         | None => (JSMN_ERROR_NOMEM, toks) | Some toks' => jmain f (Some r) rest' pos' toks' (c + 1) end = r
     \/ fst match push_tok (Some r) toks tk with
         | None => (JSMN_ERROR_NOMEM, toks) | Some toks' => jmain f (Some r) rest' pos' toks' (c + 1) end = JSMN_ERROR_INVAL)).
  { intros rest' pos' tk H'.
    destruct (IH _ _ _ _ _ _ (tk :: toks) H' Hr) as [I1 I2]; [cbn [length]; lia|lia|]. split; [lia|].
    unfold push_tok. destruct (Z.ltb_spec (Z.of_nat (length toks)) r); [exact I2|lia]. }
  destruct (opens x); [cbn [push_tok] in H; apply (St _ _ _ H)|].
  destruct (closes x).
  { destruct (IH _ _ _ _ _ _ toks H Hr Hc H0) as [I1 _]. split; [exact I1|].
    destruct (close_last _ _ toks) as [toks1|] eqn:E; [|right; reflexivity].
    assert (L : length toks1 = length toks).
    { revert toks1 E. clear. induction toks as [|t r IH]; intros l H; [discriminate|]. cbn [close_last] in H.
      destruct (tok_open t); [destruct (jtype_eqb _ _); inversion H; reflexivity|].
      destruct (close_last _ _ r); [|discriminate]. inversion H. cbn [length]. f_equal. apply IH. reflexivity. }
    apply (IH _ _ _ _ _ _ toks1 H Hr); [congruence|exact H0]. }
  destruct (Byte.eqb x x22).
  { destruct (jstr 0 t 0) eqn:Ej; [inversion H; subst|cbn [push_tok] in H; apply (St _ _ _ H)].
    apply jstr_err in Ej. exfalso. lia. }
  destruct (blank x); [apply (IH _ _ _ _ _ _ toks H Hr Hc H0)|].
  destruct (jprim (x :: t) 0) eqn:Ej; [inversion H; subst|cbn [push_tok] in H; apply (St _ _ _ H)].
  apply jprim_err in Ej. exfalso. lia.
Qed.

Lemma jsmn_two_passes js r l : jsmn_parse js None = (r, l) -> (0 <= r)%Z ->
  exists r2 toks, jsmn_parse js (Some r) = (r2, toks) /\ (r2 = r \/ (r2 < 0)%Z).
Proof.
  unfold jsmn_parse. destruct (jmain (S (length js)) None js 0 [] 0) as [r1 t1] eqn:E.
  intros H Hr. assert (r1 = r). { destruct (Z.ltb_spec r1 0); inversion H; subst; [lia|reflexivity]. } subst r1.
  destruct (jmain_count _ _ _ _ _ _ _ [] E Hr eq_refl ltac:(lia)) as [_ Hc].
  destruct (jmain (S (length js)) (Some r) js 0 [] 0) as [r2 t2]. cbn [fst] in Hc.
  destruct (Z.ltb_spec r2 0); [do 2 eexists; split; [reflexivity|auto]|].
  destruct (existsb tok_open t2); do 2 eexists; (split; [reflexivity|]); [right; reflexivity|].
  destruct Hc as [->| ->]; [auto|vm_compute in H0; congruence].
Qed.
