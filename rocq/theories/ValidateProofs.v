(** * Lemmas about l8w8jwt_validate_claims (src/decode.c:373-462) *)
From Verif Require Import Base BaseProofs HeapProofs Util UtilProofs Claim Base64 SpecB64
  Base64EncApi Base64DecProofs Base64Api Jsmn Env Encode Decode SpecJson SpecJwa ClaimProofs UnescapeProofs
  SignProofs DecodeProofs DecodeInv JsmnProofs ParseProofs PropClaim ReadProofs.
From Coq Require Import ZifyBool ZifyNat ZifyN Permutation.
Ltac Zify.zify_post_hook ::= Z.div_mod_to_equations.
Local Opaque L8W8JWT_MAX_KEY_SIZE.

(** [told cs kvs]: the claims are the key/value pairs of C strings [kvs]. *)
Definition told (cs : list claim) (kvs : list (bytes * bytes)) : Prop :=
  Forall2 (fun c kv => decoded c (fst kv) (snd kv) /\ no_nul (fst kv) /\ no_nul (snd kv)) cs kvs.
(** The value of the first pair whose key satisfies [f]. *)
Fixpoint value_of (f : bytes -> bool) (kvs : list (bytes * bytes)) : option bytes :=
  match kvs with
  | [] => None
  | (k, v) :: kvs => if f k then Some v else value_of f kvs
  end.

Lemma told_keyed cs kvs : told cs kvs -> keyed cs (map fst kvs).
Proof.
  induction 1 as [|c [k v] cs kvs (((b & r & E) & _) & Hk & _) _ IH]; [constructor|].
  cbn [map fst] in *. constructor; [exists b, r; auto|exact IH].
Qed.
Lemma told_first f cs kvs : told cs kvs ->
  match value_of f kvs with
  | None => first_with f cs (map fst kvs) = None
  | Some v => exists c k, first_with f cs (map fst kvs) = Some c /\ decoded c k v /\ no_nul v
  end.
Proof.
  induction 1 as [|c [k v] cs kvs (Hd & Hk & Hv) _ IH]; [reflexivity|].
  cbn [map fst snd value_of first_with] in *. destruct (f k); [|exact IH]. exists c, k. auto.
Qed.
Lemma told_len cs kvs : told cs kvs -> length cs = length kvs.
Proof. induction 1; cbn [length]; congruence. Qed.

Lemma get_claim_told b cs kvs name : told cs kvs -> no_nul (lit name) -> String.length name = 3%nat ->
  match value_of (prefixb (lit name)) kvs with
  | None => l8w8jwt_get_claim (CArr b cs) (N.of_nat (length cs)) (Ptr None (clit name)) 3 = OK None
  | Some v => exists c k, l8w8jwt_get_claim (CArr b cs) (N.of_nat (length cs)) (Ptr None (clit name)) 3 = OK (Some c)
                /\ decoded c k v /\ no_nul v
  end.
Proof.
  intros Ht Hn Hl. pose proof (told_keyed _ _ Ht) as Hk.
  assert (L : length (lit name) = 3%nat).
  { unfold lit. rewrite <- Hl. clear. induction name; cbn; [reflexivity|]. f_equal. exact IHname. }
  assert (Hne : lit name <> []) by (intros E; rewrite E in L; discriminate).
  pose proof (C35_get_claim_prefix_partial b cs (map fst kvs) None (lit name) [] Hk Hn Hne) as G.
  change (fun k => prefixb (lit name) k) with (prefixb (lit name)) in G.
  rewrite L in G. change (N.of_nat 3) with 3%N in G.
  change (lit name ++ [x00]) with (clit name) in G.
  pose proof (told_first (prefixb (lit name)) cs kvs Ht) as F.
  destruct (value_of (prefixb (lit name)) kvs) as [v|].
  - destruct F as (c & k & F & D). exists c, k. rewrite G, F. split; [reflexivity|exact D].
  - rewrite G, F. reflexivity.
Qed.

Lemma strncmp_eq v r : forall s rest, no_nul v -> length v = length s ->
  exists z, strncmp (v ++ x00 :: r) (s ++ rest) (N.of_nat (length s)) = OK z /\ (z = 0%Z <-> v = s).
Proof.
  induction v as [|a v IH]; intros s rest Hv Hl; destruct s as [|b s]; try discriminate.
  - exists 0%Z. split; [|tauto]. cbn [app length strncmp]. reflexivity.
  - cbn [length] in *. apply no_nul_cons in Hv as [Ha Hv]. cbn [app strncmp].
    destruct (N.eqb_spec (N.of_nat (S (length s))) 0); [lia|].
    destruct (Byte.eqb a b) eqn:E.
    + apply byte_eqb_eq in E. subst b. apply is_nul_false in Ha. rewrite Ha.
      replace (N.of_nat (S (length s)) - 1)%N with (N.of_nat (length s)) by lia.
      destruct (IH s rest Hv ltac:(lia)) as (z & -> & Hz). exists z. split; [reflexivity|].
      rewrite Hz. split; [intros ->; reflexivity|intros K; inversion K; reflexivity].
    + eexists. split; [reflexivity|]. apply byte_eqb_neq in E. split.
      * intros K. exfalso. apply E. apply b2z_inj. lia.
      * intros K. inversion K. congruence.
Qed.

Lemma string_check_told b cs kvs name q n s f :
  told cs kvs -> no_nul (lit name) -> String.length name = 3%nat -> given q n s ->
  string_check (CArr b cs) (N.of_nat (length cs)) name q n = OK f ->
  (f = false <-> value_of (prefixb (lit name)) kvs = Some s).
Proof.
  intros Ht Hn Hl Hg H. unfold string_check in H.
  pose proof (get_claim_told b cs kvs name Ht Hn Hl) as G.
  apply ubind_inv in H as (oc & H1 & H). apply ubind_inv in H as (vl & H2 & H).
  assert (Hvl : vl = N.of_nat (length s) /\ exists b0 rest, q = Ptr b0 (s ++ rest)).
  { destruct q as [|b0 m]; [contradiction|]. cbn [given] in Hg. unfold length_or_strlen in H2.
    destruct (N.eqb_spec n 0) as [->|En].
    - destruct Hg as (r & -> & Hs). cbn [deref ubind] in H2. rewrite strlen_cstr in H2 by auto.
      inversion H2. split; [reflexivity|eauto].
    - destruct Hg as [Hg ->]. inversion H2; subst vl. split.
      + rewrite firstn_length. lia.
      + exists b0, (skipn (N.to_nat n) m). rewrite firstn_skipn. reflexivity. }
  destruct Hvl as (-> & b0 & rest & ->).
  destruct (value_of (prefixb (lit name)) kvs) as [v|].
  - destruct G as (c & k & G & ((_ & _ & (b1 & r1 & Ev) & El) & Hv)). rewrite G in H1. inversion H1; subst oc.
    rewrite El, Ev in H.
    destruct (N.eqb_spec (N.of_nat (length v)) (N.of_nat (length s))) as [E|E]; cbn [negb] in H.
    + cbn [deref ubind] in H. destruct (strncmp_eq v r1 s rest Hv ltac:(lia)) as (z & Ez & Hz).
      rewrite Ez in H. cbn [ubind] in H. inversion H; subst f.
      destruct (Z.eqb_spec z 0) as [Z0|Z0]; cbn [negb].
      * apply Hz in Z0. subst. tauto.
      * split; [discriminate|]. intros K. inversion K. exfalso. apply Z0, Hz. assumption.
    + inversion H; subst f. split; [discriminate|]. intros K. inversion K. subst. congruence.
  - rewrite G in H1. inversion H1; subst oc. inversion H; subst. split; discriminate.
Qed.

(** ** Times *)
Inductive decimal : bytes -> Z -> Prop :=
| D_pos s : digits s -> decimal s (Z.of_N (dec_value s))
| D_neg s : digits s -> decimal (x2d :: s) (- Z.of_N (dec_value s)).

Lemma digit_facts c : digit c -> is_digit c = true /\ is_space c = false
  /\ Byte.eqb c x2d = false /\ Byte.eqb c x2b = false /\ b2z c = Z.of_N (b2n c) /\ (48 <= b2n c)%N.
Proof.
  intros Hc. unfold digit in Hc. vm_compute in Hc.
  decompose [or] Hc; try contradiction; subst; repeat split; try reflexivity; vm_compute; discriminate.
Qed.
Lemma scan_digits_value s rest : forall acc a, Forall digit s -> acc = Z.of_N a ->
  scan_digits (s ++ x00 :: rest) acc = OK (Z.of_N (fold_left (fun v c => (10 * v + (b2n c - 48))%N) s a)).
Proof.
  induction s as [|c s IH]; intros acc a Hs ->; [reflexivity|]. inversion Hs; subst.
  destruct (digit_facts c) as (D1 & _ & _ & _ & D5 & D6); auto.
  cbn [app scan_digits fold_left]. rewrite D1. apply IH; auto. rewrite D5. lia.
Qed.
Lemma strtoll_decimal t z rest : decimal t z -> strtoll (t ++ x00 :: rest) = OK (clamp64 z).
Proof.
  intros [s [Hne Hs]|s [Hne Hs]].
  - destruct s as [|c s]; [contradiction|]. inversion Hs; subst.
    destruct (digit_facts c) as (D1 & D2 & D3 & D4 & _ & _); auto.
    change ((c :: s) ++ x00 :: rest) with (c :: s ++ x00 :: rest). cbn [strtoll]. rewrite D2, D3, D4.
    change (c :: s ++ x00 :: rest) with ((c :: s) ++ x00 :: rest).
    rewrite (scan_digits_value (c :: s) rest 0%Z 0%N) by auto. reflexivity.
  - cbn [app strtoll]. change (is_space x2d) with false. change (Byte.eqb x2d x2d) with true.
    rewrite (scan_digits_value s rest 0%Z 0%N) by auto. reflexivity.
Qed.

Lemma time_check_told b cs kvs name now fails f :
  told cs kvs -> no_nul (lit name) -> String.length name = 3%nat ->
  time_check (CArr b cs) (N.of_nat (length cs)) name now fails = OK f ->
  match value_of (prefixb (lit name)) kvs with
  | None => f = true
  | Some t => (I64_MIN <= now <= I64_MAX)%Z /\ forall z, decimal t z -> f = fails now (clamp64 z)
  end.
Proof.
  intros Ht Hn Hl H. unfold time_check in H.
  pose proof (get_claim_told b cs kvs name Ht Hn Hl) as G.
  apply ubind_inv in H as (oc & H1 & H).
  destruct (value_of (prefixb (lit name)) kvs) as [v|].
  - destruct G as (c & k & G & ((_ & _ & (b1 & r1 & Ev) & El) & Hv)). rewrite G in H1. inversion H1; subst oc.
    apply ubind_inv in H as (n & H2 & H). unfold i64 in H2.
    destruct ((I64_MIN <=? now) && (now <=? I64_MAX))%Z eqn:E; [|discriminate]. inversion H2; subst n.
    rewrite Ev in H. cbn [deref ubind] in H. apply ubind_inv in H as (x & H3 & H). inversion H; subst f.
    split; [lia|]. intros z Hz. rewrite (strtoll_decimal v z r1 Hz) in H3. inversion H3. reflexivity.
  - rewrite G in H1. inversion H1; subst oc. inversion H. reflexivity.
Qed.

(** ** Type *)
Lemma tolower_inj p a b x y : tolower (char_val p a) = OK x -> tolower (char_val p b) = OK y ->
  (x = y <-> ascii_lower a = ascii_lower b).
Proof.
  intros Ha Hb. pose proof (b2n_lt a) as La. pose proof (b2n_lt b) as Lb.
  assert (G : forall c z, tolower (char_val p c) = OK z ->
    (z = b2z (ascii_lower c) /\ plain p c) \/ (c = xff /\ z = (-1)%Z /\ p_char_signed p = true)).
  { intros c z H. destruct (p_char_signed p && (127 <? b2n c)%N) eqn:E.
    - unfold char_val in H. rewrite E in H. unfold tolower in H. apply andb_true_iff in E as [E _].
      destruct (Z.ltb_spec (b2z c - 256) (-1)) as [K|K]; [discriminate|]. right.
      unfold b2z in *. pose proof (b2n_lt c). assert (E2 : b2n c = 255%N) by lia.
      split; [apply b2n_inj; exact E2|]. split; [|exact E].
      destruct ((65 <=? Z.of_N (b2n c) - 256) && (Z.of_N (b2n c) - 256 <=? 90))%Z eqn:E3; [lia|].
      inversion H. lia.
    - left. assert (P : plain p c). { intros S. rewrite S in E. cbn [andb] in E. lia. }
      rewrite (tolower_plain p c P) in H. inversion H. auto. }
  assert (B : forall c, plain p c -> p_char_signed p = true -> ascii_lower c <> xff).
  { intros c P S E. specialize (P S). unfold ascii_lower in E.
    destruct ((65 <=? b2n c) && (b2n c <=? 90))%N eqn:E1; apply (f_equal b2n) in E.
    - rewrite b2n_n2b in E by lia. change (b2n xff) with 255%N in E. lia.
    - change (b2n xff) with 255%N in E. lia. }
  assert (B0 : forall c, (0 <= b2z c)%Z) by (intros c; unfold b2z; lia).
  pose proof (B0 (ascii_lower a)). pose proof (B0 (ascii_lower b)).
  apply G in Ha as [[-> Pa]|(-> & -> & S)]; apply G in Hb as [[-> Pb]|(-> & -> & S')].
  - split; [apply b2z_inj|congruence].
  - split; [lia|]. intros E. exfalso. apply (B a Pa S'). exact E.
  - split; [lia|]. intros E. exfalso. apply (B b Pb S). symmetry. exact E.
  - tauto.
Qed.

(** Agreement of the first [n] characters, ignoring case. *)
Definition same_nocase (n : N) (a b : bytes) : Prop :=
  map ascii_lower (firstn (N.to_nat n) a) = map ascii_lower (firstn (N.to_nat n) b).
Lemma strncmpic_loop_inv p s1 r1 : forall s2 r2 n ret v,
  no_nul s1 -> no_nul s2 ->
  strncmpic_loop p (s1 ++ x00 :: r1) (s2 ++ x00 :: r2) n ret = OK v ->
  (v = 0%Z <-> same_nocase n s1 s2 /\ ((0 < n)%N /\ (s1 <> [] \/ s2 <> []) \/ ret = 0%Z)).
Proof.
  unfold same_nocase. induction s1 as [|a s1 IH]; intros s2 r2 n ret v H1 H2 H.
  - destruct s2 as [|b s2]; cbn [app strncmpic_loop] in H.
    + inversion H; subst. rewrite firstn_nil. split; [intros ->; auto|intros [_ [[_ [K|K]]|K]]; congruence].
    + apply no_nul_cons in H2 as [Hb H2]. pose proof (proj2 (is_nul_false b) Hb) as Eb.
      change (is_nul x00) with true in H. rewrite Eb in H. cbn [andb] in H.
      destruct (N.eqb_spec n 0) as [->|En].
      * inversion H; subst. split; [auto|]. intros [_ [[K _]|K]]; [lia|exact K].
      * apply ubind_inv in H as (x & Hx & H). apply ubind_inv in H as (y & Hy & H).
        pose proof (tolower_inj p x00 b x y Hx Hy) as Hi.
        assert (Hne : ascii_lower x00 <> ascii_lower b).
        { intros E. apply Hb. apply lower_nul. symmetry. exact E. }
        cbv zeta in H. destruct (Z.eqb_spec (x - y) 0) as [E|E]; [exfalso; apply Hne, Hi; lia|].
        cbn [negb] in H. inversion H; subst. split; [contradiction|]. intros [K _]. exfalso.
        destruct (N.to_nat n) eqn:En'; [lia|]. discriminate.
  - apply no_nul_cons in H1 as [Ha H1]. pose proof (proj2 (is_nul_false a) Ha) as Ea.
    destruct s2 as [|b s2]; cbn [app strncmpic_loop] in H; rewrite Ea in H; cbn [andb] in H.
    + destruct (N.eqb_spec n 0) as [->|En].
      * inversion H; subst. split; [auto|]. intros [_ [[K _]|K]]; [lia|exact K].
      * apply ubind_inv in H as (x & Hx & H). apply ubind_inv in H as (y & Hy & H).
        pose proof (tolower_inj p a x00 x y Hx Hy) as Hi.
        assert (Hne : ascii_lower a <> ascii_lower x00).
        { intros E. apply Ha. apply lower_nul. exact E. }
        cbv zeta in H. destruct (Z.eqb_spec (x - y) 0) as [E|E]; [exfalso; apply Hne, Hi; lia|].
        cbn [negb] in H. inversion H; subst. split; [contradiction|]. intros [K _]. exfalso.
        destruct (N.to_nat n) eqn:En'; [lia|]. discriminate.
    + apply no_nul_cons in H2 as [Hb H2]. destruct (N.eqb_spec n 0) as [->|En].
      * inversion H; subst. split; [auto|]. intros [_ [[K _]|K]]; [lia|exact K].
      * apply ubind_inv in H as (x & Hx & H). apply ubind_inv in H as (y & Hy & H).
        pose proof (tolower_inj p a b x y Hx Hy) as Hi. cbv zeta in H.
        assert (Ef : forall (l : bytes) c, firstn (N.to_nat n) (c :: l) = c :: firstn (N.to_nat (n - 1)) l).
        { intros l c. replace (N.to_nat n) with (S (N.to_nat (n - 1))) by lia. reflexivity. }
        rewrite !Ef. cbn [map].
        destruct (Z.eqb_spec (x - y) 0) as [E|E]; cbn [negb] in H.
        -- apply (IH s2 r2) in H; auto. rewrite H. assert (E1 : ascii_lower a = ascii_lower b) by (apply Hi; lia).
           rewrite E1. split.
           ++ intros [K _]. split; [congruence|]. left. split; [lia|]. left. discriminate.
           ++ intros [K _]. split; [congruence|]. right. exact E.
        -- inversion H; subst. split; [contradiction|]. intros [K _]. exfalso. apply E. inversion K. 
           apply Z.sub_move_0_r. apply Hi. assumption.
Qed.

Lemma typ_check_told p b cs kvs eb exp r n f :
  told cs kvs -> no_nul exp ->
  typ_check p (CArr b cs) (N.of_nat (length cs)) (Ptr eb (exp ++ x00 :: r)) n = OK f ->
  (f = false <-> exists t, value_of (prefixb (lit "typ")) kvs = Some t /\ same_nocase n t exp
                   /\ (0 < n)%N /\ (t <> [] \/ exp <> [])).
Proof.
  intros Ht He H. unfold typ_check in H.
  pose proof (get_claim_told b cs kvs "typ"%string Ht ltac:(vm_compute; intuition discriminate) eq_refl) as G.
  apply ubind_inv in H as (oc & H1 & H).
  destruct (value_of (prefixb (lit "typ")) kvs) as [v|].
  - destruct G as (c & k & G & ((_ & _ & (b1 & r1 & Ev) & El) & Hv)). rewrite G in H1. inversion H1; subst oc.
    rewrite Ev in H. cbn [l8w8jwt_strncmpic] in H. apply ubind_inv in H as (x & H2 & H). inversion H; subst f.
    apply strncmpic_loop_inv in H2; auto.
    destruct (Z.eqb_spec x 0) as [E|E]; cbn [negb].
    + apply H2 in E as (K1 & [[K2 K3]|K]); [|discriminate]. split; [|reflexivity]. intros _. exists v. auto.
    + split; [discriminate|]. intros (t & E1 & E2 & E3 & E4). inversion E1; subst t. exfalso. apply E, H2. auto.
  - rewrite G in H1. inversion H1; subst oc. inversion H; subst. split; [discriminate|].
    intros (t & E & _). discriminate.
Qed.

(** ** The claims a successful decode works on *)
Lemma unesc_no_nul s : no_nul s -> no_nul (unesc s).
Proof.
  induction s as [s IH] using len_ind. intros H. destruct s as [|c t]; [exact H|]. cbn [unesc].
  apply no_nul_cons in H as [Hc Ht].
  assert (IHt : no_nul (unesc t)) by (apply IH; [cbn [length]; lia|exact Ht]).
  destruct (Byte.eqb c x5c); [|apply no_nul_cons; auto].
  destruct t as [|e t']; [apply no_nul_cons; split; [exact Hc|intros []]|].
  destruct (unescape_char e) as [u|] eqn:E; [|apply no_nul_cons; auto].
  apply no_nul_cons in Ht as [_ Ht']. apply no_nul_cons. split.
  - intros ->. destruct e; discriminate.
  - apply IH; [cbn [length]; lia|exact Ht'].
Qed.
Definition kv_of (x : entry) : bytes * bytes :=
  let '(ty, ks, vs) := x in (unesc ks, claim_value_of ty vs).
Lemma holds_told cs es : Forall2 holds cs es -> Forall entry_plain es -> told cs (map kv_of es).
Proof.
  intros H. induction H as [|c [[ty ks] vs] cs es [Hd _] _ IH]; intros Hp; [constructor|].
  inversion Hp as [|? ? [P1 P2] P3]; subst. cbn [fst snd] in *. cbn [map kv_of]. constructor; [|apply IH; auto].
  cbn [fst snd]. split; [exact Hd|]. split; [apply unesc_no_nul; exact P1|].
  unfold claim_value_of. destruct (_ =? _)%Z; [apply unesc_no_nul; exact P2|rewrite ncpy_no_nul; auto].
Qed.
Lemma subseq_Forall {A} (P : A -> Prop) a b : subseq a b -> Forall P b -> Forall P a.
Proof. induction 1; intros H'; auto; inversion H'; subst; auto. Qed.

Lemma decode_reads p e dp cn ln w r w' :
  wf w -> uses_jsmn e -> (32 <= p_size_bits p)%N ->
  l8w8jwt_decode p e (Some dp) true cn ln w = Ret r w' -> dr_rc r = L8W8JWT_SUCCESS ->
  exists sg hb hm pb pm eh ep id cs sub res1 v,
    segments_ok p dp sg
    /\ s_ptr (sg_header sg) = Ptr hb hm /\ reads e hm (s_len (sg_header sg)) eh
    /\ s_ptr (sg_payload sg) = Ptr pb pm /\ reads e pm (s_len (sg_payload sg)) ep
    /\ subseq sub (eh ++ ep) /\ (grows w -> sub = eh ++ ep)
    /\ Forall2 holds cs sub /\ told cs (map kv_of sub)
    /\ (res1 = 0%N \/ res1 = 128%N)
    /\ l8w8jwt_validate_claims p e dp (CArr (Some id) cs) (N.of_nat (length cs)) res1 = OK v
    /\ dr_valid r = Some v
    /\ dr_claims r = if cn && ln then Some (CArr (Some id) cs, N.of_nat (length cs)) else None.
Proof.
  intros Hwf Hj Hp H Hrc. apply decode_success in H as (dp' & st & w1 & Hdp & _ & _ & _ & Ha & Hs & Hv & Hc); auto.
  inversion Hdp; subst dp'. clear Hdp.
  destruct Hs as (sg & w2 & res1 & w3 & c1 & w4 & c2 & res2 & S1 & S2 & S3 & S4 & S5 & ->).
  assert (W0 : wf (w_ok w)) by (eapply adds_wf; [apply adds_ok|exact Hwf]).
  destruct (decode_segments_inv _ _ _ _ _ _ W0 S1) as (A1 & _ & Hok). specialize (Hok eq_refl).
  assert (W2 : wf w2) by (eapply adds_wf; eauto).
  apply verify_signature_inv in S2 as [Q V]; [|exact W2].
  assert (Hres : res1 = 0%N \/ res1 = 128%N).
  { destruct V as [(_ & _ & ->)|(b & sig & vd & _ & _ & _ & _ & E)]; [left; reflexivity|].
    destruct vd as [x|[]]; inversion E; auto. }
  assert (P1 : exists hb hm, s_ptr (sg_header sg) = Ptr hb hm).
  { destruct (s_ptr (sg_header sg)); [discriminate|eauto]. }
  assert (P2 : exists pb pm, s_ptr (sg_payload sg) = Ptr pb pm).
  { destruct (s_ptr (sg_payload sg)); [discriminate|eauto]. }
  destruct P1 as (hb & hm & P1). destruct P2 as (pb & pm & P2). rewrite P1 in S3. rewrite P2 in S4.
  pose proof (quiet_later _ _ Q) as LQ.
  pose proof S3 as S3'. apply parse_claims_inv in S3' as (_ & _ & n1 & l1 & _ & _ & (_ & _ & _ & T1) & _); [|eapply wf_quiet; eauto].
  apply parse_claims_reads in S3 as (eh & R1 & E1 & I1 & new1 & sub1 & N1 & N2 & N3 & N4); auto.
  apply parse_claims_reads in S4 as (ep & R2 & E2 & I2 & new2 & sub2 & M1 & M2 & M3 & M4); auto.
  cbn [cb_id cb_elems app ds_claims ds_res] in *.
  exists sg, hb, hm, pb, pm, eh, ep, (cb_id c2), (cb_elems c2), (sub1 ++ sub2), res1, res2.
  rewrite M1, N1. cbn [app].
  assert (Hh : Forall2 holds (new1 ++ new2) (sub1 ++ sub2)) by (apply Forall2_app; auto).
  assert (Hsub : subseq (sub1 ++ sub2) (eh ++ ep)) by (apply subseq_app; auto).
  split; [exact Hok|]. split; [exact P1|]. split; [exact R1|]. split; [exact P2|]. split; [exact R2|].
  split; [exact Hsub|]. split.
  { intros G. pose proof (adds_later _ _ _ (adds_ok w)) as L0. pose proof (adds_later _ _ _ A1) as L1.
    pose proof (adds_later _ _ _ T1) as L2.
    rewrite N4, M4; [reflexivity| |].
    - eapply grows_later; [|exact G]. eapply later_trans; [exact L0|]. eapply later_trans; [exact L1|].
      eapply later_trans; eauto.
    - eapply grows_later; [|exact G]. eapply later_trans; [exact L0|]. eapply later_trans; eauto. }
  split; [exact Hh|]. split; [apply holds_told; [exact Hh|]; eapply subseq_Forall; [exact Hsub|apply Forall_app; auto]|].
  split; [exact Hres|].
  unfold cb_len in *. rewrite M1, N1 in S5, Hc. cbn [app] in S5, Hc.
  split; [exact S5|]. split; [exact Hv|]. rewrite Hc. destruct (cn && ln); reflexivity.
Qed.
