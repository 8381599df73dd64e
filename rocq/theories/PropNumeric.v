(** * Property C60: dates are compared by their numeric value *)
From Verif Require Import Base BaseProofs HeapProofs Util UtilProofs Claim Base64 SpecB64
  Base64EncProofs Base64EncApi Base64DecProofs Base64Api Jsmn Env Encode Decode SpecJson SpecJwa ClaimProofs UnescapeProofs
  EncodeProofs SignProofs EncodeTotal SpecEnc JsonProofs PropEncode DecodeProofs DecodeInv JsmnProofs ParseProofs
  PropClaim ReadProofs ValidateProofs JsmnJson DecodeTotal PropVerify PropValidate.
From Coq Require Import ZifyBool ZifyNat ZifyN QArith Qpower Lqa.
Ltac Zify.zify_post_hook ::= Z.div_mod_to_equations.

(** ** The value of a JSON number (RFC 8259, section 6) *)
Inductive frac_value : bytes -> Q -> Prop :=
| FV_none : frac_value [] 0
| FV_some s : digits s -> frac_value (x2e :: s) (inject_Z (Z.of_N (dec_value s)) / inject_Z (10 ^ Z.of_nat (length s))).
Inductive exp_value : bytes -> Z -> Prop :=
| EV_none : exp_value [] 0
| EV_plain c s : In c (lit "eE") -> digits s -> exp_value (c :: s) (Z.of_N (dec_value s))
| EV_plus c s : In c (lit "eE") -> digits s -> exp_value (c :: x2b :: s) (Z.of_N (dec_value s))
| EV_minus c s : In c (lit "eE") -> digits s -> exp_value (c :: x2d :: s) (- Z.of_N (dec_value s)).
(** A number without exponent. *)
Inductive mantissa_value : bytes -> Q -> Prop :=
| MV_pos i f q : json_int i -> frac_value f q -> mantissa_value (i ++ f) (inject_Z (Z.of_N (dec_value i)) + q)
| MV_neg i f q : json_int i -> frac_value f q -> mantissa_value (x2d :: i ++ f) (- (inject_Z (Z.of_N (dec_value i)) + q)).
Inductive number_value : bytes -> Q -> Prop :=
| NV m q e z : mantissa_value m q -> exp_value e z -> number_value (m ++ e) (q * Qpower (10 # 1) z).

(** Every JSON number has a value. *)
Lemma number_has_value t : json_number t -> exists q, number_value t q.
Proof.
  intros [sg i f e Hs Hi Hf He].
  assert (F : exists q, frac_value f q) by (destruct Hf; eexists; constructor; auto). destruct F as (q & F).
  assert (E : exists z, exp_value e z).
  { destruct He as [|c sg' s Hc Hsg Hd]; [eexists; constructor|]. destruct Hsg as [<-|[<-|[<-|[]]]]; eexists.
    - apply EV_plain; auto.
    - apply EV_plus; auto.
    - apply EV_minus; auto. }
  destruct E as (z & E).
  destruct Hs as [<-|[<-|[]]]; eexists.
  - change ([] ++ i ++ f ++ e) with (i ++ f ++ e). rewrite app_assoc. apply NV; [apply MV_pos; eauto|exact E].
  - change (lit "-" ++ i ++ f ++ e) with (x2d :: i ++ f ++ e). rewrite app_assoc. rewrite app_comm_cons. apply NV; [apply MV_neg; eauto|exact E].
Qed.

(** Rounding towards zero. *)
Definition rounded (q : Q) (z : Z) : Prop :=
  (0 <= q -> inject_Z z <= q < inject_Z (z + 1))%Q /\ (q <= 0 -> inject_Z (z - 1) < q <= inject_Z z)%Q.
(** The comparison RFC 7519 asks for. *)
Definition out_of_time_q (c : time_claim) (limit : Z) (q : Q) : Prop :=
  match c with Exp => q < inject_Z limit | Nbf | Iat => inject_Z limit < q end%Q.

(** ** What strtoll reads *)
Definition stops (r : bytes) : Prop := exists c t, r = c :: t /\ is_digit c = false.
Lemma scan_stops s r : stops r -> forall acc a, Forall digit s -> acc = Z.of_N a ->
  scan_digits (s ++ r) acc = OK (Z.of_N (fold_left (fun v c => (10 * v + (b2n c - 48))%N) s a)).
Proof.
  intros (x & t & -> & Hx). induction s as [|c s IH]; intros acc a Hs ->; [cbn [app scan_digits fold_left]; rewrite Hx; reflexivity|].
  inversion Hs; subst. destruct (digit_facts c) as (D1 & _ & _ & _ & D5 & D6); auto.
  cbn [app scan_digits fold_left]. rewrite D1. apply IH; auto. rewrite D5. lia.
Qed.
Lemma json_int_digits i : json_int i -> digits i.
Proof.
  intros [|c s Hc _ Hs]; split; try discriminate; constructor; auto. vm_compute. tauto.
Qed.
Lemma strtoll_pos i r : json_int i -> stops r -> strtoll (i ++ r) = OK (clamp64 (Z.of_N (dec_value i))).
Proof.
  intros Hi Hr. destruct (json_int_digits i Hi) as [Hn Hd]. destruct i as [|c s]; [congruence|]. inversion Hd; subst.
  destruct (digit_facts c) as (D1 & D2 & D3 & D4 & _ & _); auto.
  change ((c :: s) ++ r) with (c :: s ++ r). cbn [strtoll]. rewrite D2, D3, D4.
  change (c :: s ++ r) with ((c :: s) ++ r). rewrite (scan_stops (c :: s) r Hr 0%Z 0%N) by auto. reflexivity.
Qed.
Lemma strtoll_neg i r : json_int i -> stops r -> strtoll (x2d :: i ++ r) = OK (clamp64 (- Z.of_N (dec_value i))).
Proof.
  intros Hi Hr. destruct (json_int_digits i Hi) as [Hn Hd].
  cbn [app strtoll]. change (is_space x2d) with false. change (Byte.eqb x2d x2d) with true.
  rewrite (scan_stops i r Hr 0%Z 0%N) by auto. reflexivity.
Qed.

Lemma fold_dec s : forall a, fold_left (fun v c => (10 * v + (b2n c - 48))%N) s a
  = (a * 10 ^ N.of_nat (length s) + fold_left (fun v c => (10 * v + (b2n c - 48))%N) s 0)%N.
Proof.
  induction s as [|c s IH]; intros a; cbn [fold_left length]; [change (10 ^ N.of_nat 0)%N with 1%N; lia|].
  rewrite IH, (IH (10 * 0 + _)%N). rewrite Nat2N.inj_succ, N.pow_succ_r'. lia.
Qed.
Lemma dec_value_bound s : Forall digit s -> (dec_value s < 10 ^ N.of_nat (length s))%N.
Proof.
  unfold dec_value. induction 1 as [|c s Hc Hs IH]; [reflexivity|]. cbn [fold_left length].
  rewrite fold_dec, Nat2N.inj_succ, N.pow_succ_r'.
  assert (b2n c - 48 <= 9)%N by (unfold digit in Hc; vm_compute in Hc; decompose [or] Hc; subst; vm_compute; try discriminate; contradiction).
  nia.
Qed.
Lemma frac_bounds f q : frac_value f q -> (0 <= q < 1)%Q.
Proof.
  intros [|s [Hn Hd]]; [split; unfold Qle, Qlt; cbn; lia|].
  pose proof (dec_value_bound s Hd) as B.
  assert (P : (0 < 10 ^ Z.of_nat (length s))%Z) by (apply Z.pow_pos_nonneg; lia).
  assert (B' : (Z.of_N (dec_value s) < 10 ^ Z.of_nat (length s))%Z).
  { replace (10 ^ Z.of_nat (length s))%Z with (Z.of_N (10 ^ N.of_nat (length s))) by (rewrite N2Z.inj_pow; f_equal; lia). lia. }
  split.
  - apply Qle_shift_div_l; [change 0%Q with (inject_Z 0); rewrite <- Zlt_Qlt; exact P|].
    change 0%Q with (inject_Z 0). rewrite <- inject_Z_mult, <- Zle_Qle. lia.
  - apply Qlt_shift_div_r; [change 0%Q with (inject_Z 0); rewrite <- Zlt_Qlt; exact P|].
    change 1%Q with (inject_Z 1). rewrite <- inject_Z_mult, <- Zlt_Qlt. lia.
Qed.
Lemma frac_stops f q r : frac_value f q -> stops r -> stops (f ++ r).
Proof. intros [|s Hs] Hr; [exact Hr|]. exists x2e, (s ++ r). split; reflexivity. Qed.

(** strtoll reads the mantissa, rounded towards zero, and saturates. *)
Lemma strtoll_mantissa m q r : mantissa_value m q -> stops r ->
  exists z, rounded q z /\ strtoll (m ++ r) = OK (clamp64 z).
Proof.
  intros [i f x Hi Hf|i f x Hi Hf] Hr; destruct (frac_bounds _ _ Hf) as [B1 B2].
  - exists (Z.of_N (dec_value i)). split.
    + assert (0 <= inject_Z (Z.of_N (dec_value i)))%Q by (change 0%Q with (inject_Z 0); rewrite <- Zle_Qle; lia).
      unfold rounded, Z.sub. split; intros H0; rewrite ?inject_Z_plus, ?inject_Z_opp; change (inject_Z 1) with 1%Q; split; lra.
    + rewrite <- app_assoc. apply strtoll_pos; auto. eapply frac_stops; eauto.
  - exists (- Z.of_N (dec_value i))%Z. split.
    + assert (0 <= inject_Z (Z.of_N (dec_value i)))%Q by (change 0%Q with (inject_Z 0); rewrite <- Zle_Qle; lia).
      unfold rounded, Z.sub. split; intros H0; rewrite ?inject_Z_plus, ?inject_Z_opp; change (inject_Z 1) with 1%Q; split; lra.
    + cbn [app]. rewrite <- app_assoc. apply strtoll_neg; auto. eapply frac_stops; eauto.
Qed.

Lemma exp_stops e k r : exp_value e k -> stops (e ++ x00 :: r).
Proof.
  intros [|c s H _|c s H _|c s H _]; [exists x00, r; split; reflexivity| | |];
    (eexists c, _; split; [reflexivity|]; vm_compute in H; decompose [or] H; subst; try reflexivity; contradiction).
Qed.

(** [t] is a number whose mantissa, rounded towards zero, is [z]. *)
Definition integer_part (t : bytes) (z : Z) : Prop :=
  exists m q x k, t = m ++ x /\ mantissa_value m q /\ exp_value x k /\ rounded q z.
Lemma rounded_fun q z z' : rounded q z -> rounded q z' -> z = z'.
Proof.
  unfold rounded. intros [A B] [A' B']. destruct (Qlt_le_dec q 0) as [L|L].
  - apply Qlt_le_weak in L. destruct (B L) as [C1 C2], (B' L) as [C1' C2'].
    pose proof (Qlt_le_trans _ _ _ C1 C2') as D1. pose proof (Qlt_le_trans _ _ _ C1' C2) as D2. rewrite <- Zlt_Qlt in D1, D2. lia.
  - destruct (A L) as [C1 C2], (A' L) as [C1' C2'].
    pose proof (Qle_lt_trans _ _ _ C1 C2') as D1. pose proof (Qle_lt_trans _ _ _ C1' C2) as D2. rewrite <- Zlt_Qlt in D1, D2. lia.
Qed.
Lemma strtoll_integer_part t z r : integer_part t z -> strtoll (t ++ x00 :: r) = OK (clamp64 z).
Proof.
  intros (m & q & x & k & -> & M & X & R). rewrite <- app_assoc.
  destruct (strtoll_mantissa m q (x ++ x00 :: r) M (exp_stops _ _ _ X)) as (z' & R' & ->).
  rewrite (rounded_fun _ _ _ R R'). reflexivity.
Qed.
Lemma number_integer_part t : json_number t -> exists z, integer_part t z.
Proof.
  intros H. destruct (number_has_value t H) as (q & V). destruct V as [m q e z M X].
  destruct (strtoll_mantissa m q (e ++ x00 :: []) M (exp_stops _ _ _ X)) as (k & R & _). exists k, m, q, e, z. auto.
Qed.

Lemma time_check_reads b cs kvs name now fails f :
  told cs kvs -> no_nul (lit name) -> String.length name = 3%nat ->
  time_check (CArr b cs) (N.of_nat (length cs)) name now fails = OK f ->
  match value_of (prefixb (lit name)) kvs with
  | None => f = true
  | Some t => (I64_MIN <= now <= I64_MAX)%Z /\ forall z, integer_part t z -> f = fails now (clamp64 z)
  end.
Proof.
  intros Ht Hn Hl H. unfold time_check in H.
  pose proof (get_claim_told b cs kvs name Ht Hn Hl) as G.
  apply ubind_inv in H as (oc & H1 & H).
  destruct (value_of (prefixb (lit name)) kvs) as [v|].
  - destruct G as (c & k & G & ((_ & _ & (b1 & r1 & Ev) & El) & Hv)). rewrite G in H1. inversion H1; subst oc.
    apply ubind_inv in H as (n & H2 & H). unfold i64 in H2.
    destruct ((I64_MIN <=? now) && (now <=? I64_MAX))%Z eqn:E; [|discriminate]. inversion H2; subst n.
    rewrite Ev in H. cbn [deref ubind] in H. apply ubind_inv in H as (x & H3 & H). inversion H; subst f.
    split; [lia|]. intros z Hz. rewrite (strtoll_integer_part v z r1 Hz) in H3. inversion H3. reflexivity.
  - rewrite G in H1. inversion H1; subst oc. inversion H. reflexivity.
Qed.

(** ** C60 *)
(** What the code does with any JSON number: it compares the integer part of the mantissa, ignoring the
    exponent; for the claim found first whose name starts with the name in question. *)
Theorem C60_numeric_date_as_coded_partial : forall p e dp r v, accepted p e dp r v ->
  exists kvs, handed_out r kvs
  /\ forall c, time_requested dp c = true -> ordinary_time (limit e dp c) ->
     forall t, lookup_prefix (time_name c) kvs = Some t -> forall z, integer_part t z ->
     (N.testbit v (time_bit c) = true <-> out_of_time c (limit e dp c) z).
Proof.
  intros p e dp r v H. destruct (accepted_inv _ _ _ _ _ H) as (kvs & id & cs & res1 & Ho & T & R & V).
  exists kvs. split; [exact Ho|]. intros c Hreq Hlim t Hf z Hz.
  apply validate_claims_inv in V as (f1 & f2 & f3 & f4 & f5 & f6 & f7 & f8 & -> & _ & _ & _ & _ & V5 & V6 & V7 & _).
  rewrite lor_flags_testbit.
  assert (Rb : N.testbit res1 (time_bit c) = false).
  { destruct R as [-> | ->]; [apply N.bits_0|]. destruct c; reflexivity. }
  rewrite Rb. unfold lookup_prefix, ordinary_time in *.
  destruct c; cbn [time_bit time_name time_requested limit out_of_time N.eqb Pos.eqb] in *; rewrite Hreq in *;
    rewrite !andb_false_r, !orb_false_r, ?orb_false_l, ?andb_true_r.
  - pose proof (time_check_reads (Some id) cs kvs "exp"%string _ _ _ T ltac:(vm_compute; intuition discriminate) eq_refl V5) as G.
    cbv beta in G. change (fun k => prefixb (lit "exp") k) with (prefixb (lit "exp")) in Hf. rewrite Hf in G.
    rewrite (proj2 G z Hz), Z.ltb_lt. unfold clamp64, I64_MIN, I64_MAX in *. lia.
  - pose proof (time_check_reads (Some id) cs kvs "nbf"%string _ _ _ T ltac:(vm_compute; intuition discriminate) eq_refl V6) as G.
    cbv beta in G. change (fun k => prefixb (lit "nbf") k) with (prefixb (lit "nbf")) in Hf. rewrite Hf in G.
    rewrite (proj2 G z Hz), Z.ltb_lt. unfold clamp64, I64_MIN, I64_MAX in *. lia.
  - pose proof (time_check_reads (Some id) cs kvs "iat"%string _ _ _ T ltac:(vm_compute; intuition discriminate) eq_refl V7) as G.
    cbv beta in G. change (fun k => prefixb (lit "iat") k) with (prefixb (lit "iat")) in Hf. rewrite Hf in G.
    rewrite (proj2 G z Hz), Z.ltb_lt. unfold clamp64, I64_MIN, I64_MAX in *. lia.
Qed.

Lemma integer_exact q z y : rounded q z -> q == inject_Z y -> z = y.
Proof.
  intros R E. apply (rounded_fun q); [exact R|]. unfold rounded, Z.sub. rewrite ?inject_Z_plus, ?inject_Z_opp.
  change (inject_Z 1) with 1%Q. split; intros _; split; lra.
Qed.
Lemma mantissa_integer_part t q : mantissa_value t q -> exists z, integer_part t z /\ rounded q z.
Proof.
  intros M. destruct (strtoll_mantissa t q [x00] M) as (z & R & _); [exists x00, []; split; reflexivity|].
  exists z. split; [|exact R]. exists t, q, [], 0%Z.
  split; [symmetry; apply app_nil_r|]. split; [exact M|]. split; [constructor|exact R].
Qed.

(** For numbers without exponent the verdict is the right one if the number is an integer, or if it is an
    expiry date that is not negative; a fractional nbf or iat is taken for up to a second earlier. *)
Theorem C60_numeric_date_partial : forall p e dp r v, accepted p e dp r v ->
  exists kvs, handed_out r kvs
  /\ forall c, time_requested dp c = true -> ordinary_time (limit e dp c) -> no_extension (time_name c) kvs ->
     forall t q, lookup (time_name c) kvs = Some t -> mantissa_value t q ->
     ((exists y, q == inject_Z y) \/ (c = Exp /\ 0 <= q) ->
        (N.testbit v (time_bit c) = true <-> out_of_time_q c (limit e dp c) q))
     /\ (c <> Exp -> 0 <= q ->
        (N.testbit v (time_bit c) = true -> inject_Z (limit e dp c) < q)
        /\ (inject_Z (limit e dp c + 1) <= q -> N.testbit v (time_bit c) = true)).
Proof.
  intros p e dp r v H. destruct (C60_numeric_date_as_coded_partial _ _ _ _ _ H) as (kvs & Ho & G).
  exists kvs. split; [exact Ho|]. intros c Hq Hl Hx t q Ht M. rewrite <- (lookup_exact _ _ Hx) in Ht.
  destruct (mantissa_integer_part t q M) as (z & I & R). specialize (G c Hq Hl t Ht z I). rewrite G. clear G.
  split.
  - intros [(y & E)|(-> & P)].
    + rewrite (integer_exact q z y R E). destruct c; cbn [out_of_time out_of_time_q]; rewrite E, <- Zlt_Qlt; reflexivity.
    + cbn [out_of_time out_of_time_q]. destruct R as [R _]. specialize (R P) as [R1 R2]. split.
      * intros L. eapply Qlt_le_trans; [exact R2|]. rewrite <- Zle_Qle. lia.
      * intros L. pose proof (Qle_lt_trans _ _ _ R1 L) as K. rewrite <- Zlt_Qlt in K. exact K.
  - intros Hc P. destruct R as [R _]. specialize (R P) as [R1 R2].
    assert (O : forall l z, out_of_time c l z <-> (l < z)%Z) by (destruct c; [congruence|reflexivity|reflexivity]).
    rewrite !O. split.
    + intros L. eapply Qlt_le_trans; [|exact R1]. rewrite <- Zlt_Qlt. exact L.
    + intros L. pose proof (Qle_lt_trans _ _ _ L R2) as K. rewrite <- Zlt_Qlt in K. lia.
Qed.

(** As stated it is false: a token that is not valid before 2*10^9 (written 2e9) is accepted at 1000, one
    valid from 1000.5 is accepted at 1000, and one valid until 15*10^8 (1.5e9) is expired at 1000. *)
Theorem C60_numeric_date_refuted :
  (exists p e dp r v kvs t q, accepted p e dp r v /\ time_requested dp Nbf = true /\ ordinary_time (limit e dp Nbf)
     /\ handed_out r kvs /\ lookup (lit "nbf") kvs = Some t /\ number_value t q /\ t = lit "2e9"
     /\ out_of_time_q Nbf (limit e dp Nbf) q /\ v = L8W8JWT_VALID)
  /\ flags_of 1000 (time_params "{""nbf"":1000.5}" false true 0) = Some 0%N
  /\ flags_of 1000 (time_params "{""exp"":1.5e9}" true false 0) = Some 16%N.
Proof.
  split; [|vm_compute; auto].
  assert (X : exists p e dp r v, accepted p e dp r v /\ (time_requested dp Nbf = true /\ ordinary_time (limit e dp Nbf)
    /\ handed_out r [(lit "alg", lit "HS256"); (lit "typ", lit "JWT"); (lit "nbf", lit "2e9")]
    /\ limit e dp Nbf = 1000%Z /\ v = L8W8JWT_VALID)).
  { accept 1000%Z (time_params "{""nbf"":2e9}" false true 0).
    split; [reflexivity|]. split; [split; reflexivity|]. split; [told_pairs|]. split; reflexivity. }
  destruct X as (p & e & dp & r & v & A & Q & L & H & E & V).
  exists p, e, dp, r, v. eexists _, (lit "2e9"), ((inject_Z 2 + 0) * Qpower (10 # 1) 9)%Q.
  split; [exact A|]. split; [exact Q|]. split; [exact L|]. split; [exact H|].
  split; [reflexivity|]. split.
  - change (lit "2e9") with ((lit "2" ++ []) ++ lit "e9"). apply (NV _ (inject_Z 2 + 0) _ 9).
    + apply (MV_pos (lit "2") [] 0); [|constructor]. apply (JI_pos x32 []); [vm_compute; tauto|discriminate|constructor].
    + apply (EV_plain x65 (lit "9")); [vm_compute; tauto|]. split; [discriminate|]. (constructor; [vm_compute; tauto|constructor]).
  - split; [reflexivity|]. split; [|exact V]. rewrite E. vm_compute. reflexivity.
Qed.

(** Non-vacuous: a fractional expiry date, accepted in the second it names and rejected in the next. *)
Example C60_example :
  mantissa_value (lit "1000.5") (inject_Z 1000 + inject_Z 5 / inject_Z (10 ^ 1))
  /\ flags_of 1000 (time_params "{""exp"":1000.5}" true false 0) = Some 0%N
  /\ flags_of 1001 (time_params "{""exp"":1000.5}" true false 0) = Some 16%N
  /\ json_number (lit "2e9").
Proof.
  split; [|split; [vm_compute; reflexivity|split; [vm_compute; reflexivity|]]].
  - apply (MV_pos (lit "1000") (lit ".5")).
    + apply (JI_pos x31 (lit "000")); [vm_compute; tauto|discriminate|]. repeat (constructor; [vm_compute; tauto|]); constructor.
    + apply (FV_some (lit "5")). split; [discriminate|]. (constructor; [vm_compute; tauto|constructor]).
  - apply (JN [] (lit "2") [] (lit "e9")); [left; reflexivity| |constructor|].
    + apply (JI_pos x32 []); [vm_compute; tauto|discriminate|constructor].
    + apply (JE_some x65 [] (lit "9")); [vm_compute; tauto|left; reflexivity|].
      split; [discriminate|]. (constructor; [vm_compute; tauto|constructor]).
Qed.

Print Assumptions C60_numeric_date_as_coded_partial.
Print Assumptions C60_numeric_date_partial.
Print Assumptions C60_numeric_date_refuted.
