(** * Property C87: what the project's own tests come to *)
From Verif Require Import Base BaseProofs HeapProofs Util UtilProofs Claim Base64 SpecB64
  Base64EncProofs Base64EncApi Base64DecProofs Base64Api Jsmn Env Encode Decode SpecJson SpecJwa ClaimProofs UnescapeProofs
  EncodeProofs SignProofs EncodeTotal SpecEnc JsonProofs PropEncode DecodeProofs DecodeInv JsmnProofs ParseProofs
  PropClaim ReadProofs ValidateProofs JsmnJson JsmnSize PropVerify PropValidate PropLeak PropJson DecodeTotal DecodeOk PropSafe
  PropRoundTrip PropIssued PropTime Examples PropEncMemory PropPrograms Walk Exact Complete PropComplete
  EncComplete PropEncComplete PropUnclosed Tests TestProofs TestVerdict.
From Coq Require Import ZifyBool ZifyNat ZifyN.
Ltac Zify.zify_post_hook ::= Z.div_mod_to_equations.
Local Opaque L8W8JWT_MAX_KEY_SIZE SIGBUF.

(** ** One test *)
(** A test expects the signature to verify unless it asserts the flag for one that does not. *)
Definition intended (a : asking) : bool := match a_want a with Flagged 128 => false | _ => true end.
(** The keys and the backend are as the test means them: the key signs, and the signature verifies under the
    other key, or does not, as intended. *)
Definition fits (p : platform) (e : env) (keys : string -> bytes) (t : test) : Prop :=
  key_fits keys (i_key (t_issue t))
  /\ (forall j, supported (i_alg (t_issue t)) j -> signs p e j (key_bytes keys (i_key (t_issue t))) Null 0)
  /\ Forall (fun a => key_fits keys (a_key a) /\ agrees p e p e keys (t_issue t) a (intended a)) (t_askings t).
Definition well_formed (t : test) : bool := issue_ok (t_issue t) && forallb asking_ok (t_askings t).
(** Whether the verdicts are those asserted, one call after the other. *)
Fixpoint all_met (i : issue) (c : clock) (n : nat) (l : list asking) : bool :=
  match l with
  | [] => true
  | a :: l => verdict_wanted (a_want a) (expected i c a (at_asking c n) (intended a)) && all_met i c (S n) l
  end.
Definition sane (c : clock) : Prop := forall n, (0 <= at_asking c n <= 2 ^ 62)%Z.

Lemma ask_all_run p e keys c i id token w0 wt l :
  (32 <= p_size_bits p)%N -> wf w0 -> allocs w0 -> grows w0 -> issue_ok i = true -> clock_ok c i -> sane c ->
  uses_jsmn e -> checknum_right e ->
  (exists h t s j, token = rfc4648_unpadded true h ++ lit "." ++ rfc4648_unpadded true t ++ lit "." ++ rfc4648_unpadded true s
     /\ supported (i_alg i) j
     /\ signing p e j (key_bytes keys (i_key i)) Null 0 (rfc4648_unpadded true h ++ lit "." ++ rfc4648_unpadded true t) (Made s)) ->
  l8w8jwt_encode p e (Some (issue_params keys c i)) w0 = Ret (EncRes 0 (Some (Ptr (Some id) (token ++ [x00]))) (Some (N.of_nat (length token)))) wt ->
  Forall (fun a => key_fits keys (a_key a) /\ agrees p e p e keys i a (intended a)) l -> forallb asking_ok l = true ->
  forall n w, wf w -> allocs w -> grows w ->
  exists w', ask_all p e keys c (Ptr (Some id) (token ++ [x00])) (N.of_nat (length token)) n l w = Ret (all_met i c n l) w'
    /\ exists own, adds w w' own /\ (all_met i c n l = true -> (own = [] <-> forallb (fun a => negb (a_claims a)) l = true)).
Proof.
  intros Hb Hwf0 Ha0 Hg0 Hi Hc Hsn Hu Hcn (h & t & s & j & Et & Hj & Sg) He Hl Hok.
  pose proof He as He'. rewrite Et in He'.
  assert (Ct : forall a, c_text p (asking_params keys (Ptr (Some id) (token ++ [x00])) (N.of_nat (length token)) a) token).
  { intros a. destruct (C72_token_length p e _ w0 _ _ _ _ ltac:(lia) He eq_refl eq_refl) as [Ln _]. rewrite (request_size keys c _ Hi) in Ln.
    apply issue_ok_inv in Hi as (_ & _ & _ & _ & _ & _ & _ & _ & Hz).
    split; [exists (Some id), []; reflexivity|]. split.
    - rewrite Et. unfold no_nul. rewrite !in_app_iff. intros [K3|[[K3|[]]|[K3|[[K3|[]]|K3]]]]; try discriminate K3; revert K3; apply unpadded_clean.
    - split; [reflexivity|]. assert (P : (2 ^ 32 <= size_mod p)%N) by (unfold size_mod; apply N.pow_le_mono_r; lia). change (2 ^ 32)%N with 4294967296%N in P. lia. }
  induction Hl as [|a l [Hk Hag] Hl IH]; intros n w Hwf Ha Hg.
  { exists w. split; [reflexivity|]. exists []. split; [apply adds_quiet, quiet_refl|]. intros _. split; reflexivity. }
  cbn [forallb] in Hok. apply andb_true_iff in Hok as [Hok1 Hok2]. specialize (IH Hok2).
  destruct (issued_verdict p e keys c i j w0 id h t s wt Hb Hwf0 Ha0 Hg0 Hi Hc Hj He' Sg p (with_clock e (at_asking c n)) a (intended a) w Hb Hwf Ha Hg
    Hu Hcn Hok1 Hk (Hsn n) Hag) as (r & w1 & D & R0 & V0). rewrite <- Et in D.
  assert (Ad : adds w w1 (given_blocks (dr_claims r)) /\ (given_blocks (dr_claims r) = [] <-> a_claims a = false)).
  { pose proof (issued_heap p e keys c i w0 id token wt Hb Hwf0 Ha0 Hg0 Hi Hc He p (with_clock e (at_asking c n)) _ _ _ _ w r w1 Hwf Hg Hu (Ct a) D) as K.
    destruct (decode_own _ _ _ _ _ _ _ _ _ Hwf D) as (own & lost & Hh & A & _). split.
    - assert (Eo : given_blocks (dr_claims r) = own).
      { destruct (dr_claims r) as [[arr m]|]; cbn [handed given_blocks] in *; [|congruence]. destruct Hh as (x & cs & -> & _ & _ & ->). reflexivity. }
      rewrite Eo in *. destruct A as (A1 & A2 & A3 & A4). split; [exact A1|].
      split; [clear - A2; induction own as [|y own IH]; [constructor|]; cbn [app] in A2; inversion A2; subst; constructor; [rewrite in_app_iff in *; tauto|auto]|]. split; [intros x Hx; apply A3, in_app_iff; left; exact Hx|]. exact K.
    - apply decode_success in D as (dp & st & w' & _ & _ & _ & _ & _ & _ & _ & Ec); [|exact R0]. rewrite Ec.
      destruct (a_claims a); cbn [andb given_blocks]; split; intros C; (discriminate C || reflexivity). }
  destruct Ad as [Ad Cl]. pose proof (adds_wf _ _ _ Ad Hwf) as Hwf1. pose proof (proj1 Ad) as Lt.
  destruct (IH (S n) w1 Hwf1 (allocs_later _ _ Lt Ha) (grows_later _ _ Lt Hg)) as (w2 & E2 & own & A2 & O2).
  cbn [ask_all all_met forallb]. unfold ask. unfold mbind at 1. unfold mbind at 1. rewrite D. cbv beta iota. rewrite R0, V0.
  change (0 =? L8W8JWT_SUCCESS)%Z with true. cbv iota. cbn [print_verdict lift mbind mret].
  unfold mbind, lift, mret. change (e_time (with_clock e (at_asking c n))) with (at_asking c n).
  destruct (verdict_wanted (a_want a) (expected i c a (at_asking c n) (intended a))); cbn [andb].
  - exists w2. split; [exact E2|]. exists (given_blocks (dr_claims r) ++ own). split; [eapply adds_trans; eassumption|].
    intros M. rewrite andb_true_iff, negb_true_iff, <- (O2 M), <- Cl. split; [intros K; apply app_eq_nil in K; exact K|intros [-> ->]; reflexivity].
  - exists w1. split; [reflexivity|]. eexists. split; [exact Ad|discriminate].
Qed.

(** A well-formed test under these conditions runs to its end, and passes exactly if the verdicts it asserts
    are the expected ones; passing, it leaves the heap as it was exactly if it never asks for the claims. *)
Theorem C87_test_outcome :
  forall p e keys c t w,
    (32 <= p_size_bits p)%N -> wf w -> allocs w -> grows w -> e_seed_ok e = true -> uses_jsmn e -> checknum_right e ->
    well_formed t = true -> clock_ok c (t_issue t) -> sane c -> fits p e keys t ->
    exists w', run_test p e keys c t w = Ret (all_met (t_issue t) c 0 (t_askings t)) w'
      /\ (all_met (t_issue t) c 0 (t_askings t) = true ->
          (same_heap w w' <-> forall a, In a (t_askings t) -> a_claims a = false)).
Proof.
  intros p e keys c t w Hb Hwf Ha Hg Sd Hu Hcn Hf Hc Hsn (K1 & K2 & K3). unfold well_formed in Hf. apply andb_true_iff in Hf as [F1 F2].
  set (i := t_issue t) in *. destruct (supported_exists (i_alg i)) as (j & Hj); [apply issue_ok_inv in F1; tauto|].
  destruct (issued p e keys c i j w Hb Hwf Ha Hg F1 K1 Hj Sd (K2 j Hj)) as (id & h & x & s & w1 & E & Sg).
  set (token := rfc4648_unpadded true h ++ lit "." ++ rfc4648_unpadded true x ++ lit "." ++ rfc4648_unpadded true s) in *.
  destruct (encode_inv p e _ _ _ _ ltac:(lia) Hwf E) as [(C & _)|(_ & _ & id' & t' & Eo & _ & Rg & Lt & Lv & _)]; [destruct C; reflexivity|].
  assert (id' = id) as -> by (cbn [er_out] in Eo; congruence).
  assert (Hwf1 : wf w1). { intros y Hy. rewrite Lv. destruct (Nat.eqb_spec y id); [lia|]. apply Hwf. destruct Lt as (_ & _ & _ & Ln & _). lia. }
  destruct (ask_all_run p e keys c i id token w w1 (t_askings t) Hb Hwf Ha Hg F1 Hc Hsn Hu Hcn) with (n := 0%nat) (w := w1)
    as (w2 & Ea & own & Ad & Ow); auto.
  { exists h, x, s, j. auto. } { exact (allocs_later _ _ Lt Ha). } { exact (grows_later _ _ Lt Hg). }
  unfold run_test. fold i. unfold mbind at 1. rewrite E. cbn [er_rc er_out er_len]. change (0 =? L8W8JWT_SUCCESS)%Z with true. cbv iota.
  unfold mbind at 1. rewrite Ea. destruct (all_met i c 0 (t_askings t)); [|exists w2; split; [reflexivity|discriminate]].
  pose proof Ad as (L2 & Nd & Rn & Av). assert (Li : w_live w2 id = true) by (apply Av; left; rewrite Lv, Nat.eqb_refl; reflexivity).
  unfold mbind, free, free_id. rewrite Li. eexists. split; [reflexivity|]. intros _.
  transitivity (own = []).
  - unfold same_heap. cbn [w_live]. split.
    + intros H. destruct own as [|y own]; [reflexivity|exfalso]. specialize (H y). destruct (Rn y (or_introl eq_refl)) as [R1 _].
      unfold upd_live in H. destruct (Nat.eqb_spec y id); [lia|]. rewrite (proj2 (Av y)) in H by (right; left; reflexivity).
      rewrite Hwf in H; [discriminate|]. destruct Lt as (_ & _ & _ & Ln & _). lia.
    + intros -> y. unfold upd_live. destruct (Nat.eqb_spec y id) as [->|Ny]; [symmetry; apply Hwf; lia|].
      specialize (Av y). specialize (Lv y). apply Nat.eqb_neq in Ny. rewrite Ny in Lv. cbn [In] in Av. rewrite <- Lv.
      destruct (w_live w2 y), (w_live w1 y); intuition congruence.
  - rewrite (Ow eq_refl), forallb_forall. split; intros H a Ia; specialize (H a Ia); destruct (a_claims a); (reflexivity || discriminate H).
Qed.
Print Assumptions C87_test_outcome.

(** ** The suite *)
(** The delays, in seconds from the issuing of a token to its decoding, at which each test passes (between
    the two bounds; none: no bound). *)
Definition no_window : option Z * option Z := (None, None).
Definition window (t : test) (lo hi : option Z) : test * (option Z * option Z) := (t, (lo, hi)).
Definition timed_tests : list (test * (option Z * option Z)) :=
  [ window invalid_exp (Some (-169)%Z) None; window invalid_nbf None (Some 289%Z); window invalid_iat None (Some 589%Z) ].
Definition timed_tests_2 : list (test * (option Z * option Z)) :=
  [ window valid_exp None (Some 610%Z); window valid_nbf (Some (-300)%Z) None; window valid_iat (Some (-70)%Z) None;
    window valid_exp_tolerance (Some (-9)%Z) (Some 30%Z); window valid_nbf_tolerance (Some (-60)%Z) (Some 29%Z);
    window valid_iat_tolerance (Some (-40)%Z) (Some 29%Z) ].
Definition suite_windows : list (test * (option Z * option Z)) :=
  map (fun t => (t, no_window)) (firstn 37 suite) ++ timed_tests ++ map (fun t => (t, no_window)) (firstn 5 (skipn 40 suite))
  ++ timed_tests_2 ++ map (fun t => (t, no_window)) (skipn 51 suite).
Definition within (b : option Z * option Z) (d : Z) : Prop :=
  match fst b with Some lo => (lo <= d)%Z | None => True end /\ match snd b with Some hi => (d <= hi)%Z | None => True end.
(** All is issued at the time [t] and decoded at [t + d]. *)
Definition delayed (t d : Z) : clock := Clock t t t (fun _ => (t + d)%Z).

Lemma suite_windows_all : map fst suite_windows = suite.
Proof. reflexivity. Qed.
Lemma suite_well_formed : forallb well_formed suite = true.
Proof. vm_compute. reflexivity. Qed.
Ltac decide_met :=
  repeat match goal with |- context [(?a <? ?b)%Z] => destruct (Z.ltb_spec a b) end;
  match goal with |- ?x = true <-> _ => let v := eval vm_compute in x in change x with v end;
  split; intros; first [reflexivity | discriminate | tauto | lia | idtac].
Lemma suite_met_in_window :
  forall t b r d, In (t, b) suite_windows -> (all_met (t_issue t) (delayed r d) 0 (t_askings t) = true <-> within b d).
Proof.
  intros t b r d H. cbn [suite_windows map firstn skipn suite app timed_tests timed_tests_2 window In] in H.
  unfold within, no_window in *.
  repeat (destruct H as [H|H];
    [injection H as <- <-; cbn [fst snd];
     match goal with |- context [t_issue ?t] => unfold t end;
     cbn [t_issue t_askings all_met];
     unfold expected, delayed;
     cbn [a_iss a_sub a_aud a_jti a_exp a_nbf a_iat a_typ a_want i_iss i_sub i_aud i_jti i_exp i_nbf i_iat at_exp at_nbf at_iat at_asking untimely];
     decide_met|]).
  exact (False_ind _ H).
Qed.
(** The clock reads a time after 1970 by more than the tests go back, before the year 146 billion. *)
Definition plausible (t : Z) : Prop := (300 < t <= 2 ^ 61)%Z.
Lemma suite_clock c t : In t suite -> plausible (at_iat c) -> plausible (at_nbf c) -> plausible (at_exp c) -> clock_ok c (t_issue t).
Proof.
  set (near := fun o => match o with Some d => (-300 <=? d)%Z && (d <=? 900)%Z | None => true end).
  assert (K : forallb (fun t => near (i_iat (t_issue t)) && near (i_nbf (t_issue t)) && near (i_exp (t_issue t))) suite = true) by (vm_compute; reflexivity).
  rewrite forallb_forall in K. intros Ht P1 P2 P3. apply K in Ht. apply andb_true_iff in Ht as [Ht K3]. apply andb_true_iff in Ht as [K1 K2]. clear K.
  assert (G : forall t o, plausible t -> near o = true -> time_ok t o).
  { intros x o Hx Ho. destruct o as [d|]; [|exact I]. unfold plausible, near, time_ok, I64_MAX in *. change (2 ^ 61)%Z with 2305843009213693952%Z in Hx. lia. }
  split; [|split]; apply G; assumption.
Qed.
(** The clock at issuing and at the decoding calls: at most [m] seconds pass. *)
Definition soon (c : clock) (m : Z) : Prop :=
  forall n t, In t [at_iat c; at_nbf c; at_exp c] -> (t <= at_asking c n <= t + m)%Z.
Lemma suite_met_soon t c : In t suite -> soon c 29 -> all_met (t_issue t) c 0 (t_askings t) = true.
Proof.
  intros H Hs. assert (S1 : forall n, (at_iat c <= at_asking c n <= at_iat c + 29)%Z) by (intros n; apply Hs; cbn; auto).
  assert (S2 : forall n, (at_nbf c <= at_asking c n <= at_nbf c + 29)%Z) by (intros n; apply Hs; cbn; auto).
  assert (S3 : forall n, (at_exp c <= at_asking c n <= at_exp c + 29)%Z) by (intros n; apply Hs; cbn; auto).
  pose proof (S1 0%nat). pose proof (S1 1%nat). pose proof (S2 0%nat). pose proof (S2 1%nat). pose proof (S3 0%nat). pose proof (S3 1%nat). clear S1 S2 S3 Hs.
  cbn [suite In] in H.
  repeat (destruct H as [H|H];
    [subst t; match goal with |- context [t_issue ?t] => unfold t end;
     cbn [t_issue t_askings all_met]; unfold expected;
     cbn [a_iss a_sub a_aud a_jti a_exp a_nbf a_iat a_typ a_want i_iss i_sub i_aud i_jti i_exp i_nbf i_iat at_exp at_nbf at_iat at_asking untimely];
     repeat match goal with |- context [(?a <? ?b)%Z] => destruct (Z.ltb_spec a b) end;
     first [exfalso; lia | vm_compute; reflexivity]|]).
  exact (False_ind _ H).
Qed.
Lemma suite_formed t : In t suite -> well_formed t = true.
Proof. apply forallb_forall, suite_well_formed. Qed.

(** The backend and the keys are as the tests mean them, and there is memory. *)
Definition test_bench (p : platform) (e : env) (w : world) : Prop :=
  (32 <= p_size_bits p)%N /\ wf w /\ allocs w /\ grows w /\ e_seed_ok e = true /\ uses_jsmn e /\ checknum_right e.

(** Every test passes if less than half a minute goes by between issuing and decoding. *)
Theorem C87_suite_passes :
  forall p e keys c t w, test_bench p e w -> In t suite -> fits p e keys t ->
    plausible (at_iat c) -> plausible (at_nbf c) -> plausible (at_exp c) -> soon c 29 ->
    exists w', run_test p e keys c t w = Ret true w'
      /\ (same_heap w w' <-> forall a, In a (t_askings t) -> a_claims a = false).
Proof.
  intros p e keys c t w (B1 & B2 & B3 & B4 & B5 & B6 & B7) Ht F P1 P2 P3 Hs.
  assert (Sn : sane c). { intros n. specialize (Hs n (at_iat c) (or_introl eq_refl)). unfold plausible in P1. change (2 ^ 61)%Z with 2305843009213693952%Z in P1. change (2 ^ 62)%Z with 4611686018427387904%Z. lia. }
  destruct (C87_test_outcome p e keys c t w B1 B2 B3 B4 B5 B6 B7 (suite_formed t Ht) (suite_clock c t Ht P1 P2 P3) Sn F) as (w' & R & H).
  rewrite (suite_met_soon t c Ht Hs) in *. exists w'. auto.
Qed.
Print Assumptions C87_suite_passes.

(** When all is issued at one time and decoded [d] seconds later (or before, if the clock is set back), each
    test passes exactly within its window. *)
Theorem C87_suite_in_time :
  forall p e keys t b r d w, test_bench p e w -> In (t, b) suite_windows -> fits p e keys t ->
    plausible r -> (0 <= r + d <= 2 ^ 62)%Z ->
    exists ok w', run_test p e keys (delayed r d) t w = Ret ok w' /\ (ok = true <-> within b d).
Proof.
  intros p e keys t b r d w (B1 & B2 & B3 & B4 & B5 & B6 & B7) Hb F P Hd.
  assert (Ht : In t suite) by (rewrite <- suite_windows_all; exact (in_map fst _ _ Hb)).
  destruct (C87_test_outcome p e keys (delayed r d) t w B1 B2 B3 B4 B5 B6 B7 (suite_formed t Ht) (suite_clock (delayed r d) t Ht P P P) (fun _ => Hd) F) as (w' & R & _).
  exists (all_met (t_issue t) (delayed r d) 0 (t_askings t)), w'. split; [exact R|]. exact (suite_met_in_window t b r d Hb).
Qed.
Print Assumptions C87_suite_in_time.
