(** * Property C87: the test that calls the three decode functions *)
From Verif Require Import Base BaseProofs HeapProofs Util UtilProofs Claim Base64 SpecB64
  Base64EncProofs Base64EncApi Base64DecProofs Base64Api Jsmn Env Encode Decode SpecJson SpecJwa ClaimProofs UnescapeProofs
  EncodeProofs SignProofs EncodeTotal SpecEnc JsonProofs PropEncode DecodeProofs DecodeInv JsmnProofs ParseProofs
  PropClaim ReadProofs ValidateProofs JsmnJson JsmnSize PropVerify PropValidate PropLeak PropJson DecodeTotal DecodeOk PropSafe
  PropRoundTrip PropIssued PropTime Examples PropEncMemory PropPrograms Walk Exact Complete PropComplete
  EncComplete PropEncComplete PropUnclosed Tests TestProofs TestVerdict PropTests TestBench PropSuite TestRaw.
From Coq Require Import ZifyBool ZifyNat ZifyN.
Ltac Zify.zify_post_hook ::= Z.div_mod_to_equations.
Local Opaque L8W8JWT_MAX_KEY_SIZE SIGBUF.

Lemma object_brace ms x : json_object ms x -> exists y, x = x7b :: y.
Proof. intros H. inversion H; subst; eexists; reflexivity. Qed.
Lemma first_char_seg w id m b : w_live w id = true -> first_char (Ptr (Some id) (b :: m)) w = Ret b w.
Proof.
  intros H. unfold first_char. rewrite H. unfold lift, read_at. cbn. reflexivity.
Qed.
(** The assertions hold of parts that are objects and of a signature that is not empty, and all is freed. *)
Lemma parts_asserted_ok w0 w i1 i2 i3 h pl s n l1 l2 l3 : wf w0 -> n <> 0%N ->
  let a := Seg (Ptr (Some i1) (x7b :: h)) l1 in let b := Seg (Ptr (Some i2) (x7b :: pl)) l2 in let c := Seg (Ptr (Some i3) s) l3 in
  adds w0 w (handed_seg (Some a) ++ handed_seg (Some b) ++ handed_seg (Some c)) ->
  exists w', parts_asserted (s_ptr a) (s_ptr b) (s_ptr c) n w = Ret true w' /\ adds w0 w' [].
Proof.
  intros Hwf Hn a b c A. unfold parts_asserted, a, b, c. cbn [s_ptr]. unfold mbind at 1.
  rewrite first_char_seg by (eapply adds_live; [exact A|left; reflexivity]).
  change (negb (Byte.eqb x7b x7b)) with false. cbv iota. unfold mbind at 1.
  rewrite first_char_seg by (eapply adds_live; [exact A|right; left; reflexivity]).
  change (negb (Byte.eqb x7b x7b)) with false. cbv iota. apply N.eqb_neq in Hn. rewrite Hn.
  cbn [handed_seg] in A. rewrite <- (app_nil_r (seg_blocks c)) in A.
  destruct (free_three w0 w [] a b c Hwf I I I A) as (w1 & w2 & w3 & F1 & F2 & F3 & A3). unfold a, b, c in F1, F2, F3. cbn [s_ptr] in F1, F2, F3.
  unfold mbind at 1. rewrite F1. unfold mbind at 1. rewrite F2. unfold mbind at 1. rewrite F3. exists w3. auto.
Qed.

(** What the rest of the test comes to with a token that was issued, in any state. *)
Lemma raw_rest_run p e keys c i j w0 id h t s wt :
  let token := rfc4648_unpadded true h ++ lit "." ++ rfc4648_unpadded true t ++ lit "." ++ rfc4648_unpadded true s in
  (32 <= p_size_bits p)%N -> wf w0 -> allocs w0 -> grows w0 -> issue_ok i = true -> clock_ok c i -> supported (i_alg i) j ->
  l8w8jwt_encode p e (Some (issue_params keys c i)) w0 = Ret (EncRes 0 (Some (Ptr (Some id) (token ++ [x00]))) (Some (N.of_nat (length token)))) wt ->
  signing p e j (key_bytes keys (i_key i)) Null 0 (rfc4648_unpadded true h ++ lit "." ++ rfc4648_unpadded true t) (Made s) ->
  forall e' a verified w v0, wf w -> allocs w -> grows w -> uses_jsmn e' -> checknum_right e' ->
  asking_ok a = true -> key_fits keys (a_key a) -> (0 <= e_time e' <= 2 ^ 62)%Z -> agrees p e p e' keys i a verified ->
  exists w', raw_rest p e' (asking_params keys (Ptr (Some id) (token ++ [x00])) (N.of_nat (length token)) a) v0 w
      = Ret (expected i c a (e_time e') verified =? L8W8JWT_VALID)%N w'
    /\ later w w' /\ (expected i c a (e_time e') verified = L8W8JWT_VALID -> adds w w' []).
Proof.
  intros token Hb Hwf0 Ha0 Hg0 Hi Hc Hj He Sg e' a verified w v0 Hwf Ha Hg Hu Hcn Hak Hkf Ht Hag.
  set (q := Ptr (Some id) (token ++ [x00])) in *. set (dp := asking_params keys q (N.of_nat (length token)) a).
  destruct (issued_verdict p e keys c i j w0 id h t s wt Hb Hwf0 Ha0 Hg0 Hi Hc Hj He Sg p e' a verified w Hb Hwf Ha Hg Hu Hcn Hak Hkf Ht Hag)
    as (r & w1 & D & R0 & V0). fold token q in D. fold dp in D. set (v := expected i c a (e_time e') verified) in *.
  destruct (issued_objects p e keys c i w0 id token wt Hb Hwf0 Ha0 Hg0 Hi Hc He) as (hj & pj & sx & hm & pm & Et & O1 & O2).
  destruct (C72_token_length p e _ w0 _ _ _ _ ltac:(lia) He eq_refl eq_refl) as [Ln _]. rewrite (request_size keys c _ Hi) in Ln.
  assert (Hz : (issue_size i <= 1000000)%N) by (apply issue_ok_inv in Hi; tauto).
  assert (Nn : no_nul token).
  { unfold token, no_nul. rewrite !in_app_iff. intros [K3|[[K3|[]]|[K3|[[K3|[]]|K3]]]]; try discriminate K3; revert K3; apply unpadded_clean. }
  assert (Hs : (N.of_nat (length token) < size_mod p)%N).
  { assert (P : (2 ^ 32 <= size_mod p)%N) by (unfold size_mod; apply N.pow_le_mono_r; lia). change (2 ^ 32)%N with 4294967296%N in P. lia. }
  assert (Ct : c_text p dp token) by (split; [exists (Some id), []; reflexivity|]; split; [exact Nn|]; split; [reflexivity|exact Hs]).
  assert (Hl : (Z.of_nat (length token) <= INT_MAX)%Z) by (unfold INT_MAX; lia).
  assert (Hk : key_ok (dp_verification_key dp) (dp_verification_key_length dp)).
  { destruct Hkf as [F1 F2]. unfold key_ok, dp. cbn [asking_params dp_verification_key dp_verification_key_length].
    split; [rewrite key_len_bytes; lia|]. exists (key_bytes keys (a_key a)). split; [apply key_is_bytes|left; rewrite key_len_bytes; exact F2]. }
  assert (Hr : requests_readable e' dp) by (apply (requests_ok_readable p), asking_readable; assumption).
  (* what decoding comes to *)
  destruct (C75_decode_complete p e' dp token (a_claims a) (a_claims a) w Hwf Ha Hg Hu Hb Ct Hl Hk Hr (fun x => x)) as (o & Do & Uo & Ro).
  cbv zeta in Ro. rewrite D in Ro.
  assert (Eo : exists es, o = Result v es).
  { destruct o as [rc|v' es|u].
    - destruct Ro as (N0 & w' & E). injection E as -> _. cbn [dr_rc] in R0. contradiction.
    - destruct Ro as (x & cs & w' & _ & E). injection E as -> _. cbn [dr_valid] in V0. injection V0 as ->. eauto.
    - discriminate Ro. }
  destruct Eo as (es & ->).
  (* the parts *)
  assert (Cu : exists tl1 tl2 sig st, cut dp token (Parts (rfc4648_unpadded true hj ++ lit "." ++ rfc4648_unpadded true pj) hj tl1 pj tl2 (Some (sig, st))) /\ (1 <= length sig)%nat).
  { destruct (text_decodes hj) as (tl1 & D1); [intros ->; inversion O1|]. destruct (text_decodes pj) as (tl2 & D2); [intros ->; inversion O2|].
    assert (P3 : parts3 token (rfc4648_unpadded true hj) (rfc4648_unpadded true pj) sx) by (split; [exact Et|split; apply unpadded_clean]).
    assert (Cx : exists msg hj' ht' pj' pt' sg', cut dp token (Parts msg hj' ht' pj' pt' sg')).
    { inversion Do as [C0| |o0 _ _ Rn Eo0]; subst; inversion Rn; subst; eauto 8. }
    destruct Cx as (msg & hj' & ht' & pj' & pt' & sg' & Cx).
    inversion Cx as [| | |h2 p2 ? ? ? ? P2| |h2 p2 s2 ? ? ? ? sig st P3' X1 X2 X3]; subst.
    - exfalso. eapply parts_23; eassumption.
    - destruct (parts3_fun _ _ _ _ _ _ _ P3 P3') as (<- & <- & <-).
      exists tl1, tl2, sig, st. split; [apply Cut_three with sx; assumption|]. apply url_b64_decodes in X3. apply (b64_decodes_len _ _ _ X3). }
  destruct Cu as (tl1 & tl2 & sig & st & Cu & Ls).
  destruct (object_brace _ _ O1) as (y1 & E1), (object_brace _ _ O2) as (y2 & E2).
  assert (Hed : dp_alg dp = 13%Z -> p_eddsa p = true).
  { intros Ea. destruct (p_eddsa p) eqn:Ep; [reflexivity|exfalso]. inversion Do as [C0| |o0 _ C1 Rn Eo0]; subst. apply C1. auto. }
  assert (Nj : token <> []) by (intros C; rewrite C in Et; destruct (rfc4648_unpadded true hj); discriminate Et).
  (* without validation *)
  destruct (C75_decode_raw_no_validation_complete p dp token true true true true true true w Hwf Ha Ct Hk Nj Hed (fun x => x) (fun x => x) (fun x => x) eq_refl)
    as (c2 & r2 & w2 & Cu2 & _ & E2' & V2 & K2).
  pose proof (cut_fun _ _ _ _ Cu2 Cu) as ->. destruct K2 as (R2 & G2). apply G2 in Cu as H2. clear G2.
  destruct H2 as ((x1 & X1 & i1 & Y1) & (x2 & X2 & i2 & Y2) & (x3 & X3 & i3 & Y3)). subst x1 x2 x3.
  destruct (decode_raw_nv_own _ _ _ _ _ _ _ _ _ _ _ Hwf E2') as (A2 & _). unfold handed_raw in A2. rewrite X1, X2, X3 in A2.
  rewrite E1 in X1, A2. rewrite E2 in X2, A2. cbn [app] in A2, X1, X2.
  assert (Nl : N.of_nat (length sig) <> 0%N) by lia.
  destruct (parts_asserted_ok w w2 i1 i2 i3 (y1 ++ tl1) (y2 ++ tl2) (sig ++ st) (N.of_nat (length sig)) _ _ _ Hwf Nl A2) as (w3 & P2 & A3).
  pose proof (adds_wf _ _ _ A3 Hwf) as Hwf3. pose proof (proj1 A3) as L3.
  assert (Ha3 : allocs w3) by exact (allocs_later _ _ L3 Ha). assert (Hg3 : grows w3) by exact (grows_later _ _ L3 Hg).
  (* with validation *)
  destruct (C75_decode_raw_complete p e' dp token true true true true true true w3 Hwf3 Ha3 Hg3 Hu Hb Ct Hl Hk Hr (fun x => x) (fun x => x) (fun x => x))
    as (o3 & _ & U3 & K3). rewrite <- (U3 _ Do) in K3. destruct K3 as (r3 & w4 & E3' & R3 & V3 & G3). apply G3 in Cu as H3. clear G3.
  destruct H3 as ((z1 & Z1 & k1 & T1) & (z2 & Z2 & k2 & T2) & (z3 & Z3 & k3 & T3)). subst z1 z2 z3.
  destruct (decode_raw_own _ _ _ _ _ _ _ _ _ _ _ _ _ Hwf3 E3') as (lost & A4 & _ & G4).
  rewrite G4, app_nil_r in A4; [|exact Hg3|].
  2:{ intros dp' Ed. injection Ed as <-. apply counted_released. rewrite Et in Ct.
      destruct (text_decodes hj) as (tla & D1); [intros ->; inversion O1|]. destruct (text_decodes pj) as (tlb & D2); [intros ->; inversion O2|].
      exact (json_counted p e' dp _ _ _ _ _ _ _ Hu Ct (proj1 (unpadded_clean _)) (proj1 (unpadded_clean _)) D1 D2
               (ex_intro _ _ (object_text_of _ _ O1)) (ex_intro _ _ (object_text_of _ _ O2))). }
  unfold handed_raw in A4. rewrite Z1, Z2, Z3 in A4. rewrite E1 in Z1, A4. rewrite E2 in Z2, A4. cbn [app] in A4, Z1, Z2.
  unfold raw_rest. fold dp. unfold mbind at 1. rewrite E2', R2, X1, X2, X3. cbn [seg_var len_var s_ptr s_len].
  change (negb (0 =? L8W8JWT_SUCCESS)%Z) with false. cbv iota. cbn [s_ptr] in P2. unfold mbind at 1. rewrite P2. cbn [negb]. cbv iota.
  unfold mbind at 1. rewrite E3', R3, V3, Z1, Z2, Z3. change (negb (0 =? L8W8JWT_SUCCESS)%Z) with false. cbv iota. cbn [seg_var len_var s_ptr s_len].
  destruct (v =? L8W8JWT_VALID)%N eqn:Ev; cbn [negb].
  - destruct (parts_asserted_ok w3 w4 k1 k2 k3 (y1 ++ tl1) (y2 ++ tl2) (sig ++ st) (N.of_nat (length sig)) _ _ _ Hwf3 Nl A4) as (w5 & P4 & A5).
    cbn [s_ptr] in P4. exists w5. split; [exact P4|]. pose proof (adds_trans _ _ _ _ _ A3 A5) as A. cbn [app] in A. split; [exact (proj1 A)|auto].
  - exists w4. split; [reflexivity|]. pose proof (adds_trans _ _ _ _ _ A3 A4) as A. split; [exact (proj1 A)|]. intros C. rewrite C in Ev. discriminate Ev.
Qed.

(** If the keys and the backend are as the test means them, it passes, whatever the clock shows (it asks for
    no time), and leaves the heap as it was. *)
Theorem C87_rs256_test :
  forall p e keys c w, test_bench p e w -> fits p e keys valid_signature_rs256 ->
    plausible (at_iat c) -> plausible (at_exp c) -> sane c ->
    exists w', run_rs256 p e keys c w = Ret true w' /\ same_heap w w'.
Proof.
  intros p e keys c w (Hb & Hwf & Ha & Hg & Sd & Hu & Hcn) (K1 & K2 & K3) P1 P3 Hsn.
  set (i := t_issue valid_signature_rs256) in *. apply Forall_inv in K3 as [K3 K4].
  set (a := Asking L8W8JWT_ALG_RS256 (Named "RSA_PUBLIC_KEY") None None None None None None None None false Valid) in *.
  assert (Hi : issue_ok i = true) by (vm_compute; reflexivity). assert (Hak : asking_ok a = true) by (vm_compute; reflexivity).
  assert (Hc : clock_ok c i).
  { pose proof (suite_clock (Clock (at_iat c) (at_iat c) (at_exp c) (at_asking c)) valid_signature_rs256 ltac:(vm_compute; tauto) P1 P1 P3) as (C1 & C2 & C3).
    split; [exact C1|]. split; [exact C2|exact C3]. }
  destruct (supported_exists (i_alg i)) as (j & Hj); [apply issue_ok_inv in Hi; tauto|].
  destruct (issued p e keys c i j w Hb Hwf Ha Hg Hi K1 Hj Sd (K2 j Hj)) as (id & h & x & s & w1 & E & Sg).
  set (token := rfc4648_unpadded true h ++ lit "." ++ rfc4648_unpadded true x ++ lit "." ++ rfc4648_unpadded true s) in *.
  destruct (encode_inv p e _ _ _ _ ltac:(lia) Hwf E) as [(C & _)|(_ & _ & id' & t' & Eo & _ & Rg & Lt & Lv & _)]; [destruct C; reflexivity|].
  assert (id' = id) as -> by (cbn [er_out] in Eo; congruence).
  assert (Hwf1 : wf w1). { intros y Hy. rewrite Lv. destruct (Nat.eqb_spec y id); [lia|]. apply Hwf. destruct Lt as (_ & _ & _ & Ln & _). lia. }
  assert (Ex : forall now, expected i c a now true = L8W8JWT_VALID) by (intros now; reflexivity).
  destruct (ask_all_run p e keys c i id token w w1 [a] Hb Hwf Ha Hg Hi Hc Hsn Hu Hcn) with (n := 0%nat) (w := w1)
    as (w2 & Ea & own & Ad & Ow); auto.
  { exists h, x, s, j. auto. }
  { exact (allocs_later _ _ Lt Ha). } { exact (grows_later _ _ Lt Hg). }
  assert (Em : all_met i c 0 [a] = true) by reflexivity. rewrite Em in *. specialize (Ow eq_refl). assert (own = []) as -> by (apply Ow; reflexivity). clear Ow.
  assert (Ea' : ask p (with_clock e (at_asking c 0)) keys (Ptr (Some id) (token ++ [x00])) (N.of_nat (length token)) a w1 = Ret true w2).
  { cbn [ask_all] in Ea. minvas Ea as ok w3 K. destruct ok; [|discriminate Ea]. unfold mret in Ea. congruence. }
  pose proof (adds_wf _ _ _ Ad Hwf1) as Hwf2. pose proof (proj1 Ad) as L2. pose proof (later_trans _ _ _ Lt L2) as L02.
  destruct (raw_rest_run p e keys c i j w id h x s w1 Hb Hwf Ha Hg Hi Hc Hj E Sg (with_clock e (at_asking c 1)) a true w2 L8W8JWT_VALID)
    as (w3 & Er & _ & A3); auto.
  { exact (allocs_later _ _ L02 Ha). } { exact (grows_later _ _ L02 Hg). } { exact (Hsn 1%nat). }
  fold token in Er. rewrite Ex in Er. specialize (A3 (Ex _)). change (L8W8JWT_VALID =? L8W8JWT_VALID)%N with true in Er.
  unfold run_rs256. cbv zeta. fold i a. unfold mbind at 1. rewrite E. cbn [er_rc er_out er_len]. change (0 =? L8W8JWT_SUCCESS)%Z with true. cbv iota.
  unfold mbind at 1. rewrite Ea'. cbn [negb]. cbv iota. unfold mbind at 1. rewrite Er. cbn [negb]. cbv iota.
  pose proof (adds_trans _ _ _ _ _ Ad A3) as A. cbn [app] in A. pose proof (adds_nil_same _ _ A) as Sm.
  assert (Li : w_live w3 id = true) by (rewrite Sm, Lv, Nat.eqb_refl; reflexivity).
  unfold mbind, free, free_id. rewrite Li. eexists. split; [reflexivity|].
  intros y. cbn [w_live]. unfold upd_live. destruct (Nat.eqb_spec y id) as [->|Ny]; [symmetry; apply Hwf; lia|].
  rewrite Sm, Lv. apply Nat.eqb_neq in Ny. rewrite Ny. reflexivity.
Qed.
Print Assumptions C87_rs256_test.

Example C87_rs256_example :
  test_bench pe bench we /\ fits pe bench ring valid_signature_rs256
  /\ exists w', run_rs256 pe bench ring (delayed 1000000 2) we = Ret true w' /\ same_heap we w'.
Proof.
  assert (F : fits pe bench ring valid_signature_rs256) by (apply suite_fits_bench; vm_compute; tauto).
  split; [exact bench_ready|]. split; [exact F|]. apply C87_rs256_test; auto using bench_ready.
  - split; [reflexivity|vm_compute; discriminate].
  - split; [reflexivity|vm_compute; discriminate].
  - intros n. cbn. lia.
Qed.
