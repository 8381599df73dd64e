(** * Lemmas for the project's tests (C87) *)
From Verif Require Import Base BaseProofs HeapProofs Util UtilProofs Claim Base64 SpecB64
  Base64EncProofs Base64EncApi Base64DecProofs Base64Api Jsmn Env Encode Decode SpecJson SpecJwa ClaimProofs UnescapeProofs
  EncodeProofs SignProofs EncodeTotal SpecEnc JsonProofs PropEncode DecodeProofs DecodeInv JsmnProofs ParseProofs
  PropClaim ReadProofs ValidateProofs JsmnJson JsmnSize PropVerify PropValidate PropLeak PropJson DecodeTotal DecodeOk PropSafe
  PropRoundTrip PropIssued PropTime Examples PropEncMemory PropPrograms Walk Exact Complete PropComplete
  EncComplete PropEncComplete Tests.
From Coq Require Import ZifyBool ZifyNat ZifyN.
Ltac Zify.zify_post_hook ::= Z.div_mod_to_equations.
Local Opaque L8W8JWT_MAX_KEY_SIZE SIGBUF.

(** ** Encoding succeeds *)
(** No character with the sign bit. *)
Definition ascii_claim (c : claim) : Prop :=
  (forall k, given (c_key c) (c_key_length c) k -> Forall (fun x => (b2n x < 128)%N) k)
  /\ (forall v, given (c_value c) (c_value_length c) v -> Forall (fun x => (b2n x < 128)%N) v).
Definition ascii_text (q : ptr) (n : N) : Prop := forall v, given q n v -> Forall (fun x => (b2n x < 128)%N) v.
Definition ascii_request (ep : enc_params) : Prop :=
  Forall ascii_claim (keyed_claims (ep_header_claims ep) (ep_header_claims_count ep))
  /\ Forall ascii_claim (keyed_claims (ep_payload_claims ep) (ep_payload_claims_count ep))
  /\ ascii_text (ep_sub ep) (ep_sub_length ep) /\ ascii_text (ep_iss ep) (ep_iss_length ep)
  /\ ascii_text (ep_aud ep) (ep_aud_length ep) /\ ascii_text (ep_jti ep) (ep_jti_length ep).
(** The key signs whatever it is given. *)
Definition signs (p : platform) (e : env) (j : jwa) (k : bytes) (pw : ptr) (pwl : N) : Prop :=
  forall msg, exists s, signing p e j k pw pwl msg (Made s).

Lemma ascii_not_foreign p s : Forall (fun x => (b2n x < 128)%N) s -> ~ foreign p s.
Proof. intros H (_ & x & Hx & L). rewrite Forall_forall in H. specialize (H x Hx). cbn beta in H. lia. Qed.
Lemma ascii_claim_fine p c : ascii_claim c -> ~ foreign_claim p c.
Proof. intros [A B] [(k & Hk & F)|(_ & v & Hv & F)]; [exact (ascii_not_foreign p k (A k Hk) F)|exact (ascii_not_foreign p v (B v Hv) F)]. Qed.
Lemma spelled_length c : (length (spelled c) <= 6)%nat.
Proof. unfold spelled. repeat match goal with |- context [match ?x with _ => _ end] => destruct x end; cbn; lia. Qed.
Lemma spelling_length s : (length (spelling s) <= 6 * length s)%nat.
Proof.
  unfold spelling. induction s as [|c s IH]; cbn [flat_map length]; [lia|]. rewrite app_length. pose proof (spelled_length c). lia.
Qed.
Lemma quoted_length s : length (quoted s) = (length s + 2)%nat.
Proof. unfold quoted. cbn [length]. rewrite app_length. cbn [length]. lia. Qed.
Fixpoint weight (l : list bytes) : nat := match l with [] => 0 | t :: l => S (length t) + weight l end%nat.
Lemma weight_app a b : weight (a ++ b) = (weight a + weight b)%nat.
Proof. induction a as [|t a IH]; cbn [weight app]; [reflexivity|]. rewrite IH. lia. Qed.
Lemma join_length ts : (length (join ts) <= weight ts)%nat.
Proof.
  induction ts as [|t ts IH]; [cbn; lia|]. cbn [weight]. destruct ts as [|u ts]; [cbn [join weight]; lia|].
  change (join (t :: u :: ts)) with (t ++ lit "," ++ join (u :: ts)). rewrite !app_length. change (length (lit ",")) with 1%nat. lia.
Qed.
Lemma members_length cs ts : Forall2 claim_text cs ts -> (length (join ts) <= 6 * N.to_nat (claims_bytes cs))%nat.
Proof.
  intros H. pose proof (join_length ts) as J. cut (weight ts <= 6 * N.to_nat (claims_bytes cs))%nat; [lia|].
  clear J. induction H as [|c t cs ts (k & v & Hk & Hv & ->) H IH]; [cbn; lia|]. cbn [weight claims_bytes]. rewrite !app_length, quoted_length. change (length (lit ":")) with 1%nat.
  pose proof (spelling_length k). pose proof (spelling_length v).
  assert (E : claim_bytes c = (N.of_nat (length k) + N.of_nat (length v) + 1)%N).
  { unfold claim_bytes. rewrite (given_bytes _ _ _ Hk), (given_bytes _ _ _ Hv). destruct (c_key c); [contradiction|reflexivity]. }
  rewrite E. assert (length (if (c_type c =? 0)%Z then quoted (spelling v) else v) <= 6 * length v + 2)%nat
    by (destruct (c_type c =? 0)%Z; [rewrite quoted_length|]; lia). lia.
Qed.
Lemma claims_bytes_filter f cs : (claims_bytes (filter f cs) <= claims_bytes cs)%N.
Proof. induction cs as [|c cs IH]; [cbn; lia|]. cbn [filter claims_bytes]. destruct (f c); cbn [claims_bytes]; lia. Qed.
Lemma keyed_bytes c n : (claims_bytes (keyed_claims c n) <= array_bytes c n)%N.
Proof. destruct c; [cbn; lia|]. apply claims_bytes_filter. Qed.
Lemma timed_length name t l : length name = 3%nat -> timed name t l -> (weight l <= 28)%nat.
Proof.
  intros Hn [H|d H Hd]; [cbn; lia|]. cbn [weight]. rewrite !app_length, quoted_length, Hn. change (length (lit ":")) with 1%nat.
  assert (L : (length d <= 20)%nat); [|lia].
  destruct Hd as (Nd & Dd & Z0 & V). assert (B : (dec_value d < 10 ^ 20)%N) by (rewrite V; assert (t mod 2 ^ 64 < 2 ^ 64)%Z by (apply Z.mod_pos_bound; reflexivity); lia).
  destruct d as [|c s]; [congruence|]. destruct (Byte.eqb c x30) eqn:Ec.
  - apply byte_eqb_eq in Ec. subst c. rewrite (Z0 s eq_refl). cbn. lia.
  - apply byte_eqb_neq in Ec. inversion Dd as [|? ? Dc Ds]; subst.
    assert (G : (10 ^ N.of_nat (length s) <= dec_value (c :: s))%N).
    { assert (Hc : (1 <= b2n c - 48)%N).
      { destruct (EncodeProofs.digit_facts c Dc) as (_ & D & _). destruct (N.eq_dec (b2n c) 48) as [E|E]; [|lia].
        destruct Ec. apply b2n_inj. rewrite E. reflexivity. }
      unfold dec_value. cbn [fold_left]. clear - Hc.
      assert (G : forall s v, (v * 10 ^ N.of_nat (length s) <= fold_left (fun v c => (10 * v + (b2n c - 48))%N) s v)%N).
      { clear. induction s as [|c s IH]; intros v; cbn [fold_left length]; [cbn; lia|].
        rewrite Nat2N.inj_succ, N.pow_succ_r'. etransitivity; [|apply IH]. nia. }
      specialize (G s (10 * 0 + (b2n c - 48))%N). nia. }
    destruct (Nat.le_gt_cases (length (c :: s)) 20) as [L|L]; [exact L|exfalso]. cbn [length] in L.
    assert (10 ^ 20 <= 10 ^ N.of_nat (length s))%N by (apply N.pow_le_mono_r; lia). lia.
Qed.
Lemma stringed_length name q n l : length name = 3%nat -> stringed name q n l ->
  (weight l <= 9 + 6 * N.to_nat (text_bytes q n))%nat.
Proof.
  intros Hn [H|v H]; [cbn; lia|]. cbn [weight]. rewrite !app_length, !quoted_length, Hn, (given_bytes _ _ _ H).
  change (length (lit ":")) with 1%nat. pose proof (spelling_length v). lia.
Qed.
Lemma fixed_length a j : supported a j -> (length (join (map plain_member (fixed_members j))) <= 100)%nat.
Proof. intros [H _]. cbn [jwa_table In] in H. repeat (destruct H as [<-|H]; [vm_compute; lia|]). contradiction. Qed.

Section Succeeds.
Context (p : platform) (e : env) (ep : enc_params) (j : jwa).
Hypothesis (Hb : (32 <= p_size_bits p)%N) (Hs : supported (ep_alg ep) j) (Ha : ascii_request ep) (Hr : (request_bytes ep <= 10000000)%N).
Lemma members_made cs o : Forall ascii_claim cs -> members p cs o -> exists ts, o = Made (join ts) /\ Forall2 claim_text cs ts.
Proof.
  intros H [ts _ F|F]; [eauto|exfalso]. apply Exists_exists in F as (c & Hc & F). rewrite Forall_forall in H.
  exact (ascii_claim_fine p c (H c Hc) F).
Qed.
Lemma header_made o : header p ep j o -> exists t, o = Made t /\ (N.of_nat (length t) <= 200000000)%N.
Proof.
  unfold header. cbv zeta. pose proof (fixed_length _ _ Hs) as F. set (f := join _) in *. clearbody f. destruct (_ =? 0)%N.
  - intros <-. eexists. split; [reflexivity|]. rewrite !app_length. change (length (lit "{")) with 1%nat.
    change (length (lit "}")) with 1%nat. lia.
  - destruct Ha as (A & _). intros [o' H N|t o' H <-].
    + destruct (members_made _ _ A H) as (ts & -> & _). destruct (N _ eq_refl).
    + destruct (members_made _ _ A H) as (ts & E & F2). injection E as ->. eexists. split; [reflexivity|].
      apply members_length in F2. pose proof (keyed_bytes (ep_header_claims ep) (ep_header_claims_count ep)). unfold request_bytes in Hr.
      rewrite !app_length. change (length (lit "{")) with 1%nat. change (length (lit "}")) with 1%nat. change (length (lit ",")) with 1%nat. lia.
Qed.
Lemma payload_made o : payload p ep o -> exists t, o = Made t /\ (N.of_nat (length t) <= 200000000)%N.
Proof.
  destruct Ha as (_ & A & S1 & S2 & S3 & S4).
  assert (Nf : ~ foreign_registered p ep).
  { intros [(v & H & F)|[(v & H & F)|[(v & H & F)|(v & H & F)]]];
      [exact (ascii_not_foreign p v (S1 v H) F)|exact (ascii_not_foreign p v (S2 v H) F)|exact (ascii_not_foreign p v (S3 v H) F)|exact (ascii_not_foreign p v (S4 v H) F)]. }
  assert (R : forall o, registered p ep o -> exists t, o = Made t /\ (N.of_nat (length t) <= 60000500)%N).
  { intros o' [iat nbf exp sub iss aud jti _ T1 T2 T3 G1 G2 G3 G4|F]; [|contradiction]. eexists. split; [reflexivity|].
    apply timed_length in T1, T2, T3; [|reflexivity..]. apply stringed_length in G1, G2, G3, G4; [|reflexivity..]. unfold request_bytes in Hr.
    match goal with |- (N.of_nat (length (join ?l)) <= _)%N => pose proof (join_length l) as J end. rewrite !weight_app in J. lia. }
  unfold payload. intros [o' H N|r o' H H2].
  - destruct (R _ H) as (t & -> & _). destruct (N _ eq_refl).
  - destruct (R _ H) as (t & E & L). injection E as <-. destruct (_ =? 0)%N.
    + subst o'. eexists. split; [reflexivity|]. rewrite !app_length. change (length (lit "{")) with 1%nat. change (length (lit "}")) with 1%nat. lia.
    + destruct H2 as [o'' H2 N|t o'' H2 (sep & Sp & ->)].
      * destruct (members_made _ _ A H2) as (ts & -> & _). destruct (N _ eq_refl).
      * destruct (members_made _ _ A H2) as (ts & E & F2). injection E as ->. eexists. split; [reflexivity|].
        apply members_length in F2. pose proof (keyed_bytes (ep_payload_claims ep) (ep_payload_claims_count ep)). unfold request_bytes in Hr.
        rewrite !app_length. change (length (lit "{")) with 1%nat. change (length (lit "}")) with 1%nat.
        assert (length sep <= 1)%nat by (destruct Sp; cbn; lia). lia.
Qed.
Lemma based_made t o : (N.of_nat (length t) <= 200000000)%N -> based p t o -> o = Made (rfc4648_unpadded true t).
Proof.
  intros L [H|H1 H2|_ _]; [exfalso|exfalso|reflexivity].
  - assert (2 ^ 32 <= 2 ^ p_size_bits p)%N by (apply N.pow_le_mono_r; lia). change (2 ^ 32)%N with 4294967296%N in *. lia.
  - unfold INT_MAX in H2. lia.
Qed.
Lemma to_be_signed_made o : to_be_signed p ep j o -> exists h t, o = Made (rfc4648_unpadded true h ++ lit "." ++ rfc4648_unpadded true t).
Proof.
  unfold to_be_signed. intros [o1 H N|ht o1 H H1].
  { destruct (header_made _ H) as (t & -> & _). destruct (N _ eq_refl). }
  destruct (header_made _ H) as (t & E & L). injection E as <-. destruct H1 as [o2 H2 N|h o2 H2 H3].
  { rewrite (based_made _ _ L H2) in N. destruct (N _ eq_refl). }
  pose proof (based_made _ _ L H2) as E. injection E as ->. destruct H3 as [o3 H3 N|pt o3 H3 H4].
  { destruct (payload_made _ H3) as (t & -> & _). destruct (N _ eq_refl). }
  destruct (payload_made _ H3) as (t & E & L'). injection E as <-. destruct H4 as [o4 H4 N|pl o4 H4 <-].
  { rewrite (based_made _ _ L' H4) in N. destruct (N _ eq_refl). }
  pose proof (based_made _ _ L' H4) as E. injection E as ->. eauto.
Qed.
Lemma encode_succeeds k w :
  wf w -> allocs w -> grows w -> enc_given ep -> ~ null_args ep -> ~ bad_args ep ->
  caller_key (ep_secret_key ep) (ep_secret_key_length ep) k -> e_seed_ok e = true ->
  signs p e j k (ep_secret_key_pw ep) (ep_secret_key_pw_length ep) ->
  exists id h t s w', l8w8jwt_encode p e (Some ep) w
    = Ret (EncRes 0 (Some (Ptr (Some id) ((rfc4648_unpadded true h ++ lit "." ++ rfc4648_unpadded true t ++ lit "." ++ rfc4648_unpadded true s) ++ [x00])))
             (Some (N.of_nat (length (rfc4648_unpadded true h ++ lit "." ++ rfc4648_unpadded true t ++ lit "." ++ rfc4648_unpadded true s))))) w'
    /\ signing p e j k (ep_secret_key_pw ep) (ep_secret_key_pw_length ep) (rfc4648_unpadded true h ++ lit "." ++ rfc4648_unpadded true t) (Made s).
Proof.
  intros Hw A G Hg N1 N2 Hk Sd Sg.
  destruct (C76_encode_complete p e ep w) as (o & E & U & D); auto; [lia|].
  destruct E as [E|_ E|_ _ E|j' k' o _ _ Hj' Hk' E]; [contradiction|contradiction|destruct (E j Hs)|].
  assert (j' = j) as -> by (eapply supported_fun; eassumption). assert (k' = k) as -> by (eapply caller_key_fun; eassumption).
  destruct E as [o1 H1 N|msg o1 H1 H2].
  { destruct (to_be_signed_made _ H1) as (h & t & ->). destruct (N _ eq_refl). }
  destruct (to_be_signed_made _ H1) as (h & t & E). injection E as ->.
  destruct H2 as [o2 H2 N|x o2 H2 H3]; [unfold seeded in H2; rewrite Sd in H2; subst o2; destruct (N _ eq_refl)|].
  destruct (Sg (rfc4648_unpadded true h ++ lit "." ++ rfc4648_unpadded true t)) as (s & Ss).
  assert (o2 = Made ((rfc4648_unpadded true h ++ lit "." ++ rfc4648_unpadded true t) ++ lit "." ++ rfc4648_unpadded true s)) as ->.
  { symmetry. apply U. apply (En_go _ _ _ j k); auto. eapply At_go; [exact H1|]. eapply At_go; [unfold seeded; rewrite Sd; reflexivity|].
    eapply At_go; [exact Ss|reflexivity]. }
  destruct D as (id & w' & D). exists id, h, t, s, w'. rewrite <- !app_assoc in D. rewrite <- !app_assoc. split; [exact D|exact Ss].
Qed.
End Succeeds.

(** ** A key that does not verify *)
(** No signature made with [k] for [j] passes as one for [j'] under [k'], and trying is harmless. *)
Definition rejects (p : platform) (e : env) (p' : platform) (e' : env) (j : jwa) (k : bytes) (j' : jwa) (k' : bytes) : Prop :=
  forall msg s st, signing p e j k Null 0 msg (Made s) ->
    (forall rc, ~ turned_down p' e' j' k' msg rc) /\ (forall u, ~ misused e' j' k' msg (s ++ st) u)
    /\ ~ verifies p' e' j' k' msg s st.
Definition with_alg (dp : dec_params) (a : Z) : dec_params :=
  DecParams (dp_jwt dp) (dp_jwt_length dp) a (dp_validate_iss dp) (dp_validate_iss_length dp) (dp_validate_sub dp) (dp_validate_sub_length dp)
    (dp_validate_aud dp) (dp_validate_aud_length dp) (dp_validate_jti dp) (dp_validate_jti_length dp)
    (dp_validate_exp dp) (dp_validate_nbf dp) (dp_validate_iat dp) (dp_exp_tolerance dp) (dp_nbf_tolerance dp) (dp_iat_tolerance dp)
    (dp_verification_key dp) (dp_verification_key_length dp) (dp_validate_typ dp) (dp_validate_typ_length dp).
Lemma failed_alg e dp a vf kvs bit : failed e (with_alg dp a) vf kvs bit <-> failed e dp vf kvs bit.
Proof.
  split; (intros [H|bit' name q n s H1 H2 H3|c H1 H2|c t z H1 H2 H3 H4|b x r H1 H2 H3];
    [apply F_signature; exact H
    |eapply F_identity; [exact H1|exact H2|exact H3]
    |apply F_no_time; [destruct c; exact H1|exact H2]
    |eapply F_time; [destruct c; exact H1|exact H2|exact H3|destruct c; exact H4]
    |eapply F_typ; [exact H1|exact H2|exact H3]]).
Qed.
Lemma signature_flag_added e dp kvs v : flags_are e (with_alg dp (-1)) true kvs v -> flags_are e dp false kvs (v + 128)%N /\ N.testbit v 7 = false.
Proof.
  intros H. assert (H7 : N.testbit v 7 = false).
  { destruct (N.testbit v 7) eqn:E; [exfalso|reflexivity]. apply H in E. inversion E as [K|? ? ? ? ? K|c K1 K2 K3|c ? ? K1 K2 K3 K4 K5|]; subst.
    - discriminate.
    - cbn in K. intuition congruence.
    - destruct c; discriminate.
    - destruct c; discriminate. }
  split; [|exact H7]. intros bit.
  assert (A : forall b, N.testbit (v + 128) b = N.testbit v b || (b =? 7)%N).
  { intros b. rewrite N.add_nocarry_lxor.
    - rewrite N.lxor_spec. change 128%N with (2 ^ 7)%N. rewrite N.pow2_bits_eqb. rewrite (N.eqb_sym 7 b). destruct (N.eqb_spec b 7) as [->|]; [rewrite H7; reflexivity|].
      destruct (N.testbit v b); reflexivity.
    - apply N.bits_inj. intros b'. rewrite N.land_spec, N.bits_0. change 128%N with (2 ^ 7)%N. rewrite N.pow2_bits_eqb.
      destruct (N.eqb_spec 7 b') as [<-|]; [rewrite H7; reflexivity|apply andb_false_r]. }
  rewrite A, orb_true_iff, N.eqb_eq, (H bit), failed_alg. split.
  - intros [F| ->]; [|apply F_signature; reflexivity].
    destruct F as [F|bit name q n s H1 H2 H3|c H1 H2|c t z H1 H2 H3 H4|b x r H1 H2 H3];
    [discriminate F|eapply F_identity; eassumption|eapply F_no_time; eassumption|eapply F_time; eassumption|eapply F_typ; eassumption].
  - intros [F|bit' name q n s H1 H2 H3|c H1 H2|c t z H1 H2 H3 H4|b x r H1 H2 H3];
    [right; reflexivity|left..];
    [eapply F_identity; eassumption|eapply F_no_time; eassumption|eapply F_time; eassumption|eapply F_typ; eassumption].
Qed.

Lemma rejected p e p' e' j k j' k' h t s dp w r0 w0 v :
  let token := rfc4648_unpadded true h ++ lit "." ++ rfc4648_unpadded true t ++ lit "." ++ rfc4648_unpadded true s in
  wf w -> allocs w -> grows w -> uses_jsmn e' -> (32 <= p_size_bits p')%N -> c_text p' dp token -> (Z.of_nat (length token) <= INT_MAX)%Z ->
  supported (dp_alg dp) j' -> caller_key (dp_verification_key dp) (dp_verification_key_length dp) k' ->
  key_ok (dp_verification_key dp) (dp_verification_key_length dp) -> requests_readable e' dp ->
  signing p e j k Null 0 (rfc4648_unpadded true h ++ lit "." ++ rfc4648_unpadded true t) (Made s) ->
  rejects p e p' e' j k j' k' ->
  l8w8jwt_decode p' e' (Some (with_alg dp (-1))) true true true w = Ret r0 w0 -> dr_rc r0 = 0%Z -> dr_valid r0 = Some v ->
  exists r w1, l8w8jwt_decode p' e' (Some dp) true true true w = Ret r w1 /\ dr_rc r = 0%Z /\ dr_valid r = Some (v + 128)%N
    /\ N.testbit v 7 = false.
Proof.
  intros token Hwf Ha Hg Hu Hb Ht Hl Hj Hk Hko Hr Sg Rj D0 R0 V0.
  assert (Nu : ~ (dp_alg dp = 13%Z /\ p_eddsa p' = false)).
  { intros [E1 E2]. destruct (Rj _ _ [] Sg) as (G1 & _ & _). rewrite E1 in Hj. destruct Hj as [Hi Ei]. cbn [jwa_table In] in Hi.
    repeat (destruct Hi as [<-|Hi]; [try discriminate Ei|]); [|contradiction].
    apply (G1 800%Z). right. split; [|left; auto]. intros B. apply (G1 420%Z). left. auto. }
  destruct (C75_decode_complete p' e' (with_alg dp (-1)) token true true w) as (o & O1 & _ & O3); auto.
  cbv zeta in O3. rewrite D0 in O3. destruct o as [rc|v' es|u]; [|clear O3|discriminate O3].
  { destruct O3 as (X & w' & E). injection E as -> _. cbn in R0. contradiction. }
  assert (v' = v) as ->.
  { destruct (C75_decode_complete p' e' (with_alg dp (-1)) token true true w) as (o & O1' & O2 & O3); auto.
    rewrite <- (O2 _ O1) in O3. destruct O3 as (id & cs & w' & _ & E). rewrite D0 in E. injection E as -> _. cbn in V0. congruence. }
  assert (Nd : forall x, ~ In x2e (rfc4648_unpadded true x)) by (intros x; apply unpadded_clean).
  inversion O1 as [| |? Nt _ Run]; subst. inversion Run as [| | |msg hj ht pj pt sg vf ? C Ck Rd]; subst.
  assert (Ns : forall x, supported (dp_alg (with_alg dp (-1))) x -> False) by (intros x X; apply supported_range in X; cbn in X; lia).
  inversion Ck; subst; try (match goal with X : supported (dp_alg (with_alg _ _)) _ |- _ => destruct (Ns _ X) end);
    try (match goal with X : dp_alg _ <> _ |- _ => destruct X; reflexivity end).
  assert (P3 : parts3 token (rfc4648_unpadded true h) (rfc4648_unpadded true t) (rfc4648_unpadded true s)) by (split; [reflexivity|split; apply Nd]).
  inversion C as [| | |? ? ? ? ? ? P2|  |h' pl' s' hj' ht' pj' pt' sig st P3' D1 D2 D3]; subst; [exfalso; exact (parts_23 _ _ _ _ _ _ P2 P3)|].
  destruct (parts3_fun _ _ _ _ _ _ _ P3 P3') as (<- & <- & <-).
  assert (sig = s) as ->.
  { destruct s as [|x0 s0] eqn:Es; [apply url_b64_decodes in D3; destruct D3 as [D3 _]; destruct D3; reflexivity|rewrite <- Es in *].
    destruct (text_decodes s) as (tl & D); [rewrite Es; discriminate|]. exact (proj1 (url_fun _ _ _ _ _ D3 D)). }
  inversion Rd as [| | | | |eh ep ? F1 F2 Nt' Fl]; subst.
  destruct (signature_flag_added _ _ _ _ Fl) as [Fl' H7].
  destruct (Rj _ _ st Sg) as (G1 & G2 & G3).
  assert (De : decoding p' e' dp token (Result (v + 128) (eh ++ ep))).
  { apply De_run; [exact Nt|exact Nu|]. eapply Rn_goes; [eapply Cut_three; eassumption| |].
    - eapply Ck_bad; [exact Hj|exact Hk|exact G1|reflexivity|exact G2|exact G3].
    - apply Rd_result; [exact F1|exact F2|exact Nt'|exact Fl']. }
  destruct (C75_decode_complete p' e' dp token true true w) as (o & O1' & O2 & O3); auto.
  rewrite <- (O2 _ De) in O3. destruct O3 as (id & cs & w' & _ & E). cbv zeta in E. eexists. exists w'. split; [exact E|]. auto.
Qed.

(** ** What a test is right to expect *)
(** Texts of characters that come back from JSON as they went in (C20), claims that hide no registered one. *)
Definition text_ok (s : string) : bool := forallb (fun c => negb (is_nul c) && (b2n c <? 128)%N && survivesb c) (lit s).
Definition opt_ok (o : option string) : bool := match o with Some s => text_ok s | None => true end.
Definition checked_names : list bytes := [lit "iss"; lit "sub"; lit "aud"; lit "jti"; lit "exp"; lit "nbf"; lit "iat"].
Definition claim_ok (kv : string * string) : bool :=
  text_ok (fst kv) && text_ok (snd kv) && negb (length (lit (fst kv)) =? 0)%nat
  && negb (existsb (fun n => prefixb n (lit (fst kv))) checked_names).
Definition size (s : string) : N := N.of_nat (length (lit s)).
Definition opt_size (o : option string) : N := match o with Some s => size s | None => 0 end.
Fixpoint claims_size (l : list (string * string)) : N :=
  match l with [] => 0 | kv :: l => size (fst kv) + size (snd kv) + 1 + claims_size l end.
Definition issue_size (i : issue) : N :=
  claims_size (i_header i) + claims_size (i_payload i) + opt_size (i_sub i) + opt_size (i_iss i) + opt_size (i_aud i) + opt_size (i_jti i).
(** A time goes with additional claims in the payload: without one, a comma is missing (C03). *)
Definition issue_ok (i : issue) : bool :=
  (0 <=? i_alg i)%Z && (i_alg i <=? 13)%Z && opt_ok (i_sub i) && opt_ok (i_iss i) && opt_ok (i_aud i) && opt_ok (i_jti i)
  && forallb claim_ok (i_header i) && forallb claim_ok (i_payload i)
  && match i_payload i, i_iat i, i_nbf i, i_exp i with _ :: _, None, None, None => false | _, _, _, _ => true end
  && (issue_size i <=? 1000000)%N.
Definition want_ok (o : option string) : bool := match o with Some s => forallb (fun c => negb (is_nul c)) (lit s) | None => true end.
Definition tolerance_ok (o : option N) : bool := (tolerance o <=? 2 ^ 61)%N.
Definition asking_ok (a : asking) : bool :=
  want_ok (a_sub a) && want_ok (a_iss a) && want_ok (a_aud a) && want_ok (a_jti a) && opt_ok (a_typ a)
  && tolerance_ok (a_exp a) && tolerance_ok (a_nbf a) && tolerance_ok (a_iat a).
Definition time_ok (t : Z) (o : option Z) : Prop := match o with Some d => (0 < t + d <= I64_MAX)%Z | None => True end.
Definition clock_ok (c : clock) (i : issue) : Prop := time_ok (at_iat c) (i_iat i) /\ time_ok (at_nbf c) (i_nbf i) /\ time_ok (at_exp c) (i_exp i).
Definition key_bytes (keys : string -> bytes) (k : key_ref) : bytes :=
  key_text keys k ++ match k with NamedNul _ => [x00] | _ => [] end.
Definition key_fits (keys : string -> bytes) (k : key_ref) : Prop := (0 < length (key_bytes keys k))%nat /\ (N.of_nat (length (key_bytes keys k)) < 8192)%N.

(** The validation result, from what was issued, what is asked, and when. *)
Definition misses (want issued : option string) : bool :=
  match want with
  | None => false
  | Some s => match issued with Some s' => negb (bytes_eqb (lit s) (lit s')) | None => true end
  end.
Definition untimely (late : Z -> Z -> bool) (want : option N) (t : Z) (issued : option Z) : bool :=
  match want with
  | None => false
  | Some tol => match issued with Some d => late (Z.of_N tol) (t + d)%Z | None => true end
  end.
Definition other_type (want : option string) : bool :=
  match want with Some s => negb (bytes_eqb (map ascii_lower (firstn 3 (lit s))) (lit "jwt")) | None => false end.
Definition expected (i : issue) (c : clock) (a : asking) (now : Z) (verified : bool) : N :=
  flag (misses (a_iss a) (i_iss i)) 1 + flag (misses (a_sub a) (i_sub i)) 2
  + flag (misses (a_aud a) (i_aud i)) 4 + flag (misses (a_jti a) (i_jti i)) 8
  + flag (untimely (fun tol t => (t <? now - tol)%Z) (a_exp a) (at_exp c) (i_exp i)) 16
  + flag (untimely (fun tol t => (now + tol <? t)%Z) (a_nbf a) (at_nbf c) (i_nbf i)) 32
  + flag (untimely (fun tol t => (now + tol <? t)%Z) (a_iat a) (at_iat c) (i_iat i)) 64
  + flag (negb verified) 128 + flag (other_type (a_typ a)) 256.

(** *** Lemmas *)
Lemma lit_text s : text_ok s = true -> no_nul (lit s) /\ Forall (fun c => (b2n c < 128)%N) (lit s) /\ Forall survives (lit s).
Proof.
  intros H. unfold text_ok in H. rewrite forallb_forall in H.
  assert (G : forall c, In c (lit s) -> is_nul c = false /\ (b2n c < 128)%N /\ survives c).
  { intros c Hc. apply H in Hc. apply andb_true_iff in Hc as [Hc H3]. apply andb_true_iff in Hc as [H1 H2].
    split; [destruct (is_nul c); [discriminate|reflexivity]|]. split; [lia|apply survivesb_spec; exact H3]. }
  split; [intros Hi; destruct (G _ Hi) as [C _]; discriminate C|]. split; apply Forall_forall; intros c Hc; apply G, Hc.
Qed.
Lemma literal_at s n : text_ok s = true -> n = 0%N \/ n = literal_length s -> given (literal s) n (lit s).
Proof.
  intros H Hn. apply lit_text in H as [H _]. unfold literal, clit. cbn [given]. destruct (N.eqb_spec n 0) as [->|E].
  - exists []. auto.
  - destruct Hn as [->| ->]; [contradiction|]. unfold literal_length. rewrite app_length. split; [lia|]. rewrite Nat2N.id. symmetry. apply firstn_app_exact.
Qed.
Lemma opt_given o s : opt_ok o = true -> given (literal_or_null o) 0 s -> exists s', o = Some s' /\ s = lit s' /\ text_ok s' = true.
Proof.
  destruct o as [s'|]; cbn [literal_or_null opt_ok]; [|intros _ []]. intros H G. exists s'. split; [reflexivity|]. split; [|exact H].
  eapply given_det; [exact G|]. apply literal_at; auto.
Qed.
Lemma opt_expectable o : opt_ok o = true -> expectable (literal_or_null o) 0.
Proof. destruct o as [s|]; cbn; [|left; reflexivity]. intros H. right. exists (lit s). apply literal_at; auto. Qed.
Lemma literal_want s : want_ok (Some s) = true -> given (literal s) 0 (lit s).
Proof.
  cbn [want_ok]. intros H. rewrite forallb_forall in H. exists []. split; [reflexivity|]. intros Hin. specialize (H _ Hin). discriminate H.
Qed.
Lemma want_expectable o : want_ok o = true -> expectable (literal_or_null o) 0.
Proof. destruct o as [s|]; cbn [literal_or_null]; [|left; reflexivity]. intros H. right. exists (lit s). apply literal_want. exact H. Qed.
Lemma opt_bytes o : opt_ok o = true -> text_bytes (literal_or_null o) 0 = opt_size o.
Proof. destruct o as [s|]; [|reflexivity]. cbn [opt_ok literal_or_null opt_size]. intros H. rewrite (given_bytes _ _ (lit s)); [reflexivity|apply literal_at; auto]. Qed.
Lemma opt_ascii o : opt_ok o = true -> ascii_text (literal_or_null o) 0.
Proof. intros H v G. destruct (opt_given _ _ H G) as (s & _ & -> & T). apply (lit_text s T). Qed.
Lemma key_is_bytes keys k : caller_key (key_ptr keys k) (key_len keys k) (key_bytes keys k).
Proof.
  exists None, (key_text keys k ++ [x00]). split; [reflexivity|]. unfold key_len, key_bytes. destruct k; cbn [key_text].
  - rewrite app_length, N.add_0_r, app_nil_r, Nat2N.id, firstn_app_exact. split; [lia|reflexivity].
  - rewrite app_length. cbn [length]. split; [lia|]. rewrite firstn_all2; [reflexivity|]. rewrite app_length. cbn [length]. lia.
  - rewrite app_length, N.add_0_r, app_nil_r, Nat2N.id, firstn_app_exact. split; [lia|reflexivity].
Qed.
Lemma key_len_bytes keys k : key_len keys k = N.of_nat (length (key_bytes keys k)).
Proof. unfold key_len, key_bytes. rewrite app_length. destruct k; cbn [length]; lia. Qed.
Lemma claims_keyed l : keyed_claims (claims_ptr l) (N.of_nat (length l)) = test_claims l.
Proof.
  destruct l as [|kv l]; [reflexivity|]. unfold claims_ptr, keyed_claims. set (l' := kv :: l). clearbody l'. rewrite Nat2N.id.
  replace (length l') with (length (test_claims l')) by apply map_length. rewrite firstn_all.
  unfold test_claims. induction l' as [|x l' IH]; [reflexivity|]. cbn [map filter]. cbn [example_claim c_key]. unfold literal at 1. cbn [is_null negb]. f_equal. exact IH.
Qed.
Lemma test_claim_in l c : forallb claim_ok l = true -> In c (test_claims l) ->
  exists k v, claim_ok (k, v) = true /\ c = example_claim k v L8W8JWT_CLAIM_TYPE_STRING
    /\ given (c_key c) (c_key_length c) (lit k) /\ given (c_value c) (c_value_length c) (lit v).
Proof.
  intros H Hc. apply in_map_iff in Hc as ([k v] & <- & Hi). rewrite forallb_forall in H. specialize (H _ Hi). exists k, v. split; [exact H|].
  split; [reflexivity|]. unfold claim_ok in H. cbn [fst snd] in *. apply andb_true_iff in H as [H _]. apply andb_true_iff in H as [H _]. apply andb_true_iff in H as [H1 H2].
  split; apply literal_at; auto.
Qed.
Lemma claims_are_given l : forallb claim_ok l = true -> claims_given (claims_ptr l) (N.of_nat (length l)).
Proof.
  intros H. destruct l as [|kv l]; [exact I|]. unfold claims_ptr, claims_given. set (l' := kv :: l) in *. clearbody l'.
  replace (length l') with (length (test_claims l')) by apply map_length. split; [lia|]. rewrite Nat2N.id, firstn_all.
  apply Forall_forall. intros c Hc. destruct (test_claim_in _ _ H Hc) as (k & v & _ & _ & G1 & G2). right. eauto.
Qed.
Lemma claims_ascii l : forallb claim_ok l = true -> Forall ascii_claim (test_claims l).
Proof.
  intros H. apply Forall_forall. intros c Hc. destruct (test_claim_in _ _ H Hc) as (k & v & Ok & _ & G1 & G2).
  unfold claim_ok in Ok. cbn [fst snd] in Ok. apply andb_true_iff in Ok as [Ok _]. apply andb_true_iff in Ok as [Ok _]. apply andb_true_iff in Ok as [K1 K2].
  split; intros x Gx; [rewrite (given_det _ _ _ _ Gx G1); apply (lit_text k K1)|rewrite (given_det _ _ _ _ Gx G2); apply (lit_text v K2)].
Qed.
Lemma claims_bytes_size l : forallb claim_ok l = true -> array_bytes (claims_ptr l) (N.of_nat (length l)) = claims_size l.
Proof.
  intros H. assert (E : array_bytes (claims_ptr l) (N.of_nat (length l)) = claims_bytes (test_claims l)).
  { destruct l as [|kv l]; [reflexivity|]. unfold claims_ptr, array_bytes. set (l' := kv :: l) in *. clearbody l'.
    rewrite Nat2N.id. replace (length l') with (length (test_claims l')) by apply map_length. rewrite firstn_all. reflexivity. }
  rewrite E. clear E. induction l as [|kv l IH]; [reflexivity|]. cbn [test_claims map claims_bytes claims_size].
  change (map _ l) with (test_claims l). cbn [forallb] in H. apply andb_true_iff in H as [H1 H2]. rewrite (IH H2).
  unfold claim_ok in H1. apply andb_true_iff in H1 as [H1 _]. apply andb_true_iff in H1 as [H1 _]. apply andb_true_iff in H1 as [K1 K2].
  unfold claim_bytes. cbn [example_claim c_key c_key_length c_value c_value_length].
  rewrite (given_bytes _ _ _ (literal_at _ _ K1 (or_intror eq_refl))), (given_bytes _ _ _ (literal_at _ _ K2 (or_intror eq_refl))). reflexivity.
Qed.
Lemma claims_unshadowed l name : forallb claim_ok l = true -> In name checked_names -> unshadowed name (test_claims l).
Proof.
  intros H Hn c k rest Hc Hk ->. destruct (test_claim_in _ _ H Hc) as (k' & v & Ok & _ & G1 & _).
  pose proof (given_det _ _ _ _ Hk G1) as E. unfold claim_ok in Ok. apply andb_true_iff in Ok as [_ Ok]. cbn [fst] in Ok. rewrite <- E in Ok.
  assert (X : existsb (fun n => prefixb n (name ++ rest)) checked_names = true); [|rewrite X in Ok; discriminate Ok].
  apply existsb_exists. exists name. split; [exact Hn|]. apply prefixb_spec. eauto.
Qed.
Lemma claims_strings l : raw_values_ok (test_claims l).
Proof. apply Forall_forall. intros c Hc. apply in_map_iff in Hc as (kv & <- & _). intros C. destruct C. reflexivity. Qed.
Lemma claims_readable l js : PropRoundTrip.readable js (test_claims l).
Proof.
  right. intros cs' c E. left. assert (Hc : In c (test_claims l)) by (rewrite E; apply in_app_iff; right; left; reflexivity).
  apply in_map_iff in Hc as (kv & <- & _). reflexivity.
Qed.

(** *** Issuing and asking *)
Lemma issue_ok_inv i : issue_ok i = true ->
  (0 <= i_alg i <= 13)%Z /\ opt_ok (i_sub i) = true /\ opt_ok (i_iss i) = true /\ opt_ok (i_aud i) = true /\ opt_ok (i_jti i) = true
  /\ forallb claim_ok (i_header i) = true /\ forallb claim_ok (i_payload i) = true
  /\ (i_payload i <> [] -> i_iat i <> None \/ i_nbf i <> None \/ i_exp i <> None) /\ (issue_size i <= 1000000)%N.
Proof.
  unfold issue_ok. intros H. repeat (apply andb_true_iff in H as [H ?]). repeat split; auto; try lia.
  intros Hp. destruct (i_payload i), (i_iat i), (i_nbf i), (i_exp i); try discriminate; try contradiction;
    (left; discriminate) || (right; left; discriminate) || (right; right; discriminate).
Qed.
Lemma asking_ok_inv a : asking_ok a = true ->
  want_ok (a_sub a) = true /\ want_ok (a_iss a) = true /\ want_ok (a_aud a) = true /\ want_ok (a_jti a) = true /\ opt_ok (a_typ a) = true
  /\ (tolerance (a_exp a) <= 2 ^ 61)%N /\ (tolerance (a_nbf a) <= 2 ^ 61)%N /\ (tolerance (a_iat a) <= 2 ^ 61)%N.
Proof. unfold asking_ok, tolerance_ok. intros H. repeat (apply andb_true_iff in H as [H ?]). repeat split; auto; lia. Qed.
Lemma request_size keys c i : issue_ok i = true -> request_bytes (issue_params keys c i) = issue_size i.
Proof.
  intros H. apply issue_ok_inv in H as (_ & H1 & H2 & H3 & H4 & H5 & H6 & _). unfold request_bytes, issue_size, issue_params.
  cbn [ep_header_claims ep_header_claims_count ep_payload_claims ep_payload_claims_count ep_sub ep_sub_length ep_iss ep_iss_length ep_aud ep_aud_length ep_jti ep_jti_length
    l8w8jwt_encoding_params_init].
  rewrite (claims_bytes_size _ H5), (claims_bytes_size _ H6), (opt_bytes _ H1), (opt_bytes _ H2), (opt_bytes _ H3), (opt_bytes _ H4). reflexivity.
Qed.
Lemma issue_ascii keys c i : issue_ok i = true -> ascii_request (issue_params keys c i).
Proof.
  intros Hi. apply issue_ok_inv in Hi as (_ & H1 & H2 & H3 & H4 & H5 & H6 & _ & Hz).
  unfold ascii_request, issue_params. cbn [ep_header_claims ep_header_claims_count ep_payload_claims ep_payload_claims_count ep_sub ep_sub_length ep_iss ep_iss_length
      ep_aud ep_aud_length ep_jti ep_jti_length l8w8jwt_encoding_params_init]. rewrite !claims_keyed. auto 8 using claims_ascii, opt_ascii.
Qed.
Lemma issue_given keys c i : issue_ok i = true -> enc_given (issue_params keys c i).
Proof.
  intros Hi. apply issue_ok_inv in Hi as (_ & H1 & H2 & H3 & H4 & H5 & H6 & _ & Hz).
  split; [apply claims_are_given; exact H5|]. split; [apply claims_are_given; exact H6|].
  split; [apply opt_expectable; exact H1|]. split; [apply opt_expectable; exact H2|]. split; [apply opt_expectable; exact H3|].
  split; [apply opt_expectable; exact H4|]. right. exists (key_bytes keys (i_key i)). apply key_is_bytes.
Qed.
Lemma issue_text p keys c i j o : (32 <= p_size_bits p)%N -> issue_ok i = true -> supported (i_alg i) j ->
  to_be_signed p (issue_params keys c i) j o -> exists t, o = Made t.
Proof.
  intros Hb Hi Hj H. pose proof (request_size keys c _ Hi) as Rs. pose proof (issue_ascii keys c i Hi) as A.
  apply issue_ok_inv in Hi as (_ & _ & _ & _ & _ & _ & _ & _ & Hz).
  destruct (to_be_signed_made p (issue_params keys c i) j Hb Hj A ltac:(lia) o H) as (h & t & ->). eauto.
Qed.
Lemma issued p e keys c i j w : (32 <= p_size_bits p)%N -> wf w -> allocs w -> grows w ->
  issue_ok i = true -> key_fits keys (i_key i) -> supported (i_alg i) j -> e_seed_ok e = true -> signs p e j (key_bytes keys (i_key i)) Null 0 ->
  exists id h t s w', l8w8jwt_encode p e (Some (issue_params keys c i)) w
    = Ret (EncRes 0 (Some (Ptr (Some id) ((rfc4648_unpadded true h ++ lit "." ++ rfc4648_unpadded true t ++ lit "." ++ rfc4648_unpadded true s) ++ [x00])))
             (Some (N.of_nat (length (rfc4648_unpadded true h ++ lit "." ++ rfc4648_unpadded true t ++ lit "." ++ rfc4648_unpadded true s))))) w'
    /\ signing p e j (key_bytes keys (i_key i)) Null 0 (rfc4648_unpadded true h ++ lit "." ++ rfc4648_unpadded true t) (Made s).
Proof.
  intros Hb Hwf Ha Hg Hi (K1 & K2) Hj Sd Sg. pose proof (request_size keys c _ Hi) as Rs.
  apply issue_ok_inv in Hi as (_ & H1 & H2 & H3 & H4 & H5 & H6 & _ & Hz).
  apply (encode_succeeds p e (issue_params keys c i) j Hb Hj); auto.
  - unfold ascii_request, issue_params. cbn [ep_header_claims ep_header_claims_count ep_payload_claims ep_payload_claims_count ep_sub ep_sub_length ep_iss ep_iss_length
      ep_aud ep_aud_length ep_jti ep_jti_length l8w8jwt_encoding_params_init]. rewrite !claims_keyed. auto 8 using claims_ascii, opt_ascii.
  - lia.
  - split; [apply claims_are_given; exact H5|]. split; [apply claims_are_given; exact H6|].
    split; [apply opt_expectable; exact H1|]. split; [apply opt_expectable; exact H2|]. split; [apply opt_expectable; exact H3|].
    split; [apply opt_expectable; exact H4|]. right. exists (key_bytes keys (i_key i)). apply key_is_bytes.
  - intros [N|[N|N]]; discriminate N.
  - unfold bad_args, issue_params. cbn [ep_secret_key_length ep_payload_claims ep_payload_claims_count ep_header_claims ep_header_claims_count].
    rewrite key_len_bytes. intros [N|[N|[[N1 N2]|[N1 N2]]]]; [lia|lia|destruct (i_payload i)|destruct (i_header i)]; cbn in N1, N2; try contradiction; discriminate N2.
  - apply key_is_bytes.
Qed.

(** Whether the pair of keys is one of which the signature verifies, or one of which none does. *)
Definition agrees (p : platform) (e : env) (p' : platform) (e' : env) (keys : string -> bytes) (i : issue) (a : asking) (verified : bool) : Prop :=
  let k := key_bytes keys (i_key i) in let k' := key_bytes keys (a_key a) in
  forall j, supported (i_alg i) j ->
    if verified
    then a_alg a = i_alg i /\ key_usable p' e' j k' /\ same_hashes e e' /\ matching_keys e e' j k Null 0 k'
    else exists j', supported (a_alg a) j' /\ rejects p e p' e' j k j' k'.

Lemma asking_readable p e keys jwt n a : asking_ok a = true -> (0 <= e_time e <= 2 ^ 62)%Z -> requests_ok p e (asking_params keys jwt n a).
Proof.
  intros H Ht. apply asking_ok_inv in H as (H1 & H2 & H3 & H4 & H5 & T1 & T2 & T3). unfold requests_ok, asking_params.
  cbn [dp_validate_sub dp_validate_sub_length dp_validate_aud dp_validate_aud_length dp_validate_iss dp_validate_iss_length
       dp_validate_jti dp_validate_jti_length l8w8jwt_decoding_params_init].
  split; [apply want_expectable; exact H1|]. split; [apply want_expectable; exact H3|]. split; [apply want_expectable; exact H2|].
  split; [apply want_expectable; exact H4|]. split.
  - unfold times_ok. cbn [dp_validate_exp dp_exp_tolerance dp_validate_nbf dp_nbf_tolerance dp_validate_iat dp_iat_tolerance].
    change (2 ^ 61)%N with 2305843009213693952%N in *. change (2 ^ 62)%Z with 4611686018427387904%Z in *. unfold I64_MIN, I64_MAX. lia.
  - unfold typ_ok. cbn [dp_validate_typ]. destruct (a_typ a) as [s|]; cbn [literal_or_null]; [right|left; reflexivity].
    cbn [opt_ok] in H5. apply lit_text in H5 as (N1 & N2 & _). exists None, (lit s), []. split; [reflexivity|]. split; [exact N1|].
    eapply Forall_impl; [|exact N2]. intros x Hx. cbn beta in Hx. intros _. exact Hx.
Qed.
Lemma requests_ok_readable p e dp : requests_ok p e dp -> requests_readable e dp.
Proof.
  intros (R1 & R2 & R3 & R4 & R5 & R6). split; [exact R1|]. split; [exact R2|]. split; [exact R3|]. split; [exact R4|]. split; [exact R5|].
  destruct R6 as [R6|(b & s & r & R6 & N & _)]; [left; exact R6|right; exists b, s, r; auto].
Qed.
