(** * Property C87: the project's test suite as a whole *)
From Verif Require Import Base BaseProofs HeapProofs Util UtilProofs Claim Base64 SpecB64
  Base64EncProofs Base64EncApi Base64DecProofs Base64Api Jsmn Env Encode Decode SpecJson SpecJwa ClaimProofs UnescapeProofs
  EncodeProofs SignProofs EncodeTotal SpecEnc JsonProofs PropEncode DecodeProofs DecodeInv JsmnProofs ParseProofs
  PropClaim ReadProofs ValidateProofs JsmnJson JsmnSize PropVerify PropValidate PropLeak PropJson DecodeTotal DecodeOk PropSafe
  PropRoundTrip PropIssued PropTime Examples PropEncMemory PropPrograms Walk Exact Complete PropComplete
  EncComplete PropEncComplete PropUnclosed Tests TestProofs TestVerdict PropTests TestBench.
From Coq Require Import ZifyBool ZifyNat ZifyN.
Ltac Zify.zify_post_hook ::= Z.div_mod_to_equations.
Local Opaque L8W8JWT_MAX_KEY_SIZE SIGBUF.

(** ** Examples *)
Lemma bench_ready : test_bench pe bench we.
Proof.
  split; [vm_compute; discriminate|]. split; [exact we_wf|]. split; [intros i; reflexivity|]. split; [intros i; reflexivity|].
  split; [reflexivity|]. split; [intros js cap; reflexivity|exact bench_checknum].
Qed.
Lemma suite_fits_bench t : In t suite -> fits pe bench ring t.
Proof. intros H. apply bench_fits. revert t H. apply forallb_forall, suite_fits. Qed.
(** There is a backend with a keyring for which the theorems speak about every test of the suite. *)
Example C87_backend :
  test_bench pe bench we /\ Forall (fits pe bench ring) suite
  /\ (forall t, In t suite -> exists w', run_test pe bench ring (delayed 1000000 2) t we = Ret true w')
  /\ length suite = 56%nat.
Proof.
  split; [exact bench_ready|]. split; [apply Forall_forall; exact suite_fits_bench|]. split; [|reflexivity]. intros t Ht.
  assert (P : plausible 1000000) by (split; [reflexivity|vm_compute; discriminate]).
  destruct (C87_suite_passes pe bench ring (delayed 1000000 2) t we bench_ready Ht (suite_fits_bench t Ht) P P P) as (w' & R & _); [|eauto].
  intros n x [<-|[<-|[<-|[]]]]; cbn; lia.
Qed.

(** ** What goes wrong *)
(** Two of the tests fail when decoding comes half a minute after issuing. *)
Theorem C87_passes_whenever_refuted :
  exists p e keys r d w, test_bench p e w /\ (forall t, In t suite -> fits p e keys t) /\ plausible r /\ (0 <= d)%Z
    /\ (exists w', run_test p e keys (delayed r d) valid_nbf_tolerance w = Ret false w')
    /\ (exists w', run_test p e keys (delayed r d) valid_iat_tolerance w = Ret false w')
    /\ In valid_nbf_tolerance suite /\ In valid_iat_tolerance suite.
Proof.
  assert (P : plausible 1000000) by (split; [reflexivity|vm_compute; discriminate]).
  assert (In1 : In valid_nbf_tolerance suite) by (apply (nth_error_In suite 49); reflexivity).
  assert (In2 : In valid_iat_tolerance suite) by (apply (nth_error_In suite 50); reflexivity).
  exists pe, bench, ring, 1000000%Z, 30%Z, we. split; [exact bench_ready|]. split; [exact suite_fits_bench|]. split; [exact P|]. split; [lia|].
  assert (G : forall t lo hi, In (t, (lo, Some hi)) suite_windows -> (hi < 30)%Z -> In t suite -> exists w', run_test pe bench ring (delayed 1000000 30) t we = Ret false w').
  { intros t lo hi Hw Hh Ht. destruct (C87_suite_in_time pe bench ring t _ 1000000 30 we bench_ready Hw (suite_fits_bench t Ht) P) as (ok & w' & R & E); [cbn; lia|].
    exists w'. rewrite R. f_equal. destruct ok; [|reflexivity]. destruct (proj1 E eq_refl) as [_ C]. cbn [snd] in C. lia. }
  split; [apply (G _ (Some (-60)%Z) 29%Z); [apply (nth_error_In suite_windows 49); reflexivity|lia|exact In1]|].
  split; [apply (G _ (Some (-40)%Z) 29%Z); [apply (nth_error_In suite_windows 50); reflexivity|lia|exact In2]|auto].
Qed.
Print Assumptions C87_passes_whenever_refuted.
(** Three of the tests ask for the claims and do not free them. *)
Theorem C87_frees_refuted :
  exists p e keys c w, test_bench p e w /\ (forall t, In t suite -> fits p e keys t) /\ soon c 29
    /\ forall t, In t [invalid_signature_hs256; invalid_signature_hs384; invalid_signature_hs512] ->
       In t suite /\ exists w', run_test p e keys c t w = Ret true w' /\ ~ same_heap w w'.
Proof.
  assert (P : plausible 1000000) by (split; [reflexivity|vm_compute; discriminate]).
  assert (S : soon (delayed 1000000 2) 29) by (intros n x [<-|[<-|[<-|[]]]]; cbn; lia).
  exists pe, bench, ring, (delayed 1000000 2), we. split; [exact bench_ready|]. split; [exact suite_fits_bench|]. split; [exact S|].
  intros t Ht. assert (In1 : In t suite) by (cbn [In] in Ht; destruct Ht as [<-|[<-|[<-|[]]]]; cbn; auto).
  split; [exact In1|]. destruct (C87_suite_passes pe bench ring (delayed 1000000 2) t we bench_ready In1 (suite_fits_bench t In1) P P P S) as (w' & R & H).
  exists w'. split; [exact R|]. intros C. pose proof (proj1 H C) as K. cbn [In] in Ht.
  destruct Ht as [<-|[<-|[<-|[]]]]; specialize (K _ (or_introl eq_refl)); discriminate K.
Qed.
Print Assumptions C87_frees_refuted.

(** *** The wrong algorithm *)
Definition right_asking (a : asking) (alg : Z) : asking :=
  Asking alg (a_key a) (a_sub a) (a_iss a) (a_aud a) (a_jti a) (a_exp a) (a_nbf a) (a_iat a) (a_typ a) (a_claims a) (a_want a).
Lemma block_length s third tail : url_decodes (rfc4648_unpadded true s) third tail -> length (third ++ tail) = dec_size (length (rfc4648_unpadded true s)).
Proof.
  intros H. apply url_b64_decodes in H as (_ & Hb & lf & Hd & ->). pose proof (dec_room _ _ _ _ _ eq_refl Hb Hd) as L.
  assert (E : syms true (rfc4648_unpadded true s) = rfc4648_unpadded true s) by apply (syms_text true s). rewrite E in *.
  rewrite !app_length, repeat_length. lia.
Qed.
(** The test that decodes a token with HMAC-SHA-256 as one with HMAC-SHA-384 reads past the end of the
    decoded signature, with every backend that computes HMACs. *)
Theorem C87_wrong_alg_undefined :
  forall p e keys c w, test_bench p e w -> (forall h k m, e_hmac e h k m <> None) ->
    plausible (at_iat c) -> plausible (at_exp c) -> sane c ->
    run_test p e keys c invalid_signature_because_wrong_alg_type w = Undef OOBRead.
Proof.
  intros p e keys c w (B1 & B2 & B3 & B4 & B5 & B6 & B7) Hh P1 P3 Sn.
  set (t := invalid_signature_because_wrong_alg_type). set (i := t_issue t).
  set (a := Asking L8W8JWT_ALG_HS384 (Inline "HMAC secret key 42") None None None None None None None None false (Flagged L8W8JWT_SIGNATURE_VERIFICATION_FAILURE)).
  set (a2 := right_asking a 0). set (k := key_bytes keys (Inline "HMAC secret key 42")).
  assert (Hi : issue_ok i = true) by (vm_compute; reflexivity). assert (Ha2 : asking_ok a2 = true) by (vm_compute; reflexivity).
  assert (Kf : key_fits keys (Inline "HMAC secret key 42")) by (split; vm_compute; [lia|reflexivity]).
  assert (Hc : clock_ok c i).
  { unfold plausible in *. change (2 ^ 61)%Z with 2305843009213693952%Z in *. split; [|split]; unfold time_ok, I64_MAX; cbn; lia || exact I. }
  set (j0 := Jwa 0 (lit "HS256") HS SHA256). set (j1 := Jwa 1 (lit "HS384") HS SHA384).
  assert (Hj0 : supported (i_alg i) j0) by (split; [left; reflexivity|reflexivity]).
  assert (Hj1 : supported (a_alg a) j1) by (split; [right; left; reflexivity|reflexivity]).
  assert (Hmac : forall h m, exists x, e_hmac e h (hmac_key k) m = Some x).
  { intros h m. specialize (Hh h (hmac_key k) m). destruct (e_hmac e h (hmac_key k) m); [eauto|contradiction]. }
  assert (Sgn : signs p e j0 k Null 0).
  { intros m. destruct (Hmac SHA256 m) as (x & Ex). exists (fit 32 x). exact (HS_sign e j0 k m x Ex). }
  destruct (issued p e keys c i j0 w B1 B2 B3 B4 Hi Kf Hj0 B5 Sgn) as (id & h & pt & s & w1 & E & Sg).
  assert (Ls : length s = 32%nat).
  { inversion Sg as [|m Em Es]. rewrite fit_length. reflexivity. }
  set (token := rfc4648_unpadded true h ++ lit "." ++ rfc4648_unpadded true pt ++ lit "." ++ rfc4648_unpadded true s) in *.
  destruct (encode_inv p e _ _ _ _ ltac:(lia) B2 E) as [(C & _)|(_ & _ & id' & t' & Eo & _ & Rg & Lt & Lv & _)]; [destruct C; reflexivity|].
  assert (id' = id) as -> by (cbn [er_out] in Eo; congruence).
  assert (Hwf1 : wf w1). { intros y Hy. rewrite Lv. destruct (Nat.eqb_spec y id); [lia|]. apply B2. destruct Lt as (_ & _ & _ & Ln & _). lia. }
  pose proof (allocs_later _ _ Lt B3) as Ha1. pose proof (grows_later _ _ Lt B4) as Hg1.
  set (e' := with_clock e (at_asking c 0)).
  assert (Nc : ~ certificate k).
  { intros (x & y & C). apply (f_equal (@length byte)) in C. rewrite !app_length in C. cbn in C. lia. }
  destruct (issued_verdict p e keys c i j0 w id h pt s w1 B1 B2 B3 B4 Hi Hc Hj0 E Sg p e' a2 true w1 B1 Hwf1 Ha1 Hg1 B6 B7 Ha2 Kf (Sn 0%nat))
    as (r & w2 & D & R0 & _).
  { unfold agrees. cbv zeta. intros j Hj. assert (j = j0) as -> by (eapply supported_fun; eassumption). split; [reflexivity|].
    split; [split; [intros C; contradiction|exact I]|]. split; [split; reflexivity|reflexivity]. }
  fold token in D. set (q := Ptr (Some id) (token ++ [x00])) in *. set (n := N.of_nat (length token)) in *.
  destruct (C72_token_length p e _ w _ _ _ _ ltac:(lia) E eq_refl eq_refl) as [Ln _]. rewrite (request_size keys c _ Hi) in Ln.
  assert (Sz : issue_size i = 0%N) by (vm_compute; reflexivity). rewrite Sz in Ln.
  assert (Hl : (Z.of_nat (length token) <= INT_MAX)%Z) by (unfold INT_MAX; lia).
  assert (Ct : forall b, c_text p (asking_params keys q n b) token).
  { intros b. split; [exists (Some id), []; reflexivity|]. split.
    - unfold token, no_nul. rewrite !in_app_iff. intros [K3|[[K3|[]]|[K3|[[K3|[]]|K3]]]]; try discriminate K3; revert K3; apply unpadded_clean.
    - split; [reflexivity|]. assert (X : (2 ^ 32 <= size_mod p)%N) by (unfold size_mod; apply N.pow_le_mono_r; lia). change (2 ^ 32)%N with 4294967296%N in X. lia. }
  assert (Ko : key_ok (key_ptr keys (Inline "HMAC secret key 42")) (key_len keys (Inline "HMAC secret key 42"))).
  { destruct Kf as [F1 F2]. split; [rewrite key_len_bytes; lia|]. exists k. split; [apply key_is_bytes|left; rewrite key_len_bytes; exact F2]. }
  assert (Rd : forall b, asking_ok b = true -> requests_readable e' (asking_params keys q n b))
    by (intros b Hb; apply (requests_ok_readable p), asking_readable; [exact Hb|exact (Sn 0%nat)]).
  assert (Cu : exists hj ht pj ptl st, url_decodes (rfc4648_unpadded true h) hj ht /\ url_decodes (rfc4648_unpadded true pt) pj ptl /\ exists s', url_decodes (rfc4648_unpadded true s) s' st).
  { destruct (C75_decode_complete p e' (asking_params keys q n a2) token false false w1 Hwf1 Ha1 Hg1 B6 B1 (Ct a2) Hl Ko (Rd a2 Ha2) (fun H => H)) as (o & O1 & _ & O3).
    change (a_claims a2) with false in D. rewrite D in O3. destruct o as [rc|v es|u]; [destruct O3 as (Nz & w' & C); exfalso; apply Nz; rewrite <- R0; assert (X : r = DecRes rc (stored rc) None) by congruence; rewrite X; reflexivity| |discriminate O3].
    assert (Q3 : parts3 token (rfc4648_unpadded true h) (rfc4648_unpadded true pt) (rfc4648_unpadded true s))
      by (split; [reflexivity|split; apply unpadded_clean]).
    assert (Cutt : exists msg hj ht pj pt' sg, cut (asking_params keys q n a2) token (Parts msg hj ht pj pt' sg)).
    { inversion O1 as [| |o' _ _ Rn]. inversion Rn; subst; eauto 8. }
    destruct Cutt as (msg & hj & ht & pj & pt' & sg & Cutt). inversion Cutt as [| | |h' pl' hj' ht' pj' pt2 P2 Al| |h' pl' s' hj' ht' pj' pt2 sig st P3' D1 D2 D3]; subst.
    - discriminate Al.
    - destruct (parts3_fun _ _ _ _ _ _ _ Q3 P3') as (<- & <- & <-). exists hj, ht, pj, pt', st. eauto. }
  destruct Cu as (hj & ht & pj & ptl & st & D1 & D2 & s' & D3).
  unfold run_test. change (t_issue t) with i. unfold mbind at 1. rewrite E. cbn [er_rc er_out er_len]. change (0 =? L8W8JWT_SUCCESS)%Z with true. cbv iota.
  change (t_askings t) with [a]. unfold mbind at 1. cbn [ask_all]. unfold ask. unfold mbind at 1. unfold mbind at 1. fold e' q n.
  destruct (C75_decode_complete p e' (asking_params keys q n a) token false false w1 Hwf1 Ha1 Hg1 B6 B1 (Ct a) Hl Ko (Rd a eq_refl) (fun H => H)) as (o & _ & O2 & O3).
  assert (Dc : decoding p e' (asking_params keys q n a) token (Harm OOBRead)).
  { apply De_run; [intros C; unfold token in C; destruct (rfc4648_unpadded true h); discriminate C|intros [C _]; discriminate C|].
    eapply Rn_breaks; [eapply Cut_three; [split; [reflexivity|split; apply unpadded_clean]|exact D1|exact D2|exact D3]|].
    eapply (Ck_breaks _ _ _ _ _ j1 k); [exact Hj1|apply key_is_bytes| |reflexivity|].
    - intros rc [[[C _] _]|[_ []]]. contradiction.
    - split; [exact (Hmac SHA384 _)|]. split; [|reflexivity]. rewrite (block_length _ _ _ D3), unpadded_length, Ls. vm_compute. reflexivity. }
  specialize (O2 _ Dc). subst o. change (a_claims a) with false. rewrite O3. reflexivity.
Qed.
Print Assumptions C87_wrong_alg_undefined.

(** *** Keys of another curve *)
(** The curve of an algorithm. *)
Definition curve_of (alg : Z) (curve : ecp_group) : Prop := exists j bits width, supported alg j /\ j_family j = ES curve bits width.
(** The tests that sign with a key of another curve pass if the key is one of another curve (or none). *)
Theorem C87_wrong_curves :
  forall p e keys c i w, test_bench p e w -> In i wrong_curves -> key_fits keys (i_key i) -> plausible (at_iat c) -> plausible (at_exp c) ->
    (forall sk curve, e_parse_key e (pem_text (key_bytes keys (i_key i))) Null 0 = Some sk -> curve_of (i_alg i) curve ->
       (e_can_do e sk PK_ECDSA = true -> e_pk_ec e sk = true) /\ e_group e sk <> curve) ->
    exists w', run_wrong_curve p e keys c i w = Ret true w'.
Proof.
  intros p e keys c i w (B1 & B2 & B3 & B4 & B5 & B6 & B7) Hi Kf P1 P3 Hk.
  assert (Ok : issue_ok i = true).
  { assert (K : forallb issue_ok wrong_curves = true) by (vm_compute; reflexivity). rewrite forallb_forall in K. apply K. exact Hi. }
  assert (Hj : exists j curve bits width, supported (i_alg i) j /\ j_family j = ES curve bits width /\ (10 < width)%nat).
  { cbn [wrong_curves In] in Hi. destruct Hi as [<-|[<-|[<-|[<-|[]]]]].
    - exists (Jwa 12 (lit "ES256K") (ES SECP256K1 256 32) SHA256). do 3 eexists. split; [split; [cbn; auto 20|reflexivity]|]. split; [reflexivity|lia].
    - exists (Jwa 9 (lit "ES256") (ES SECP256R1 256 32) SHA256). do 3 eexists. split; [split; [cbn; auto 20|reflexivity]|]. split; [reflexivity|lia].
    - exists (Jwa 10 (lit "ES384") (ES SECP384R1 384 48) SHA384). do 3 eexists. split; [split; [cbn; auto 20|reflexivity]|]. split; [reflexivity|lia].
    - exists (Jwa 11 (lit "ES512") (ES SECP521R1 521 66) SHA512). do 3 eexists. split; [split; [cbn; auto 20|reflexivity]|]. split; [reflexivity|lia]. }
  destruct Hj as (j & curve & bits & width & Hj & Fj & _). set (k := key_bytes keys (i_key i)) in *.
  destruct (C76_encode_complete p e (issue_params keys c i) w) as (o & O1 & _ & O3); auto; [lia|apply issue_given; assumption|].
  assert (Sg : forall msg o', signing p e j k Null 0 msg o' -> exists rc, o' = Fails rc).
  { intros msg o' S. unfold signing in S. rewrite Fj in S. destruct S as [L|_ _|sk o' _ Ek S].
    - exfalso. destruct Kf as [F1 F2]. fold k in F1, F2. unfold pem_text in L. destruct (is_nul _); rewrite ?app_length in L; cbn [length] in L; lia.
    - eauto.
    - destruct (Hk sk curve Ek) as [K1 K2]; [exists j, bits, width; auto|]. destruct S; eauto; [|contradiction].
      exfalso. match goal with A : e_can_do e sk PK_ECDSA = true, B : e_pk_ec e sk = false |- _ => rewrite (K1 A) in B; discriminate B end. }
  assert (Fl : exists rc, o = Fails rc).
  { destruct O1 as [_|_ _|_ _ _|j' k' o _ _ Hj' Hk' E]; eauto.
    assert (j' = j) as -> by (eapply supported_fun; eassumption).
    assert (k' = k) as -> by (eapply caller_key_fun; [exact Hk'|apply key_is_bytes]).
    destruct E as [o1 H1 N|msg o1 H1 H2]; [destruct (issue_text p keys c i j _ B1 Ok Hj H1) as (t & ->); destruct (N _ eq_refl)|].
    destruct H2 as [o2 H2 N|x o2 H2 H3]; [unfold seeded in H2; rewrite B5 in H2; subst o2; destruct (N _ eq_refl)|].
    destruct H3 as [o3 H3 N|y o3 H3 H4]; [exact (Sg _ _ H3)|]. destruct (Sg _ _ H3) as (rc & C). discriminate C. }
  destruct Fl as (rc & ->). destruct O3 as (Nz & w' & E). exists w'. unfold run_wrong_curve, mbind. rewrite E. unfold mret. cbn [er_rc].
  destruct (Z.eqb_spec rc L8W8JWT_SUCCESS) as [C|_]; [contradiction|reflexivity].
Qed.
Print Assumptions C87_wrong_curves.
Example C87_wrong_curves_example :
  forall i, In i wrong_curves -> key_fits ring (i_key i)
    /\ (forall sk curve, e_parse_key bench (pem_text (key_bytes ring (i_key i))) Null 0 = Some sk -> curve_of (i_alg i) curve ->
          (e_can_do bench sk PK_ECDSA = true -> e_pk_ec bench sk = true) /\ e_group bench sk <> curve)
    /\ exists sk, e_parse_key bench (pem_text (key_bytes ring (i_key i))) Null 0 = Some sk.
Proof.
  intros i Hi. cbn [wrong_curves In] in Hi.
  destruct Hi as [<-|[<-|[<-|[<-|[]]]]]; (split; [split; vm_compute; [lia|reflexivity]|]); (split; [|eexists; vm_compute; reflexivity]);
    intros sk curve E (j & b & wd & Hj & F); vm_compute in E; injection E as <-; (split; [intros H; exact H|]);
    apply jwa_of_supported in Hj; vm_compute in Hj; injection Hj as <-; injection F as <- _ _; discriminate.
Qed.
