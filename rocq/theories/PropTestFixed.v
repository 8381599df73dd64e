(** * Property C87: the tests that start with a fixed token *)
From Verif Require Import Base BaseProofs HeapProofs Util UtilProofs Claim Base64 SpecB64
  Base64EncProofs Base64EncApi Base64DecProofs Base64Api Jsmn Env Encode Decode SpecJson SpecJwa ClaimProofs UnescapeProofs
  EncodeProofs SignProofs EncodeTotal SpecEnc JsonProofs PropEncode DecodeProofs DecodeInv JsmnProofs ParseProofs
  PropClaim ReadProofs ValidateProofs JsmnJson JsmnSize PropVerify PropValidate PropLeak PropJson DecodeTotal DecodeOk PropSafe
  PropRoundTrip PropIssued PropTime PropVerdict Examples PropEncMemory PropPrograms Walk Exact Complete PropComplete
  EncComplete PropEncComplete PropUnclosed Sha2 PropHmac PropSha Tests TestProofs TestVerdict PropTests TestBench PropSuite LocalProofs ArgTests PropArgTests TestRaw.
From Coq Require Import ZifyBool ZifyNat ZifyN.
Ltac Zify.zify_post_hook ::= Z.div_mod_to_equations.
Local Opaque L8W8JWT_MAX_KEY_SIZE SIGBUF.

(** The signature of the fixed token is not what the backend makes of the message with "test key". *)
Definition other_mac (e : env) (f : fixed) : Prop :=
  forall j sig tail mac, supported (f_alg f) j -> url_decodes (lit (f_signature f)) sig tail ->
    e_hmac e (j_hash j) (lit "test key") (fixed_message f) = Some mac -> sig <> fit (md_size (j_hash j)) mac.

(** ** The texts *)
Definition fixed_name (f : fixed) : string := match f_alg f with 0%Z => "HS256" | 1%Z => "HS384" | _ => "HS512" end%string.
Definition fixed_header_text (f : fixed) : bytes := lit "{""alg"":""" ++ lit (fixed_name f) ++ lit """,""typ"":""JWT""}".
Definition fixed_payload_text : bytes := lit "{""sub"":""1234567890"",""name"":""John Doe"",""iat"":1516239022}".
Definition fixed_header_members (f : fixed) : list member :=
  [Member (lit "alg") KString (quoted (lit (fixed_name f))); Member (lit "typ") KString (quoted (lit "JWT"))].
Definition fixed_payload_members : list member :=
  [ Member (lit "sub") KString (quoted (lit "1234567890")); Member (lit "name") KString (quoted (lit "John Doe"))
  ; Member (lit "iat") KNumber (lit "1516239022") ].
Lemma fixed_header_object f : object_text (fixed_header_text f) (fixed_header_members f).
Proof.
  exists [], (fixed_header_text f), []. split; [constructor|]. split; [|split; [constructor|rewrite app_nil_r; reflexivity]].
  replace (fixed_header_text f) with (lit "{" ++ ([] ++ quoted (lit "alg") ++ [] ++ lit ":" ++ [] ++ quoted (lit (fixed_name f)) ++ []
    ++ lit "," ++ ([] ++ quoted (lit "typ") ++ [] ++ lit ":" ++ [] ++ quoted (lit "JWT") ++ [])) ++ lit "}").
  2:{ unfold fixed_header_text, fixed_name. destruct (f_alg f) as [|[| |]|]; vm_compute; reflexivity. }
  apply JO_members.
  eapply JM_cons; [js_ws|js_body|js_ws|js_ws| |js_ws|].
  { unfold fixed_name. destruct (f_alg f) as [|[| |]|]; eapply JV_string; js_body. }
  eapply JM_one; [js_ws|js_body|js_ws|js_ws|eapply JV_string; js_body|js_ws].
Qed.
Lemma fixed_payload_object : object_text fixed_payload_text fixed_payload_members.
Proof.
  exists [], fixed_payload_text, []. split; [constructor|]. split; [|split; [constructor|reflexivity]].
  change fixed_payload_text with (lit "{" ++ ([] ++ quoted (lit "sub") ++ [] ++ lit ":" ++ [] ++ quoted (lit "1234567890") ++ []
    ++ lit "," ++ ([] ++ quoted (lit "name") ++ [] ++ lit ":" ++ [] ++ quoted (lit "John Doe") ++ []
    ++ lit "," ++ ([] ++ quoted (lit "iat") ++ [] ++ lit ":" ++ [] ++ lit "1516239022" ++ []))) ++ lit "}").
  apply JO_members.
  eapply JM_cons; [js_ws|js_body|js_ws|js_ws|eapply JV_string; js_body|js_ws|].
  eapply JM_cons; [js_ws|js_body|js_ws|js_ws|eapply JV_string; js_body|js_ws|].
  eapply JM_one; [js_ws|js_body|js_ws|js_ws|apply digits_value; reflexivity|js_ws].
Qed.
Definition fixed_ok (f : fixed) : Prop :=
  (exists t, b64_decodes (lit (f_header f)) (fixed_header_text f) t) /\ no_dot (lit (f_header f))
  /\ no_nul (fixed_token f) /\ no_nul (lit (f_header f)) /\ (length (fixed_token f) < 1000)%nat
  /\ (fst (jsmn_parse (fixed_header_text f) None) <=? 62)%Z = true /\ (length (fixed_header_text f) < 1000)%nat
  /\ exists j sig tail, supported (f_alg f) j /\ j_family j = HS /\ b64_decodes (lit (f_signature f)) sig tail
     /\ N.of_nat (length sig) = md_size (j_hash j).
Lemma fixed_all_ok f : In f (map fst hmac_tests) -> fixed_ok f.
Proof.
  assert (Pt : forall j, In j jwa_table -> supported (j_id j) j) by (intros j H; split; auto).
  intros [<-|[<-|[<-|[]]]].
  all: split; [eexists; slashes_part|]; split; [apply no_dot_check; vm_compute; reflexivity|];
       split; [apply no_nul_b; vm_compute; reflexivity|]; split; [apply no_nul_b; vm_compute; reflexivity|];
       split; [apply Nat.ltb_lt; vm_compute; reflexivity|]; split; [vm_compute; reflexivity|]; split; [apply Nat.ltb_lt; vm_compute; reflexivity|].
  - exists (nth 0 jwa_table hs256). do 2 eexists. split; [apply Pt; cbn; auto 20|]. split; [reflexivity|]. split; [slashes_part|vm_compute; reflexivity].
  - exists (nth 1 jwa_table hs256). do 2 eexists. split; [apply Pt; cbn; auto 20|]. split; [reflexivity|]. split; [slashes_part|vm_compute; reflexivity].
  - exists (nth 2 jwa_table hs256). do 2 eexists. split; [apply Pt; cbn; auto 20|]. split; [reflexivity|]. split; [slashes_part|vm_compute; reflexivity].
Qed.

(** ** Decoding them *)
(** Whatever the backend, if it makes another MAC of the message: the token is decoded, its signature flagged, and
    the claims handed out are not freed. *)
Theorem C87_fixed_tokens :
  forall p e f w, In f (map fst hmac_tests) ->
    wf w -> allocs w -> grows w -> uses_jsmn e -> checknum_right e -> (32 <= p_size_bits p)%N -> other_mac e f ->
    exists w', run_fixed p e f w = Ret true w' /\ later w w' /\ wf w' /\ exists i, w_live w i = false /\ w_live w' i = true.
Proof.
  intros p e f w Hf Hwf Ha Hg Hj Hc Hp Hm.
  destruct (fixed_all_ok f Hf) as ((ht & B1) & N1 & Nn & Nh & Ln & Sz & Lh & j & sig & st & Hs & Hfam & B3 & Lsig).
  set (dp := fixed_params f).
  assert (Hck : caller_key (dp_verification_key dp) (dp_verification_key_length dp) (lit "test key")).
  { exists None, (clit "test key"). split; [reflexivity|]. split; [vm_compute; discriminate|reflexivity]. }
  assert (Hk : key_ok (dp_verification_key dp) (dp_verification_key_length dp)).
  { split; [cbn; lia|]. exists (lit "test key"). split; [exact Hck|left; cbn; lia]. }
  assert (P : (2 ^ 32 <= size_mod p)%N) by (unfold size_mod; apply N.pow_le_mono_r; lia). change (2 ^ 32)%N with 4294967296%N in P.
  assert (Ht : c_text p dp (lit (f_header f) ++ lit "." ++ lit fixed_payload ++ lit "." ++ lit (f_signature f))).
  { split; [exists None, []; reflexivity|]. split; [exact Nn|]. split; [reflexivity|]. fold (fixed_token f). lia. }
  assert (B2 : exists t, b64_decodes (lit fixed_payload) fixed_payload_text t) by (eexists; slashes_part).
  destruct B2 as (pt & B2).
  assert (N2 : no_dot (lit fixed_payload)) by (apply no_dot_check; vm_compute; reflexivity).
  assert (F1 : PropJson.fits (fixed_header_text f) (fixed_header_members f)) by (left; apply small_size; exact Sz).
  assert (F2 : PropJson.fits fixed_payload_text fixed_payload_members) by (left; apply small_size; vm_compute; reflexivity).
  destruct (object_reads e _ _ ht Hj Hc (fixed_header_object f) F1) as [R1 _].
  destruct (object_reads e _ _ pt Hj Hc fixed_payload_object F2) as [R2 _].
  assert (Hu : sig_looked_at p e dp (fixed_message f) (sig ++ st)).
  { right. exists j, (lit "test key"). split; [exact Hs|]. split; [exact Hck|]. split.
    - unfold verifiable. rewrite Hfam, app_length. lia.
    - unfold key_unusable. rewrite Hfam. intros [(C & _)|[]]. destruct C as (a & b & C).
      apply (f_equal (@length byte)) in C. rewrite !app_length in C. change (length (lit "-----BEGIN CERTIFICATE-----")) with 27%nat in C.
      change (length (before_nul (lit "test key"))) with 8%nat in C. lia. }
  assert (Hrq : requests_ok p e dp).
  { unfold requests_ok, times_ok, typ_ok, expectable. cbn.
    do 4 (split; [left; reflexivity|]). split; [|left; reflexivity]. split; [|split]; discriminate. }
  destruct (decode_ok p e dp _ _ _ _ ht _ pt sig st _ _ true true w Hwf Ha Hj Hp eq_refl Ht N1 N2 B1 B2 B3
    ltac:(unfold INT_MAX; lia) ltac:(vm_compute; discriminate) R1 R2 Hk Hu Hrq Hg (or_introl eq_refl)) as (r & w' & H & Hrc).
  destruct (decode_own _ _ _ _ _ _ _ _ _ Hwf H) as (own & lost & Hh & A & _).
  assert (V : exists v, dr_valid r = Some v).
  { pose proof H as H0. apply decode_success in H0 as (dp' & st' & w2 & _ & _ & _ & _ & _ & _ & Ev & _); [eauto|exact Hrc]. }
  destruct V as (v & Ev). exists w'.
  destruct (C22_hmac_compared_partial p e dp true true w r w' v j _ Hwf H Hrc Ev Hs Hfam Hck)
    as (jwt & h' & pl' & rest & third & sig' & tail' & (b' & Ej) & T & Th & D3 & _ & K).
  assert (jwt = fixed_token f ++ [x00]) by (change (dp_jwt dp) with (Ptr None (fixed_token f ++ [x00])) in Ej; congruence). subst jwt.
  assert (T' : three_parts (fixed_token f ++ [x00]) (lit (f_header f)) (lit fixed_payload) (lit (f_signature f) ++ [x00])).
  { split; [unfold fixed_token; rewrite <- !app_assoc; reflexivity|]. split; [exact N1|]. split; [exact Nh|]. split; [exact N2|apply no_nul_b; vm_compute; reflexivity]. }
  destruct (three_parts_fun _ _ _ _ _ _ _ T T') as (-> & -> & ->).
  assert (third = lit (f_signature f)) as ->.
  { destruct Th as (n & En & _ & ->). rewrite to_size_small in En.
    - replace (N.to_nat n) with (length (lit (f_signature f))); [apply firstn_app_exact|]. change (dp_jwt_length dp) with (N.of_nat (length (fixed_token f))) in En.
      unfold fixed_token in En. rewrite !app_length in En. cbn [length lit] in En. change (length (lit ".")) with 1%nat in En. lia.
    - change (dp_jwt_length dp) with (N.of_nat (length (fixed_token f))). unfold fixed_token in *. rewrite !app_length in *. change (length (lit ".")) with 1%nat in *. lia. }
  destruct (url_decodes_fun _ _ _ _ _ D3 (b64_decodes_url _ _ _ B3)) as [_ ->].
  assert (Bit : N.testbit v 7 = true).
  { destruct (N.testbit v 7) eqn:E7; [reflexivity|exfalso]. destruct (proj1 (K Lsig) eq_refl) as (mac & Em & Es).
    exact (Hm j sig _ mac Hs D3 Em Es). }
  unfold run_fixed. fold dp. unfold mbind. rewrite H, Hrc, Ev. change (L8W8JWT_SUCCESS =? Z.of_N L8W8JWT_VALID)%Z with true. cbv iota.
  unfold mret, verdict_wanted. assert (Nz : (N.land v L8W8JWT_SIGNATURE_VERIFICATION_FAILURE =? 0)%N = false).
  { apply N.eqb_neq. intros C. assert (E7 : N.testbit (N.land v L8W8JWT_SIGNATURE_VERIFICATION_FAILURE) 7 = true) by (rewrite N.land_spec, Bit; reflexivity).
    rewrite C in E7. discriminate E7. }
  rewrite Nz. split; [reflexivity|]. split; [exact (proj1 A)|]. split; [exact (adds_wf _ _ _ A Hwf)|].
  pose proof H as H0. apply decode_success in H0 as (dp' & st' & w2 & _ & _ & _ & _ & _ & _ & _ & Ec); [|exact Hrc]. cbn [andb] in Ec. rewrite Ec in Hh.
  destruct Hh as (id & cs & _ & _ & _ & ->). exists id. split; [eapply adds_fresh; [exact Hwf|exact A|left; reflexivity]|eapply adds_live; [exact A|left; reflexivity]].
Qed.
Print Assumptions C87_fixed_tokens.

(** SHA-2's is another one. *)
Theorem C87_fixed_tokens_sha2 :
  forall e f, In f (map fst hmac_tests) -> standard_hmac e sha -> other_mac e f.
Proof.
  intros e f Hf Hs j sig tail mac Hj D Em C.
  destruct (fixed_all_ok f Hf) as (_ & _ & _ & _ & _ & _ & _ & j' & sig' & st' & Hj' & _ & B3 & _).
  destruct (url_decodes_fun _ _ _ _ _ D (b64_decodes_url _ _ _ B3)) as [_ ->].
  rewrite (proj2 Hs) in Em. injection Em as <-. rewrite (fit_mac e sha _ _ _ Hs) in C. subst sig'. clear D.
  destruct B3 as (_ & _ & lf & E & _).
  assert (G : forall k, In k [0; 1; 2]%nat -> nth_error (map fst hmac_tests) k = Some f -> supported (f_alg f) (nth k jwa_table hs256) ->
     match dec_all true (syms true (lit (f_signature f))) with
     | Some (x, _) => bytes_eqb x (rfc2104 (sha (j_hash (nth k jwa_table hs256))) (block_size (j_hash (nth k jwa_table hs256))) (lit "test key") (fixed_message f))
     | None => true end = false -> False).
  { intros k _ _ Hk X. assert (j = nth k jwa_table hs256) as -> by (eapply supported_unique; eassumption).
    rewrite E in X. rewrite (proj2 (bytes_eqb_eq _ _) eq_refl) in X. discriminate X. }
  destruct Hf as [<-|[<-|[<-|[]]]].
  - apply (G 0%nat); [cbn; auto|reflexivity|split; [cbn; auto 20|reflexivity]|vm_compute; reflexivity].
  - apply (G 1%nat); [cbn; auto|reflexivity|split; [cbn; auto 20|reflexivity]|vm_compute; reflexivity].
  - apply (G 2%nat); [cbn; auto|reflexivity|split; [cbn; auto 20|reflexivity]|vm_compute; reflexivity].
Qed.
Print Assumptions C87_fixed_tokens_sha2.

(** ** The tests as a whole *)
Lemma hmac_in f t : In (f, t) hmac_tests -> In f (map fst hmac_tests) /\ In t suite.
Proof.
  intros [E|[E|[E|[]]]]; injection E as <- <-; (split; [cbn; auto|cbn; auto]).
Qed.
Lemma bench_later p e w w' : test_bench p e w -> later w w' -> wf w' -> test_bench p e w'.
Proof. intros (B1 & B2 & B3 & B4 & B5 & B6 & B7) L Hwf. split; [exact B1|]. split; [exact Hwf|]. split; [exact (allocs_later _ _ L B3)|]. split; [exact (grows_later _ _ L B4)|auto]. Qed.
(** They pass, and each loses the claims of the fixed token besides those of its own. *)
Theorem C87_hmac_tests :
  forall p e keys c f t w, In (f, t) hmac_tests -> test_bench p e w -> other_mac e f -> PropTests.fits p e keys t ->
    plausible (at_iat c) -> plausible (at_nbf c) -> plausible (at_exp c) -> soon c 29 ->
    exists w1 w', run_hmac_test p e keys c f t w = Ret true w'
      /\ run_fixed p e f w = Ret true w1 /\ ~ same_heap w w1 /\ ~ same_heap w1 w'.
Proof.
  intros p e keys c f t w Hft B Hm F P1 P2 P3 Hs. destruct (hmac_in f t Hft) as [Hf Ht].
  pose proof B as (B1 & B2 & B3 & B4 & B5 & B6 & B7).
  destruct (C87_fixed_tokens p e f w Hf B2 B3 B4 B6 B7 B1 Hm) as (w1 & R1 & L & Hwf & i & I1 & I2).
  destruct (C87_suite_passes p e keys c t w1 (bench_later _ _ _ _ B L Hwf) Ht F P1 P2 P3 Hs) as (w' & R2 & H2).
  exists w1, w'. split; [unfold run_hmac_test, mbind; rewrite R1; exact R2|]. split; [exact R1|]. split.
  - intros C. specialize (C i). congruence.
  - intros C. pose proof (proj1 H2 C) as K. clear - K Hft.
    destruct Hft as [E|[E|[E|[]]]]; injection E as <- <-; specialize (K _ (or_introl eq_refl)); discriminate K.
Qed.
Print Assumptions C87_hmac_tests.

(** With SHA-2 the first halves pass; with the backend of the examples the tests pass as a whole. *)
Example C87_fixed_tokens_example :
  forall f, In f (map fst hmac_tests) -> other_mac (std 0) f /\ exists w', run_fixed pe (std 0) f we = Ret true w'.
Proof.
  intros f Hf. assert (O : other_mac (std 0) f) by (apply C87_fixed_tokens_sha2; [exact Hf|apply C88_standard_backend]).
  split; [exact O|]. destruct (C87_fixed_tokens pe (std 0) f we Hf we_wf) as (w' & R & _); eauto.
  - intros i. reflexivity.
  - intros i. reflexivity.
  - intros js cap. reflexivity.
  - exact toy_num_right.
  - vm_compute. discriminate.
Qed.
Example C87_hmac_tests_example :
  forall f t, In (f, t) hmac_tests -> other_mac bench f /\ exists w', run_hmac_test pe bench ring (delayed 1000000 2) f t we = Ret true w'.
Proof.
  intros f t Hft. destruct (hmac_in f t Hft) as [Hf Ht].
  assert (O : other_mac bench f).
  { intros j sig tail mac Hj D Em C. destruct (fixed_all_ok f Hf) as (_ & _ & _ & _ & _ & _ & _ & j' & sig' & st' & Hj' & _ & B3 & Ls).
    destruct (url_decodes_fun _ _ _ _ _ D (b64_decodes_url _ _ _ B3)) as [_ ->].
    apply (f_equal Some) in C. revert Em C. destruct B3 as (_ & _ & lf & E & _). apply (f_equal (option_map fst)) in E. cbn [option_map fst] in E. rewrite <- E. clear - Hj Hf.
    apply jwa_of_supported in Hj.
    destruct Hf as [<-|[<-|[<-|[]]]]; vm_compute in Hj; injection Hj as <-; vm_compute; intros Em C; injection Em as <-; discriminate C. }
  split; [exact O|]. assert (P : plausible 1000000) by (split; [reflexivity|vm_compute; discriminate]).
  destruct (C87_hmac_tests pe bench ring (delayed 1000000 2) f t we Hft bench_ready O (suite_fits_bench t Ht) P P P) as (w1 & w' & R & _); [|eauto].
  intros n x [<-|[<-|[<-|[]]]]; cbn; lia.
Qed.
