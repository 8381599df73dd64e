(** * Property C32, on JSON: which tokens leave memory behind *)
From Verif Require Import Base BaseProofs HeapProofs Util UtilProofs Claim Base64 SpecB64
  Base64EncProofs Base64EncApi Base64DecProofs Base64Api Jsmn Env Encode Decode SpecJson SpecJwa ClaimProofs UnescapeProofs
  EncodeProofs SignProofs EncodeTotal SpecEnc JsonProofs PropEncode DecodeProofs DecodeInv JsmnProofs ParseProofs
  PropClaim ReadProofs ValidateProofs JsmnJson JsmnSize PropVerify PropValidate PropLeak PropJson DecodeTotal DecodeOk
  OverRead Unclosed PropSafe PropRoundTrip PropOverRead LocalProofs.
From Coq Require Import ZifyBool ZifyNat ZifyN.
Ltac Zify.zify_post_hook ::= Z.div_mod_to_equations.
Local Opaque L8W8JWT_MAX_KEY_SIZE.

(** JSON objects are counted right, whatever their size. *)
Lemma object_counted e js ms : uses_jsmn e -> object_text js ms -> counted_right e js.
Proof.
  intros Hj (w1 & t & w2 & H1 & Ho & H2 & ->) n E Hn. destruct (jsmn_object w1 ms t w2 H1 Ho H2) as (t0 & tl & _ & P1 & P2 & _).
  rewrite Hj in *. rewrite P1 in E. cbn [fst] in E. subst n. rewrite P2. cbn [fst]. lia.
Qed.

(** So the token is, if header and payload are such. *)
Lemma json_counted p e dp h pl s hj ht pj pt :
  uses_jsmn e -> c_text p dp (h ++ lit "." ++ pl ++ lit "." ++ s) -> no_dot h -> no_dot pl ->
  url_decodes h hj ht -> url_decodes pl pj pt ->
  (exists hms, object_text hj hms) -> (exists pms, object_text pj pms) -> token_counted_right p e dp.
Proof.
  intros Hj Ht N1 N2 D1 D2 (hms & O1) (pms & O2) t js tail Hseg D.
  destruct Ht as ((b & rest & Ej) & Hz & _).
  assert (Z1 : no_nul h) by (intros K; apply Hz; rewrite !in_app_iff; auto).
  assert (Z2 : no_nul pl) by (intros K; apply Hz; rewrite !in_app_iff; auto).
  assert (T : three_parts ((h ++ lit "." ++ pl ++ lit "." ++ s) ++ x00 :: rest) h pl (s ++ x00 :: rest))
    by (split; [rewrite <- !app_assoc; reflexivity|auto]).
  assert (TH : forall jwt, text dp jwt -> jwt = (h ++ lit "." ++ pl ++ lit "." ++ s) ++ x00 :: rest)
    by (intros jwt (b' & E'); congruence).
  assert (C : forall a x c d, no_dot a -> no_dot c -> a ++ x2e :: x = c ++ x2e :: d -> a = c /\ x = d).
  { induction a as [|y a IH]; intros x c d Ha Hc E; destruct c as [|z c]; cbn [app] in E.
    - injection E; auto.
    - injection E as E1 _. exfalso. apply Hc. left. congruence.
    - injection E as E1 _. exfalso. apply Ha. left. congruence.
    - injection E as -> E. destruct (IH x c d) as [-> ->]; auto; intros K; [apply Ha|apply Hc]; right; exact K. }
  assert (C0 : forall a x c d, no_nul c -> no_dot a -> a ++ x00 :: x = c ++ x2e :: d -> False).
  { induction a as [|y a IH]; intros x c d Hc Ha E; destruct c as [|z c]; cbn [app] in E; try discriminate.
    - injection E as E1 _. apply Hc. left. congruence.
    - injection E as E1 _. apply Ha. left. congruence.
    - injection E as -> E. apply (IH x c d); auto; intros K; [apply Hc|apply Ha]; right; exact K. }
  change (lit ".") with [x2e] in TH. cbn [app] in TH. setoid_rewrite <- app_assoc in TH. cbn [app] in TH.
  assert (t = h \/ t = pl) as [-> | ->].
  { destruct Hseg as [jwt h' rest' Tx E Nd|jwt h' pl' rest' Tx T'|jwt h' s' rest' n Tx Ea E Nh Ns Nz En].
    - left. apply TH in Tx. rewrite Tx in E. apply C in E as [E _]; auto.
    - right. rewrite (TH _ Tx) in T'. change (lit ".") with [x2e] in T. cbn [app] in T. rewrite <- app_assoc in T. cbn [app] in T.
      destruct (three_parts_fun _ _ _ _ _ _ _ T' T) as (_ & -> & _). reflexivity.
    - exfalso. apply TH in Tx. rewrite Tx in E. apply C in E as [_ E]; auto. rewrite <- app_assoc in E. cbn [app] in E.
      symmetry in E. exact (C0 _ _ _ _ Z2 Ns E). }
  - destruct (url_decodes_fun _ _ _ _ _ D D1) as [_ ->]. eapply object_counted; eauto.
  - destruct (url_decodes_fun _ _ _ _ _ D D2) as [_ ->]. eapply object_counted; eauto.
Qed.

(** A call of decode that returns, on a token whose header and payload are JSON objects of any size
    and nesting, with no failing chillbuff_push_back: all that is allocated afterwards is what was
    before and the claims handed out (nothing is handed out unless the call succeeds). *)
Theorem C32_json_tokens_freed :
  forall p e dp h pl s hj ht pj pt vn cn ln w r w',
    wf w -> appended w w' -> uses_jsmn e -> c_text p dp (h ++ lit "." ++ pl ++ lit "." ++ s) -> no_dot h -> no_dot pl ->
    url_decodes h hj ht -> url_decodes pl pj pt ->
    (exists hms, object_text hj hms) -> (exists pms, object_text pj pms) ->
    l8w8jwt_decode p e (Some dp) vn cn ln w = Ret r w' ->
    NoDup (given_blocks (dr_claims r))
    /\ (forall i, In i (given_blocks (dr_claims r)) -> w_live w i = false)
    /\ (forall i, w_live w' i = true <-> w_live w i = true \/ In i (given_blocks (dr_claims r)))
    /\ (dr_rc r <> L8W8JWT_SUCCESS -> dr_claims r = None).
Proof.
  intros p e dp h pl s hj ht pj pt vn cn ln w r w' Hwf Hg Hj Ht N1 N2 D1 D2 (hms & O1) (pms & O2) H.

  destruct (C32_decode_frees_partial p e (Some dp) vn cn ln w r w' Hwf H) as (lost & K1 & K2 & K3 & _ & K5).
  assert (lost = []) as ->.
  { apply K5; [exact Hg|]. intros dp' E. inversion E; subst dp'. eapply json_counted; eauto. }
  rewrite app_nil_r in *. split; [exact K1|]. split; [exact K2|]. split; [exact K3|].
  intros Hr. eapply decode_failure; eauto.
Qed.
Print Assumptions C32_json_tokens_freed.

(** The same for l8w8jwt_decode_raw: what is left are the parts it hands out. *)
Theorem C32_json_tokens_freed_raw :
  forall p e dp h pl s hj ht pj pt vn hn hl pn pl' sn sl w r w',
    wf w -> appended w w' -> uses_jsmn e -> c_text p dp (h ++ lit "." ++ pl ++ lit "." ++ s) -> no_dot h -> no_dot pl ->
    url_decodes h hj ht -> url_decodes pl pj pt ->
    (exists hms, object_text hj hms) -> (exists pms, object_text pj pms) ->
    l8w8jwt_decode_raw p e (Some dp) vn hn hl pn pl' sn sl w = Ret r w' ->
    NoDup (handed_raw r) /\ (forall i, w_live w' i = true <-> w_live w i = true \/ In i (handed_raw r)).
Proof.
  intros p e dp h pl s hj ht pj pt vn hn hl pn pl' sn sl w r w' Hwf Hg Hj Ht N1 N2 D1 D2 O1 O2 H.
  destruct (C32_decode_raw_frees_partial p e (Some dp) vn hn hl pn pl' sn sl w r w' Hwf H) as (lost & K1 & K2 & K3).
  assert (lost = []) as ->.
  { apply K3; [exact Hg|]. intros dp' E. inversion E; subst dp'. eapply json_counted; eauto. }
  rewrite app_nil_r in *. auto.
Qed.
Print Assumptions C32_json_tokens_freed_raw.

(** All tokens whose header or payload is an object without its closing brace and of more than 64
    values and names: decode rejects them and leaves exactly one more block allocated, which nobody
    can free (the token array, decode.c:244-258). As in C52 the signature need not be valid. *)
Theorem C32_unclosed_tokens_leak :
  forall p e dp h pl s hj ht pj pt sig st jw k n cn w,
    wf w -> allocs w -> grows w -> uses_jsmn e -> checknum_right e -> (32 <= p_size_bits p)%N ->
    c_text p dp (h ++ lit "." ++ pl ++ lit "." ++ s) -> no_dot h -> no_dot pl ->
    (Z.of_nat (length (h ++ lit "." ++ pl ++ lit "." ++ s)) <= INT_MAX)%Z ->
    url_decodes h hj ht -> url_decodes pl pj pt -> url_decodes s sig st ->
    supported (dp_alg dp) jw -> key_ok (dp_verification_key dp) (dp_verification_key_length dp) ->
    caller_key (dp_verification_key dp) (dp_verification_key_length dp) k ->
    fit_for e jw k sig -> ~ key_unusable p e jw k (h ++ lit "." ++ pl) ->
    unclosed hj n \/ (exists hms, object_text hj hms /\ fits hj hms) /\ unclosed pj n -> (64 < n)%N ->
    exists w' i, l8w8jwt_decode p e (Some dp) true cn true w
        = Ret (DecRes L8W8JWT_DECODE_FAILED_INVALID_TOKEN_FORMAT (Some NOT_VALID) None) w'
      /\ w_live w i = false /\ (forall j, w_live w' j = true <-> w_live w j = true \/ j = i).
Proof.
  intros p e dp h pl s hj ht pj pt sig st jw k n cn w Hwf Ha Hg Hj Hc Hp Ht N1 N2 Hlen D1 D2 D3 Hjw Hk Hck Hfit Hun Hover Hn.
  apply url_b64_decodes in D1, D2, D3.
  pose proof (b64_decodes_shorter _ _ _ D1) as L1. pose proof (b64_decodes_shorter _ _ _ D2) as L2.
  rewrite !app_length in Hlen. change (length (lit ".")) with 1%nat in Hlen.
  assert (Hver : verifiable e jw k (sig ++ st)).
  { unfold fit_for in Hfit. unfold verifiable. rewrite app_length. destruct (j_family jw); auto; try lia.
    intros pk Hpk. destruct (Hfit pk Hpk). split; [assumption|lia]. }
  assert (Ev : l8w8jwt_validate_decoding_params p (Some dp) = L8W8JWT_SUCCESS).
  { eapply validate_params_ok; eauto; [destruct h; discriminate|]. intros E. destruct (p_eddsa p) eqn:Ee; [reflexivity|].
    exfalso. apply Hun. right. destruct Hjw as [Hin Hid]. rewrite E in Hid. simpl in Hin.
    decompose [or] Hin; try contradiction; subst jw; try discriminate Hid. left. exact Ee. }
  destruct (decode_body_start p e dp h pl s hj ht pj pt sig st jw k (w_next w) (w_ok w))
    as (i1 & i2 & i3 & res & w2 & W2 & A2 & Ad2 & E); auto using wf_ok, allocs_ok.
  assert (Hout : forall w' i, adds w w' [i] -> w_live w i = false /\ (forall j, w_live w' j = true <-> w_live w j = true \/ j = i)).
  { intros w' i A. split; [eapply adds_fresh; [exact Hwf|exact A|left; reflexivity]|]. intros j. destruct A as (_ & _ & _ & Hl).
    rewrite Hl. split; intros [K|K]; auto; [destruct K as [K|[]]; auto|right; left; congruence]. }
  destruct Hover as [Hu|[(hms & Hoh & Hf) Hu]].
  - set (ds := DecState L8W8JWT_DECODE_FAILED_INVALID_TOKEN_FORMAT
      (Segs (Seg (Ptr (Some i1) (hj ++ ht)) (N.of_nat (length hj))) (Seg (Ptr (Some i2) (pj ++ pt)) (N.of_nat (length pj)))
            (Seg (Ptr (Some i3) (sig ++ st)) (N.of_nat (length sig)))) (CB (w_next w) []) res).
    assert (B : decode_body p e dp (CB (w_next w) []) (w_ok w) = Ret ds (w_ok w2)).
    { rewrite E. unfold parse_rest. cbn [s_ptr s_len sg_header sg_payload]. unfold mbind at 1.
      rewrite (parse_claims_unclosed p e _ _ hj ht n w2 Hj A2) by (auto; lia). reflexivity. }
    destruct (decode_rejects p e dp cn w ds (w_ok w2) i1 i2 i3 (hj ++ ht) (pj ++ pt) (sig ++ st) [w_next w2] Hwf Ev (Ha _) B)
      as (w' & Hd & A); try reflexivity.
    + discriminate.
    + constructor.
    + cbn [ds ds_claims cb_elems]. change (array_blocks [] ++ [w_next w2]) with [w_next w2].
      eapply adds_trans; [exact Ad2|apply adds_ok].
    + exists w', (w_next w2). split; [exact Hd|apply Hout; exact A].
  - destruct (object_reads e hj hms ht Hj Hc Hoh Hf) as [R _].
    destruct (parse_claims_ok p e (CB (w_next w) []) (Some i1) (hj ++ ht) (N.of_nat (length hj)) w2 _ Hj Hp ltac:(lia)
        ltac:(rewrite app_length; lia) W2 A2 R) as (c' & w3 & Hpc).
    pose proof Hpc as Hpc'. apply parse_claims_inv in Hpc' as (hb & hm & n1 & l1 & Eh & _ & (Hid & Hel & Hhp & A3) & Hl1); [|exact W2].
    assert (Eh' : hm = hj ++ ht) by congruence. subst hm.
    assert (l1 = []) as ->.
    { apply Hl1.
      - intros q. destruct (adds_later _ _ _ Ad2) as (_ & E0 & _). rewrite E0. apply Hg.
      - rewrite Nat2N.id, firstn_app_exact. exact (object_counted e hj hms Hj Hoh _ eq_refl). }
    rewrite app_nil_r in A3. cbn [cb_id cb_elems app] in Hid, Hel.
    assert (W3 : wf w3) by (eapply adds_wf; eauto).
    assert (Al3 : allocs w3) by (apply adds_later in A3 as (E0 & _); intros q; rewrite E0; apply A2).
    set (ds := DecState L8W8JWT_DECODE_FAILED_INVALID_TOKEN_FORMAT
      (Segs (Seg (Ptr (Some i1) (hj ++ ht)) (N.of_nat (length hj))) (Seg (Ptr (Some i2) (pj ++ pt)) (N.of_nat (length pj)))
            (Seg (Ptr (Some i3) (sig ++ st)) (N.of_nat (length sig)))) c' res).
    assert (B : decode_body p e dp (CB (w_next w) []) (w_ok w) = Ret ds (w_ok w3)).
    { rewrite E. unfold parse_rest. cbn [s_ptr s_len sg_header sg_payload]. mstep Hpc.
      change (negb (L8W8JWT_SUCCESS =? L8W8JWT_SUCCESS)%Z) with false. cbv iota. unfold mbind at 1.
      rewrite (parse_claims_unclosed p e _ _ pj pt n w3 Hj Al3) by (auto; lia). reflexivity. }
    destruct (decode_rejects p e dp cn w ds (w_ok w3) i1 i2 i3 (hj ++ ht) (pj ++ pt) (sig ++ st) [w_next w3] Hwf Ev (Ha _) B)
      as (w' & Hd & A); try reflexivity.
    + discriminate.
    + exact Hid.
    + cbn [ds ds_claims]. rewrite Hel. exact Hhp.
    + cbn [ds ds_claims]. rewrite Hel. eapply adds_trans; [exact Ad2|]. eapply adds_trans; [exact A3|apply adds_ok].
    + exists w', (w_next w3). split; [exact Hd|apply Hout; exact A].
Qed.
Print Assumptions C32_unclosed_tokens_leak.

(** ** Instances *)
(** The object of [array_text] without its closing brace, as the payload of a token nobody signed. *)
Definition open_text (n : nat) : bytes :=
  lit "{""a"":[" ++ lit (String.concat ","%string (repeat "0"%string (S n))) ++ lit "]".
Lemma open_text_unclosed n : unclosed (open_text n) (4 + N.of_nat n).
Proof.
  destruct (array_text_object n) as (w1 & t & w2 & _).
  exists [], (array_members n), (quoted (lit "a") ++ lit ":" ++ (lit "[" ++ lit (String.concat ","%string (repeat "0"%string (S n))) ++ lit "]")),
    (3 + N.of_nat n)%N.
  set (z := lit (String.concat _ _)).
  assert (Eq : quoted (lit "a") ++ lit ":" ++ (lit "[" ++ z ++ lit "]")
    = [] ++ quoted (lit "a") ++ [] ++ lit ":" ++ [] ++ (lit "[" ++ z ++ lit "]") ++ []) by (rewrite app_nil_r; reflexivity).
  split; [constructor|]. split; [|split; [|split; [|lia]]].
  - rewrite Eq. unfold array_members. fold z. eapply JM_one; [constructor|js_body|constructor|constructor|apply JV_array, zeros_array|constructor].
  - rewrite Eq. replace (3 + N.of_nat n)%N with (1 + (1 + (1 + N.of_nat n)))%N by lia.
    eapply MS_one; [constructor|js_body|constructor|constructor|apply VS_array, zeros_size|constructor].
  - unfold open_text. fold z. reflexivity.
Qed.
Definition open_forged (n : nat) : bytes :=
  rfc4648_unpadded true (lit "{}") ++ lit "." ++ rfc4648_unpadded true (open_text n) ++ lit "." ++ rfc4648_unpadded true (repeat x00 32).
Example C32_unclosed_example :
  unclosed (open_text 61) 65
  /\ (exists pt, url_decodes (rfc4648_unpadded true (open_text 61)) (open_text 61) pt)
  /\ heap_after we (dp_plain (open_forged 61) 0 (zstr "secret") 6) = Some (L8W8JWT_DECODE_FAILED_INVALID_TOKEN_FORMAT, [], [5%nat])
  /\ heap_after we (dp_plain (open_forged 60) 0 (zstr "secret") 6) = Some (L8W8JWT_DECODE_FAILED_INVALID_TOKEN_FORMAT, [], []).
Proof.
  split; [apply (open_text_unclosed 61)|]. split; [apply text_decodes; discriminate|]. split; vm_compute; reflexivity.
Qed.
Example C32_json_example :
  object_text (lit plain_header) plain_members /\ object_text (lit rich_payload) rich_members
  /\ exists l, heap_after we (dp_plain (signed plain_header rich_payload) 0 (zstr "secret") 6) = Some (L8W8JWT_SUCCESS, l, l) /\ length l = 11%nat.
Proof.
  split; [apply plain_object|]. split; [apply rich_object|]. eexists. split; [vm_compute; reflexivity|reflexivity].
Qed.
