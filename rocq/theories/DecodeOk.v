(** * Lemmas: when decoding succeeds *)
From Verif Require Import Base BaseProofs HeapProofs Util UtilProofs Claim Base64 SpecB64
  Base64EncApi Base64DecProofs Base64Api Jsmn Env Encode Decode SpecJson SpecJwa ClaimProofs UnescapeProofs
  SignProofs DecodeProofs DecodeInv JsmnProofs ParseProofs PropClaim ReadProofs ValidateProofs JsmnJson EncodeTotal
  DecodeTotal.
From Coq Require Import ZifyBool ZifyNat ZifyN Permutation.
Ltac Zify.zify_post_hook ::= Z.div_mod_to_equations.

Lemma allocs_ok w : allocs w -> allocs (w_ok w).
Proof. intros H k. apply H. Qed.
Lemma b64_forward t rest o tail w : wf w -> allocs w -> b64_decodes t o tail ->
  l8w8jwt_base64_decode true (Ptr None (t ++ rest)) (N.of_nat (length t)) true true w
  = Ret (B64 L8W8JWT_SUCCESS (Some (Ptr (Some (w_next w)) (o ++ tail))) (Some (N.of_nat (length o)))) (w_ok w).
Proof.
  intros Hwf Ha Hd.
  destruct (decode_cases true None (t ++ rest) (N.of_nat (length t)) w Hwf) as (r & w' & H & _ & Hc);
    [rewrite app_length; lia|].
  rewrite Nat2N.id, firstn_app_exact, syms_strip in Hc. destruct Hd as (Ht & Hb & lf & Hd & ->).
  rewrite H. destruct Hc as [(Hrc & Ho & Hn & Hlv)|(Hrc & _ & -> & _ & _ & o' & lf' & z & Hd' & -> & Ho & Hn)].
  - exfalso. revert H Hrc. assert (Hl0 : (0 < length t)%nat) by (destruct t; [congruence|simpl; lia]).
    rewrite base64_decode_fun by (auto; rewrite ?app_length; lia).
    cbv zeta. rewrite Nat2N.id, firstn_app_exact, syms_strip, Hb, (Ha _). cbn [negb]. rewrite Hd.
    intros H. inversion H; subst. cbn. congruence.
  - rewrite Hd in Hd'. inversion Hd'; subst. destruct r; simpl in Hrc, Ho, Hn. subst. reflexivity.
Qed.

(** The three segments of a token, decoded. *)
Lemma decode_segments_ok p dp h pl s hj ht pj pt sig st w :
  wf w -> allocs w -> c_text p dp (h ++ lit "." ++ pl ++ lit "." ++ s) -> no_dot h -> no_dot pl ->
  b64_decodes h hj ht -> b64_decodes pl pj pt -> b64_decodes s sig st ->
  exists i1 i2 i3 w', l8w8jwt_decode_segments p dp w
    = Ret (L8W8JWT_SUCCESS, Segs (Seg (Ptr (Some i1) (hj ++ ht)) (N.of_nat (length hj)))
                                (Seg (Ptr (Some i2) (pj ++ pt)) (N.of_nat (length pj)))
                                (Seg (Ptr (Some i3) (sig ++ st)) (N.of_nat (length sig)))) w'
    /\ wf w' /\ allocs w' /\ later w w'.
Proof.
  intros Hwf Ha ((b & rest & Ej) & Hz & Hl & Hs) N1 N2 D1 D2 D3. unfold l8w8jwt_decode_segments.
  assert (Z1 : no_nul h) by (intros K; apply Hz; rewrite !in_app_iff; auto).
  assert (Z2 : no_nul pl) by (intros K; apply Hz; rewrite !in_app_iff; auto).
  rewrite !app_length in Hl, Hs. change (length (lit ".")) with 1%nat in Hl, Hs.
  assert (E1 : (h ++ lit "." ++ pl ++ lit "." ++ s) ++ x00 :: rest = h ++ x2e :: pl ++ x2e :: s ++ x00 :: rest).
  { rewrite <- !app_assoc. reflexivity. }
  rewrite E1 in Ej. unfold mbind at 1. rewrite Ej. cbn [deref lift].
  unfold mbind at 1. rewrite strchr_some by (auto; discriminate). cbn [lift].
  unfold mbind at 1. rewrite (b64_forward h _ hj ht w Hwf Ha D1). cbn [b_rc]. change (negb (L8W8JWT_SUCCESS =? L8W8JWT_SUCCESS)%Z) with false.
  cbv iota zeta.
  assert (Sk : forall a r, skipn (S (length a)) (a ++ x2e :: r) = r).
  { intros a r. change (a ++ x2e :: r) with (a ++ [x2e] ++ r). rewrite app_assoc.
    replace (S (length a)) with (length (a ++ [x2e])) by (rewrite app_length; cbn [length]; lia). apply skipn_app_exact. }
  rewrite Sk. unfold mbind at 1. rewrite strchr_some by (auto; discriminate). cbn [lift andb].
  unfold mbind at 1. rewrite (b64_forward pl _ pj pt (w_ok w) (wf_ok _ Hwf) (allocs_ok _ Ha) D2).
  cbn [b_rc]. change (negb (L8W8JWT_SUCCESS =? L8W8JWT_SUCCESS)%Z) with false. cbv iota zeta.
  rewrite Sk, to_size_small by lia.
  replace (Z.to_N (Z.of_N (dp_jwt_length dp) - Z.of_nat (S (length h) + S (length pl)))) with (N.of_nat (length s)) by lia.
  unfold mbind at 1.
  rewrite (b64_forward s _ sig st (w_ok (w_ok w)) (wf_ok _ (wf_ok _ Hwf)) (allocs_ok _ (allocs_ok _ Ha)) D3).
  cbn [b_rc]. change (negb (L8W8JWT_SUCCESS =? L8W8JWT_SUCCESS)%Z) with false. cbv iota zeta.
  unfold seg_upd. cbn [b_out b_len]. do 4 eexists. split; [reflexivity|].
  split; [auto using wf_ok|]. split; [auto using allocs_ok|].
  eapply later_trans; [apply later_ok|]. eapply later_trans; apply later_ok.
Qed.

(** No verification is asked for (the id is -1), or verification comes to a verdict. *)
Definition sig_looked_at (p : platform) (e : env) (dp : dec_params) (msg sigmem : bytes) : Prop :=
  dp_alg dp = (-1)%Z
  \/ exists jw k, supported (dp_alg dp) jw /\ caller_key (dp_verification_key dp) (dp_verification_key_length dp) k
       /\ verifiable e jw k sigmem /\ ~ key_unusable p e jw k msg.

(** The whole body. *)
Lemma decode_body_ok p e dp h pl s hj ht pj pt sig st eh ep id w :
  wf w -> allocs w -> uses_jsmn e -> (32 <= p_size_bits p)%N ->
  c_text p dp (h ++ lit "." ++ pl ++ lit "." ++ s) -> no_dot h -> no_dot pl ->
  b64_decodes h hj ht -> b64_decodes pl pj pt -> b64_decodes s sig st ->
  (Z.of_nat (length hj) <= INT_MAX)%Z -> (Z.of_nat (length pj) <= INT_MAX)%Z ->
  reads e (hj ++ ht) (N.of_nat (length hj)) eh -> reads e (pj ++ pt) (N.of_nat (length pj)) ep ->
  key_ok (dp_verification_key dp) (dp_verification_key_length dp) ->
  sig_looked_at p e dp (h ++ lit "." ++ pl) (sig ++ st) ->
  requests_ok p e dp -> grows w -> typ_found p dp (map kv_of (eh ++ ep)) ->
  exists ds w', decode_body p e dp (CB id []) w = Ret ds w' /\ ds_rc ds = L8W8JWT_SUCCESS.
Proof.
  intros Hwf Ha Hj Hp Ht N1 N2 D1 D2 D3 L1 L2 R1 R2 Hk Hsl Hrq Hgr Hty. unfold decode_body.
  destruct (decode_segments_ok p dp h pl s hj ht pj pt sig st w Hwf Ha Ht N1 N2 D1 D2 D3) as (i1 & i2 & i3 & w1 & H1 & W1 & A1 & Lt1).
  mstep H1. change (negb (L8W8JWT_SUCCESS =? L8W8JWT_SUCCESS)%Z) with false. cbn [s_ptr s_len sg_signature sg_header sg_payload].
  assert (HV : exists res w2, l8w8jwt_verify_signature p e dp L8W8JWT_VALID (Ptr (Some i3) (sig ++ st)) (N.of_nat (length sig)) w1
                 = Ret (L8W8JWT_SUCCESS, res) w2 /\ quiet w1 w2).
  { destruct Hsl as [Em|(jw & k & Hjw & Hck & Hver & Hun)].
    { unfold l8w8jwt_verify_signature. rewrite Em. cbn [Z.eqb orb]. do 2 eexists. split; [reflexivity|]. apply quiet_refl. }
    pose proof Ht as ((b & rest & Ej) & Hz & _ & _).
    assert (T3 : three_parts ((h ++ lit "." ++ pl ++ lit "." ++ s) ++ x00 :: rest) h pl (s ++ x00 :: rest)).
    { split; [rewrite <- !app_assoc; reflexivity|].
      assert (Z1 : no_nul h) by (intros K; apply Hz; rewrite !in_app_iff; auto).
      assert (Z2 : no_nul pl) by (intros K; apply Hz; rewrite !in_app_iff; auto). auto. }
    destruct (verify_body_total p e dp jw b _ h pl _ k (sig ++ st) (N.of_nat (length sig)) Ej T3 Hjw Hck Hk) as (v & Hv & Hx);
      [rewrite app_length; lia|exact Hver|].
    destruct v as [rc|f]; [exfalso; apply Hun; eapply Hx; reflexivity|].
    destruct (verify_signature_total p e dp L8W8JWT_VALID (Some i3) (sig ++ st) (N.of_nat (length sig)) w1 W1 (or_intror A1)) as (rc & res & w2 & H2).
    { intros _ _. eauto. }
    rewrite H2. pose proof (b64_decodes_len _ _ _ D3) as [Ls _].
    apply verify_signature_inv in H2 as [Q2 [([C|[C|C]] & _)|(b' & sg' & v & _ & E & _ & Hb & Er)]]; [| | | |exact W1].
    { destruct (supported_range _ _ Hjw). lia. }
    { discriminate. }
    { lia. }
    assert (Es : sg' = sig ++ st) by congruence. rewrite Es, Hv in Hb. assert (Ev : v = VFlag f) by congruence. rewrite Ev in Er.
    cbn [verdict_result] in Er. assert (Erc : rc = L8W8JWT_SUCCESS) by congruence. rewrite Erc. eauto. }
  destruct HV as (res & w2 & H2 & Q2). mstep H2.
  change (negb (L8W8JWT_SUCCESS =? L8W8JWT_SUCCESS)%Z) with false.
  assert (W2 : wf w2) by (eapply wf_quiet; eauto).
  assert (Al : forall x y, later x y -> allocs x -> allocs y) by (intros x y (E0 & _) H0 q; rewrite E0; apply H0).
  assert (A2 : allocs w2) by (eapply Al; [apply quiet_later; exact Q2|exact A1]).
  destruct (parse_claims_ok p e (CB id []) (Some i1) (hj ++ ht) (N.of_nat (length hj)) w2 eh Hj Hp) as (c1 & w3 & H3); auto;
    [lia|rewrite app_length; lia|]. mstep H3.
  change (negb (L8W8JWT_SUCCESS =? L8W8JWT_SUCCESS)%Z) with false.
  pose proof H3 as H3'. apply parse_claims_inv in H3' as (hb & hm & n1 & l1 & Eh & _ & (_ & _ & _ & A3) & _); [|exact W2].
  assert (W3 : wf w3) by (eapply adds_wf; eauto).
  assert (Al3 : allocs w3) by (eapply Al; [eapply adds_later; exact A3|exact A2]).
  apply parse_claims_reads in H3 as (es1 & Re1 & F1 & Hid1 & new1 & sub1 & E1 & U1 & K1 & G1); auto.
  destruct (parse_claims_ok p e c1 (Some i2) (pj ++ pt) (N.of_nat (length pj)) w3 ep Hj Hp) as (c2 & w4 & H4); auto;
    [lia|rewrite app_length; lia|]. mstep H4.
  change (negb (L8W8JWT_SUCCESS =? L8W8JWT_SUCCESS)%Z) with false.
  apply parse_claims_reads in H4 as (es2 & Re2 & F2 & Hid2 & new2 & sub2 & E2 & U2 & K2 & G2); auto.
  cbn [cb_elems app] in E1. rewrite E1 in E2. unfold cb_len. rewrite E2.
  destruct (validate_claims_total p e dp (Some (cb_id c2)) (new1 ++ new2) (map kv_of (sub1 ++ sub2)) res) as (vv & Hvv); auto.
  { apply holds_told; [apply Forall2_app; assumption|]. apply Forall_app. split; eapply subseq_Forall; eauto. }
  { assert (Gr2 : grows w2) by (eapply grows_later; [|exact Hgr]; eapply later_trans; [exact Lt1|apply quiet_later; exact Q2]).
    assert (Gr3 : grows w3) by (eapply grows_later; [eapply adds_later; exact A3|exact Gr2]).
    rewrite (G1 Gr2), (G2 Gr3), (reads_fun _ _ _ _ _ Re1 R1), (reads_fun _ _ _ _ _ Re2 R2). exact Hty. }
  unfold mbind at 1. rewrite Hvv. cbn [lift]. do 2 eexists. split; reflexivity.
Qed.

Lemma validate_params_ok p dp j : c_text p dp j -> j <> [] ->
  key_ok (dp_verification_key dp) (dp_verification_key_length dp) -> (dp_alg dp = 13%Z -> p_eddsa p = true) ->
  l8w8jwt_validate_decoding_params p (Some dp) = L8W8JWT_SUCCESS.
Proof.
  intros ((b & rest & Ej) & _ & Hl & _) Hne (Hn & k & (b' & m & Eq & _) & _) Hed. unfold l8w8jwt_validate_decoding_params.
  rewrite Ej, Eq. cbn [is_null orb]. rewrite Hl.
  assert (length j <> 0%nat) by (destruct j; [congruence|discriminate]).
  change L8W8JWT_MAX_KEY_SIZE with 8192%N.
  repeat match goal with |- context [(?a =? ?b)%N] => destruct (N.eqb_spec a b); [lia|] end.
  repeat match goal with |- context [(?a <? ?b)%N] => destruct (N.ltb_spec a b); [lia|] end.
  cbn [orb]. destruct (p_eddsa p); [reflexivity|]. cbn [negb andb].
  destruct (Z.eqb_spec (dp_alg dp) L8W8JWT_ALG_ED25519) as [E|E]; [discriminate (Hed E)|reflexivity].
Qed.

Lemma decode_ok p e dp h pl s hj ht pj pt sig st eh ep cn ln w :
  wf w -> allocs w -> uses_jsmn e -> (32 <= p_size_bits p)%N -> cn && negb ln = false ->
  c_text p dp (h ++ lit "." ++ pl ++ lit "." ++ s) -> no_dot h -> no_dot pl ->
  b64_decodes h hj ht -> b64_decodes pl pj pt -> b64_decodes s sig st ->
  (Z.of_nat (length hj) <= INT_MAX)%Z -> (Z.of_nat (length pj) <= INT_MAX)%Z ->
  reads e (hj ++ ht) (N.of_nat (length hj)) eh -> reads e (pj ++ pt) (N.of_nat (length pj)) ep ->
  key_ok (dp_verification_key dp) (dp_verification_key_length dp) ->
  sig_looked_at p e dp (h ++ lit "." ++ pl) (sig ++ st) ->
  requests_ok p e dp -> grows w -> typ_found p dp (map kv_of (eh ++ ep)) ->
  exists r w', l8w8jwt_decode p e (Some dp) true cn ln w = Ret r w' /\ dr_rc r = L8W8JWT_SUCCESS.
Proof.
  intros Hwf Ha Hj Hp Hc Ht N1 N2 D1 D2 D3 L1 L2 R1 R2 Hk Hsl Hrq Hgr Hty.
  destruct (decode_body_ok p e dp h pl s hj ht pj pt sig st eh ep (w_next w) (w_ok w)) as (ds & w1 & H & Hrc); auto using wf_ok, allocs_ok.
  assert (Ev : l8w8jwt_validate_decoding_params p (Some dp) = L8W8JWT_SUCCESS).
  { eapply validate_params_ok; eauto; [destruct h; discriminate|]. intros E. destruct (p_eddsa p) eqn:Ee; [reflexivity|].
    destruct Hsl as [Em|(jw & k & Hjw & _ & _ & Hun)]; [congruence|]. exfalso. apply Hun. right. destruct Hjw as [Hin Hid]. rewrite E in Hid. simpl in Hin.
    decompose [or] Hin; try contradiction; subst jw; try discriminate Hid. left. exact Ee. }
  destruct (decode_finish p e dp cn ln w ds w1 Hwf Hc Ev (Ha _) H) as (w' & E).
  rewrite E. do 2 eexists. split; [reflexivity|]. exact Hrc.
Qed.
