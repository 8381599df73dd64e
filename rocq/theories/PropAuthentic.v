(** * Property C77: an accepted token says what its issuer put into it, unless the signature was forged *)
From Verif Require Import Base BaseProofs HeapProofs Util UtilProofs Claim Base64 SpecB64
  Base64EncProofs Base64EncApi Base64DecProofs Base64Api Jsmn Env Encode Decode SpecJson SpecJwa ClaimProofs UnescapeProofs
  EncodeProofs SignProofs EncodeTotal SpecEnc JsonProofs PropEncode DecodeProofs DecodeInv JsmnProofs ParseProofs
  PropClaim ReadProofs ValidateProofs JsmnJson JsmnSize PropVerify PropValidate PropLeak PropJson DecodeTotal DecodeOk PropSafe
  PropRoundTrip PropInjective PropIssued LocalProofs.
From Coq Require Import ZifyBool ZifyNat ZifyN.
Ltac Zify.zify_post_hook ::= Z.div_mod_to_equations.
Local Opaque L8W8JWT_MAX_KEY_SIZE.

(** ** Notions *)
(** A token that came out of l8w8jwt_encode: on which platform, with which libraries, from which request. *)
Record issue := Issue { i_platform : platform; i_env : env; i_request : enc_params; i_token : bytes }.
Definition was_issued (i : issue) : Prop :=
  (6 <= p_size_bits (i_platform i))%N
  /\ exists w r w' b, wf w /\ appended w w' /\ allocated w w'
     /\ l8w8jwt_encode (i_platform i) (i_env i) (Some (i_request i)) w = Ret r w'
     /\ er_rc r = L8W8JWT_SUCCESS /\ er_out r = Some (Ptr b (i_token i ++ [x00])).
(** [m] is what the signature of the issued token covers: all of it up to its last dot. *)
Definition covers (i : issue) (m : bytes) : Prop := exists s, i_token i = m ++ lit "." ++ s /\ no_dot s.
(** [sig] verifies as a signature of [m], and nobody issued one. *)
Definition forgery (e : env) (j : jwa) (k : bytes) (log : list issue) (m sig : bytes) : Prop :=
  verified_by e j k m sig /\ forall i, In i log -> ~ covers i m.
(** The claims of the request besides the registered ones. *)
Definition additional (ep : enc_params) : list claim := header_claims ep ++ payload_claims ep.
(** The call handed out what [ep] asked to be put into the token, and flagged what does not match it. *)
Definition speaks_for (e : env) (dp : dec_params) (r : dec_res) (v : N) (ep : enc_params) : Prop :=
  exists b cs j, supported (ep_alg ep) j /\ dr_claims r = Some (CArr b cs, N.of_nat (length cs)) /\ carried ep j cs
    /\ string_flags_right dp ep v (additional ep) /\ time_flags_right e dp ep v (additional ep) /\ typ_flag_right dp v.

(** ** Lemmas *)
Lemma covers_dec i m : covers i m \/ ~ covers i m.
Proof.
  unfold covers. generalize (i_token i). intros t.
  destruct (list_eq_dec Byte.byte_eq_dec (firstn (length m) t) m) as [E1|E1].
  2:{ right. intros (s & -> & _). apply E1. apply firstn_app_exact. }
  assert (Et : t = m ++ skipn (length m) t) by (rewrite <- E1 at 1; symmetry; apply firstn_skipn).
  destruct (skipn (length m) t) as [|c s].
  - right. intros (s & E & _). rewrite E in Et. apply app_inv_head in Et. discriminate.
  - destruct (Byte.byte_eq_dec c x2e) as [->|Hc].
    2:{ right. intros (s' & E & _). rewrite E in Et. apply app_inv_head in Et. inversion Et. congruence. }
    destruct (in_dec Byte.byte_eq_dec x2e s) as [Hd|Hd].
    + right. intros (s' & E & N). rewrite E in Et. apply app_inv_head in Et. inversion Et. subst s'. contradiction.
    + left. exists s. auto.
Qed.
Lemma last_dot a b s t : no_dot s -> no_dot t -> a ++ lit "." ++ s = b ++ lit "." ++ t -> a = b /\ s = t.
Proof.
  change (lit ".") with [x2e]. cbn [app]. intros Hs Ht. revert b. induction a as [|x a IH]; intros [|y b] E; cbn [app] in E.
  - inversion E. auto.
  - exfalso. inversion E; subst. apply Hs. apply in_app_iff. right. left. reflexivity.
  - exfalso. inversion E; subst. apply Ht. apply in_app_iff. right. left. reflexivity.
  - inversion E; subst. destruct (IH b) as [-> ->]; auto.
Qed.
Lemma first_dot_cut a b s t : no_dot a -> no_dot b -> a ++ lit "." ++ s = b ++ lit "." ++ t -> a = b /\ s = t.
Proof.
  change (lit ".") with [x2e]. cbn [app]. intros Ha. revert b. induction a as [|x a IH]; intros [|y b] Hb E; cbn [app] in E.
  - inversion E. auto.
  - exfalso. inversion E; subst. apply Hb. left. reflexivity.
  - exfalso. inversion E; subst. apply Ha. left. reflexivity.
  - inversion E; subst. destruct (IH (fun K => Ha (or_intror K)) b (fun K => Hb (or_intror K))) as [-> ->]; auto.
Qed.
(** What comes back without a backslash is what was there. *)
Lemma comes_back_plain s0 s : comes_back s0 s -> ~ In x5c s -> s0 = s.
Proof.
  intros C. induction C as [|c s s' Hc C IH|c h1 h2 h3 h4 s s' Hc Hu C IH]; intros H; [reflexivity| |].
  - f_equal. apply IH. intros K. apply H. right. exact K.
  - exfalso. apply H. left. reflexivity.
Qed.

(** A token whose signed part was issued hands out what was asked for. *)
Lemma issued_claims i p e dp w r w' jwt h pl rest :
  was_issued i -> well_posed (i_request i) ->
  wf w -> appended w w' -> uses_jsmn e -> (32 <= p_size_bits p)%N -> checknum_right e -> dp_alg dp <> (-1)%Z ->
  l8w8jwt_decode p e (Some dp) true true true w = Ret r w' -> dr_rc r = L8W8JWT_SUCCESS ->
  text dp jwt -> three_parts jwt h pl rest -> covers i (h ++ lit "." ++ pl) ->
  exists b cs j, supported (ep_alg (i_request i)) j /\ dr_claims r = Some (CArr b cs, N.of_nat (length cs))
    /\ carried (i_request i) j cs.
Proof.
  intros (Hp6 & wi & ri & wi' & bi & Hwfi & Hgi & Hai & Hi & Hrci & Hoi) (C1 & C2 & C3 & C4) Hwf Hg Huj Hp Hcn Hal H Hrc (bj & Ej) H3 (s & Es & Ns).
  as_unlimited (local_encode (i_platform i) (i_env i) (Some (i_request i))) Hi Hgi Hai.
  apply encode_inv in Hi as [(Hrc' & _)|(_ & _ & id & t & Ho & _ & _ & _ & _ & _ & Ht)]; auto; [congruence|].
  assert (t = i_token i) as ->.
  { assert (E : t ++ [x00] = i_token i ++ [x00]) by congruence. apply app_inj_tail in E as [E _]. exact E. }
  destruct (Ht Hgi) as (ht & pt & sig & Hh & Hpt & Hne & (j & k & Hj & Hk & Hs) & Et).
  destruct (header_object _ _ _ _ Hh Hai Hj C1 C3) as (hadd & (A1 & W1) & O1).
  destruct (payload_object _ _ _ Hpt Hai C2 C4) as (reg & padd & (A2 & W2) & (A3 & W3) & O2).
  unfold b64url in *.
  destruct (unpadded_clean ht) as [N1 _]. destruct (unpadded_clean pt) as [N2 _]. destruct (unpadded_clean sig) as [N3 _].
  assert (Hm : h = rfc4648_unpadded true ht /\ pl = rfc4648_unpadded true pt).
  { rewrite Es, app_assoc_reverse in Et. 
    assert (Et' : (h ++ lit "." ++ pl) ++ lit "." ++ s
        = (rfc4648_unpadded true ht ++ lit "." ++ rfc4648_unpadded true pt) ++ lit "." ++ rfc4648_unpadded true sig)
      by (rewrite <- !app_assoc in *; exact Et).
    apply last_dot in Et' as [Et' _]; auto. destruct H3 as (_ & D1 & _). apply first_dot_cut in Et'; auto. }
  destruct Hm as [-> ->].
  destruct (C31_members_partial p e dp w r w' Hwf Hg Huj Hp Hcn H Hrc) as (h' & pl' & hj & pj & ht' & pt' & TP & D1 & D2 & Hcl).
  assert (Hm : h' = rfc4648_unpadded true ht /\ pl' = rfc4648_unpadded true pt).
  { destruct TP as [jwt' h0 pl0 rest0 (b' & Ej') T|jwt' h0 s0 rest0 n0 _ K _ _ _ _ _ _]; [|contradiction].
    assert (jwt' = jwt) by congruence. subst jwt'. destruct (three_parts_fun _ _ _ _ _ _ _ T H3) as (-> & -> & _). auto. }
  destruct Hm as [-> ->].
  destruct (text_decodes ht (object_not_empty _ _ O1)) as (t1 & E1). destruct (text_decodes pt (object_not_empty _ _ O2)) as (t2 & E2).
  destruct (url_decodes_fun _ _ _ _ _ D1 E1) as [_ ->]. destruct (url_decodes_fun _ _ _ _ _ D2 E2) as [_ ->].
  destruct (Hcl _ _ (object_text_of _ _ O1) (object_text_of _ _ O2)) as (b & cs & Ec & HF & _).
  exists b, cs, j. split; [exact Hj|]. split; [exact Ec|].
  rewrite <- app_assoc in HF.
  apply Forall2_app_inv_r in HF as (fs & x1 & F1 & HF & ->). apply Forall2_app_inv_r in HF as (hs & x2 & F2 & HF & ->).
  apply Forall2_app_inv_r in HF as (rs & ps & F3 & F4 & ->).
  exists fs, hs, rs, ps. split; [reflexivity|]. split; [eapply back_fixed; eauto|]. split; [eapply back_claims; eauto|].
  split; [eapply back_registered; eauto|eapply back_claims; eauto].
Qed.

(** ** C77 *)
(** Whatever bytes are decoded, by whomever they were put together: if the call succeeds and does not flag the signature,
    then the signature covers a text that is forged, or one that was issued; in the second case the claims handed out
    and the flags of all other checks are those of the request it was issued for. *)
Theorem C77_authentic :
  forall log p e dp w r w' v jw k,
    Forall was_issued log ->
    wf w -> appended w w' -> uses_jsmn e -> (32 <= p_size_bits p)%N -> checknum_right e ->
    supported (dp_alg dp) jw -> caller_key (dp_verification_key dp) (dp_verification_key_length dp) k -> hex_if_ed jw k ->
    l8w8jwt_decode p e (Some dp) true true true w = Ret r w' -> dr_rc r = L8W8JWT_SUCCESS ->
    dr_valid r = Some v -> N.testbit v 7 = false ->
    exists jwt h pl rest third sig tail looked,
      text dp jwt /\ three_parts jwt h pl rest /\ third_segment p dp h pl rest third /\ url_decodes third sig tail
      /\ signature_read e jw k sig tail looked
      /\ (forgery e jw k log (h ++ lit "." ++ pl) looked
          \/ exists i, In i log /\ covers i (h ++ lit "." ++ pl)
             /\ (well_posed (i_request i) -> speaks_for e dp r v (i_request i))).
Proof.
  intros log p e dp w r w' v jw k Hlog Hwf Hg Huj Hp Hcn Hj Hk Hx H Hrc Hv Hb.
  destruct (decode_signature _ _ _ _ _ _ _ _ _ _ _ Hwf H Hrc Hv Hj Hk Hx)
    as (jwt & h & pl & rest & third & sig & tail & Hte & H3 & Hth & Hd & Hsig).
  destruct (proj1 Hsig Hb) as (looked & Hl1 & Hl2).
  exists jwt, h, pl, rest, third, sig, tail, looked. do 3 (split; [assumption|]).
  split; [apply b64_decodes_url; exact Hd|]. split; [exact Hl1|].
  assert (D : (exists i, In i log /\ covers i (h ++ lit "." ++ pl)) \/ forall i, In i log -> ~ covers i (h ++ lit "." ++ pl)).
  { clear. induction log as [|a l IH]; [right; intros i []|].
    destruct (covers_dec a (h ++ lit "." ++ pl)) as [C|C]; [left; exists a; split; [left; reflexivity|exact C]|].
    destruct IH as [(i & I1 & I2)|IH]; [left; exists i; split; [right; exact I1|exact I2]|].
    right. intros i [->|Hi]; [exact C|exact (IH i Hi)]. }
  destruct D as [(i & I1 & I2)|D]; [right|left; split; assumption].
  exists i. split; [exact I1|]. split; [exact I2|]. intros Hwp.
  rewrite Forall_forall in Hlog.
  assert (Hal : dp_alg dp <> (-1)%Z) by (destruct (supported_range _ _ Hj); lia).
  destruct (issued_claims i p e dp w r w' jwt h pl rest (Hlog i I1) Hwp Hwf Hg Huj Hp Hcn Hal H Hrc Hte H3 I2)
    as (b & cs & j & Hji & Ec & Hca).
  assert (Acc : accepted p e dp r v) by (split; [exact Huj|]; split; [exact Hp|]; split; [exists w, w'; auto|auto]).
  exists b, cs, j. split; [exact Hji|]. split; [exact Ec|]. split; [exact Hca|].
  exact (carried_flags p e dp r v (i_request i) j b cs Acc Ec Hca).
Qed.
Print Assumptions C77_authentic.

(** The same for a caller who asked for a subject (an audience, an issuer, an id) and for a token in time, and was told
    that the token is valid: it was issued for that subject and is in time, or it is forged. *)
Theorem C77_issued_as_asked :
  forall log p e dp w r w' jw k,
    Forall was_issued log -> Forall (fun i => well_posed (i_request i)) log ->
    wf w -> appended w w' -> uses_jsmn e -> (32 <= p_size_bits p)%N -> checknum_right e ->
    supported (dp_alg dp) jw -> caller_key (dp_verification_key dp) (dp_verification_key_length dp) k -> hex_if_ed jw k ->
    l8w8jwt_decode p e (Some dp) true true true w = Ret r w' -> dr_rc r = L8W8JWT_SUCCESS ->
    dr_valid r = Some L8W8JWT_VALID ->
    (exists jwt h pl rest third sig tail looked,
       text dp jwt /\ three_parts jwt h pl rest /\ third_segment p dp h pl rest third /\ url_decodes third sig tail
       /\ signature_read e jw k sig tail looked /\ forgery e jw k log (h ++ lit "." ++ pl) looked)
    \/ exists i ep, In i log /\ i_request i = ep
       /\ (forall bit name x xn y yn s, In (bit, name, (x, xn), (y, yn)) (string_checks dp ep) -> given x xn s -> ~ In x5c s ->
             unshadowed name (additional ep) -> given y yn s)
       /\ (forall c, time_requested dp c = true -> ordinary_time (limit e dp c) -> unshadowed (time_name c) (additional ep) ->
             issued_time ep c <> 0%Z /\ ~ out_of_time c (limit e dp c) (issued_time ep c mod 2 ^ 64)).
Proof.
  intros log p e dp w r w' jw k Hlog Hwp Hwf Hg Huj Hp Hcn Hj Hk Hx H Hrc Hv.
  destruct (C77_authentic log p e dp w r w' _ jw k Hlog Hwf Hg Huj Hp Hcn Hj Hk Hx H Hrc Hv eq_refl)
    as (jwt & h & pl & rest & third & sig & tail & looked & Hte & H3 & Hth & Hd & Hl & [F|(i & I1 & I2 & I3)]).
  - left. exists jwt, h, pl, rest, third, sig, tail, looked. tauto.
  - right. exists i, (i_request i). split; [exact I1|]. split; [reflexivity|].
    rewrite Forall_forall in Hwp. destruct (I3 (Hwp i I1)) as (b & cs & j & _ & _ & _ & S & T & _). split.
    + intros bit name x xn y yn s Hin G Hn Hu. destruct (S _ _ _ _ _ _ _ Hin G Hu) as (S1 & _ & _).
      destruct (S1 (N.bits_0 _)) as (s0 & G0 & C). rewrite <- (comes_back_plain _ _ C Hn). exact G0.
    + intros c Hq Ho Hu. apply (T c Hq Ho Hu). apply N.bits_0.
Qed.
Print Assumptions C77_issued_as_asked.

(** ** Examples *)
(** The token of [ep_sample], asked about with everything it carries (C51_example), and a log that holds its issue. *)
Definition sample_issue : issue := Issue pe toy_num ep_sample issued_text.
Definition sample_asked : dec_params := issued_params (zstr "Black Mesa") Null 0.
Lemma sample_well_posed : well_posed ep_sample.
Proof. destruct C11_example_hypotheses as (H1 & H2 & H3 & H4). exact (conj H1 (conj H2 (conj H3 H4))). Qed.
Lemma sample_was_issued : was_issued sample_issue.
Proof.
  split; [vm_compute; discriminate|].
  destruct (l8w8jwt_encode pe toy_num (Some ep_sample) we) as [r w'|u] eqn:E; [|vm_compute in E; discriminate].
  exists we, r, w'. assert (A : appended we w' /\ allocated we w').
  { split; intros k _; reflexivity. }
  assert (X : match l8w8jwt_encode pe toy_num (Some ep_sample) we with
              | Ret r _ => (er_rc r =? 0)%Z && match er_out r with Some (Ptr _ t) => beq t (issued_text ++ [x00]) | _ => false end
              | Undef _ => false end = true) by (vm_compute; reflexivity).
  rewrite E in X. apply andb_true_iff in X as [X1 X2].
  destruct (er_out r) as [[|b t]|] eqn:Eo; try discriminate X2. exists b.
  split; [apply we_wf|]. split; [apply A|]. split; [apply A|]. split; [exact E|]. split; [apply Z.eqb_eq; exact X1|].
  unfold beq in X2. destruct (list_eq_dec Byte.byte_eq_dec t (issued_text ++ [x00])) as [->|]; [reflexivity|discriminate].
Qed.
Example C77_example :
  let log := [sample_issue] in
  Forall was_issued log /\ Forall (fun i => well_posed (i_request i)) log
  /\ wf we /\ uses_jsmn toy_num /\ checknum_right toy_num
  /\ supported (dp_alg sample_asked) (Jwa 0 (lit "HS256") HS SHA256)
  /\ caller_key (dp_verification_key sample_asked) (dp_verification_key_length sample_asked) (lit "secret")
  /\ hex_if_ed (Jwa 0 (lit "HS256") HS SHA256) (lit "secret")
  (* the call succeeds and finds the token valid *)
  /\ (exists r w', l8w8jwt_decode pe toy_num (Some sample_asked) true true true we = Ret r w'
        /\ appended we w' /\ dr_rc r = L8W8JWT_SUCCESS /\ dr_valid r = Some L8W8JWT_VALID)
  (* so the request it was issued for is the one in the log; what that request supplied is what was asked for *)
  /\ (exists s, given (dp_validate_sub sample_asked) (dp_validate_sub_length sample_asked) s /\ ~ In x5c s
        /\ given (ep_sub ep_sample) (ep_sub_length ep_sample) s)
  (* without that entry the same call would count as a forgery *)
  /\ (exists h pl s, issued_text = h ++ lit "." ++ pl ++ lit "." ++ s /\ covers sample_issue (h ++ lit "." ++ pl)
        /\ forall sig, verified_by toy_num (Jwa 0 (lit "HS256") HS SHA256) (lit "secret") (h ++ lit "." ++ pl) sig ->
             forgery toy_num (Jwa 0 (lit "HS256") HS SHA256) (lit "secret") [] (h ++ lit "." ++ pl) sig).
Proof.
  cbv zeta. split; [constructor; [apply sample_was_issued|constructor]|]. split; [constructor; [apply sample_well_posed|constructor]|].
  split; [apply we_wf|]. split; [intros js cap; reflexivity|]. split; [apply toy_num_right|].
  split; [apply hs256_supported|]. split; [exact (proj1 hmac_key_secret)|]. split; [discriminate|]. split.
  { destruct (l8w8jwt_decode pe toy_num (Some sample_asked) true true true we) as [r w'|u] eqn:E; [|vm_compute in E; discriminate].
    exists r, w'. split; [reflexivity|]. split; [intros k _; reflexivity|].
    assert (X : verdict_of (l8w8jwt_decode pe toy_num (Some sample_asked) true true true we) = Some (0%Z, Some 0%N, Some 9%N))
      by (vm_compute; reflexivity).
    rewrite E in X. cbn [verdict_of] in X. split; [change (dr_rc r = 0%Z)|change (dr_valid r = Some 0%N)]; congruence. }
  split.
  { exists (lit "Gordon""F"). split; [vm_compute; split; [discriminate|reflexivity]|].
    split; [intros K; vm_compute in K; decompose [or] K; try discriminate; assumption|].
    vm_compute; split; [discriminate|reflexivity]. }
  set (h := rfc4648_unpadded true (lit "{""alg"":""HS256"",""typ"":""JWT"",""kid"":""k1""}")).
  set (pl := rfc4648_unpadded true (lit "{""iat"":1000,""exp"":2000,""sub"":""Gordon\""F"",""iss"":""Black Mesa"",""ctx"":{""a"":[1, 2]},""age"":27}")).
  set (s := skipn (length h + length pl + 2) issued_text).
  assert (E : issued_text = h ++ lit "." ++ pl ++ lit "." ++ s) by (vm_compute; reflexivity).
  exists h, pl, s. split; [exact E|]. split.
  - exists s. split; [rewrite <- !app_assoc; exact E|]. intros K.
    assert (B : forallb (fun c => negb (Byte.eqb c x2e)) s = true) by (vm_compute; reflexivity).
    rewrite forallb_forall in B. apply B in K. discriminate K.
  - intros sig V. split; [exact V|]. intros i [].
Qed.
