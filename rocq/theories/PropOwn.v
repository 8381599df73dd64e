(** * Property C86: the library reads the tokens it issues, JSON or not *)
From Verif Require Import Base BaseProofs HeapProofs Util UtilProofs Claim Base64 SpecB64
  Base64EncProofs Base64EncApi Base64DecProofs Base64Api Jsmn Env Encode Decode SpecJson SpecJwa ClaimProofs UnescapeProofs
  EncodeProofs SignProofs EncodeTotal SpecEnc JsonProofs PropEncode DecodeProofs DecodeInv JsmnProofs ParseProofs
  PropClaim ReadProofs ValidateProofs JsmnJson JsmnSize PropVerify PropValidate PropLeak PropJson DecodeTotal DecodeOk PropSafe LocalProofs
  PropRoundTrip Lax.
From Coq Require Import ZifyBool ZifyNat ZifyN.
Ltac Zify.zify_post_hook ::= Z.div_mod_to_equations.
Local Opaque L8W8JWT_MAX_KEY_SIZE.

(** ** Notions *)
(** How many names and values a claim amounts to in the token: two for a string, else one more than the
    JSON value has, and together. *)
Inductive claim_size (c : claim) : N -> Prop :=
| Cz_string : c_type c = L8W8JWT_CLAIM_TYPE_STRING -> claim_size c 2
| Cz_raw v w1 t w2 n : c_type c <> L8W8JWT_CLAIM_TYPE_STRING -> given (c_value c) (c_value_length c) v ->
    json_ws w1 -> value_size t n -> json_ws w2 -> v = w1 ++ t ++ w2 -> claim_size c (1 + n).
Inductive claims_size : list claim -> N -> Prop :=
| Cz_nil : claims_size [] 0
| Cz_cons c n cs m : claim_size c n -> claims_size cs m -> claims_size (c :: cs) (n + m).
(** The registered claims of a request. *)
Definition registered_count (ep : enc_params) : N :=
  let time (t : Z) := if (t =? 0)%Z then 0%N else 1%N in
  let string (q : ptr) := if is_null q then 0%N else 1%N in
  (time (ep_iat ep) + time (ep_nbf ep) + time (ep_exp ep)
   + string (ep_sub ep) + string (ep_iss ep) + string (ep_aud ep) + string (ep_jti ep))%N.
(** The decoder can cope: the last of the additional claims is no array or object, or the object with its
    [fixed] members before them has at most 62 names and values. *)
Definition manageable (fixed : N) (cs : list claim) : Prop :=
  last_flat cs \/ exists n, claims_size cs n /\ (1 + 2 * fixed + n <= 62)%N.

(** ** The texts encode writes *)
Lemma counts_member k kd w1 t w2 n : json_body k kd -> json_ws w1 -> value_size t n -> json_ws w2 ->
  counts (quoted k ++ lit ":" ++ w1 ++ t ++ w2) (1 + n).
Proof.
  intros Hk H1 Hv H2. apply (proj2 (proj2 sizes_counted)). apply (MS_one [] k kd [] w1 t n w2); auto.
Qed.
Lemma text_counts c t n : text_of c t -> claim_size c n -> counts t n.
Proof.
  intros (k & v & Gk & Gv & ->) Hs. unfold member_bytes, is_str. destruct Hs as [E|v' w1 t w2 n E Gv' H1 Hv H2 Ev].
  - rewrite E. cbn [Z.eqb L8W8JWT_CLAIM_TYPE_STRING].
    pose proof (counts_member (escape k) k [] (quoted (escape v)) [] 1 (escape_body k) ws_nil (VS_string _ _ (escape_body v)) ws_nil) as C.
    cbn [app] in C. rewrite app_nil_r in C. exact C.
  - destruct (Z.eqb_spec (c_type c) L8W8JWT_CLAIM_TYPE_STRING); [contradiction|].
    rewrite (given_det _ _ _ _ Gv Gv'), Ev. eapply counts_member; eauto. apply escape_body.
Qed.
Lemma texts_sums cs ts : Forall2 text_of cs ts -> forall n, claims_size cs n -> sums counts ts n.
Proof.
  induction 1 as [|c t cs ts H _ IH]; intros n Hn; inversion Hn; subst; constructor; auto. eapply text_counts; eauto.
Qed.
Lemma has_size cs ts : Forall2 text_of cs ts -> raw_values_ok cs -> exists n, claims_size cs n.
Proof.
  induction 1 as [|c t cs ts (k & v & Gk & Gv & _) _ IH]; intros Hr; [exists 0%N; constructor|].
  inversion Hr as [|? ? Hc Hrs]; subst. destruct (IH Hrs) as (m & Hm).
  destruct (Z.eq_dec (c_type c) L8W8JWT_CLAIM_TYPE_STRING) as [E|E].
  - exists (2 + m)%N. constructor; [constructor; exact E|exact Hm].
  - destruct (Hc E v Gv) as (w1 & kd & u & w2 & H1 & Hu & H2 & Ev). destruct (proj1 sized _ _ Hu) as (n & Hn).
    exists (1 + n + m)%N. constructor; [exact (Cz_raw c v w1 u w2 n E Gv H1 Hn H2 Ev)|exact Hm].
Qed.
Lemma flat_size k t : json_value k t -> container k = false -> value_size t 1.
Proof.
  intros Hv Hc. destruct Hv; try discriminate Hc;
    [eapply VS_string|eapply VS_number|apply VS_true|apply VS_false|apply VS_null]; eassumption.
Qed.
Lemma flat_text m t : member_text m t -> container (m_kind m) = false -> counts t 2.
Proof.
  intros (d & w1 & w2 & Hk & H1 & H2 & Hv & ->) Hf. apply (counts_member _ d _ _ _ 1); auto. eapply flat_size; eauto.
Qed.
Lemma flat_sums ms ts : Forall2 member_text ms ts -> Forall (fun m => container (m_kind m) = false) ms ->
  sums counts ts (2 * N.of_nat (length ms)).
Proof.
  induction 1 as [|m t ms ts H _ IH]; intros Hf; [constructor|]. inversion Hf; subst.
  replace (2 * N.of_nat (length (m :: ms)))%N with (2 + 2 * N.of_nat (length ms))%N by (cbn [length]; lia).
  constructor; [eapply flat_text; eauto|auto].
Qed.
Lemma not_container m : m_kind m <> KArray /\ m_kind m <> KObject -> container (m_kind m) = false.
Proof. intros [H1 H2]. destruct (m_kind m); congruence || reflexivity. Qed.
Lemma string_member_of m t : member_text m t -> m_kind m = KString -> string_text_of t -> string_member_text m t.
Proof.
  intros (d & w1 & w2 & Hk & H1 & H2 & Hv & Et) Ek (kb & kd & vb & vd & Bk & Bv & Et').
  destruct m as [mk mkd mv]. cbn [m_key m_kind m_value] in *. subst mkd.
  rewrite Et in Et'. destruct (quoted_unique _ _ _ _ _ _ Hk Bk Et') as (-> & E2).
  injection E2 as E2. inversion Hv as [b bd Hb Eb Em| | | | | | | |]; subst.
  change (quoted vb) with (x22 :: vb ++ [x22]) in E2. apply ws_head in E2 as (-> & E2); [|exact H1|intros Hin; notin Hin].
  change (quoted b ++ w2 = quoted vb) in E2. rewrite <- (app_nil_r (quoted vb)) in E2.
  destruct (quoted_unique _ _ _ _ _ _ Hb Bv E2) as (-> & ->). exists kb, kd, vb, bd. split; [exact Bk|]. split; [exact Hb|].
  split; [reflexivity|]. cbn [app]. rewrite app_nil_r. reflexivity.
Qed.
Lemma string_members_of ms ts : Forall2 member_text ms ts -> Forall (fun m => m_kind m = KString) ms -> Forall string_text_of ts ->
  Forall2 string_member_text ms ts.
Proof.
  induction 1 as [|m t ms ts H _ IH]; intros H1 H2; [constructor|]. inversion H1; inversion H2; subst.
  constructor; [apply string_member_of; auto|auto].
Qed.
Lemma registered_strings ep ms : asks_registered ep ms -> ~ some_time ep -> Forall (fun m => m_kind m = KString) ms.
Proof.
  intros (iat & nbf & exp & sub & iss & aud & jti & -> & H1 & H2 & H3 & H4 & H5 & H6 & H7) Hn.
  assert (T : forall name t l, asks_time name t l -> t = 0%Z -> l = []).
  { intros name t l [(_ & ->)|(C & _)] E; [reflexivity|contradiction]. }
  assert (S : forall name q n l, asks_string name q n l -> Forall (fun m => m_kind m = KString) l).
  { intros name q n l [(_ & ->)|(v & b & _ & _ & ->)]; [constructor|]. constructor; [reflexivity|constructor]. }
  unfold some_time in Hn.
  rewrite (T _ _ _ H1) by (destruct (Z.eq_dec (ep_iat ep) 0); [assumption|exfalso; apply Hn; auto]).
  rewrite (T _ _ _ H2) by (destruct (Z.eq_dec (ep_nbf ep) 0); [assumption|exfalso; apply Hn; auto]).
  rewrite (T _ _ _ H3) by (destruct (Z.eq_dec (ep_exp ep) 0); [assumption|exfalso; apply Hn; auto]).
  cbn [app]. repeat (apply Forall_app; split; [eapply S; eassumption|]). eapply S; eassumption.
Qed.
Lemma registered_number ep ms : asks_registered ep ms -> N.of_nat (length ms) = registered_count ep.
Proof.
  intros (iat & nbf & exp & sub & iss & aud & jti & -> & H1 & H2 & H3 & H4 & H5 & H6 & H7).
  assert (T : forall name t l, asks_time name t l -> N.of_nat (length l) = if (t =? 0)%Z then 0%N else 1%N).
  { intros name t l [(-> & ->)|(C & d & -> & _)]; [reflexivity|]. destruct (Z.eqb_spec t 0); [contradiction|reflexivity]. }
  assert (S : forall name q n l, asks_string name q n l -> N.of_nat (length l) = if is_null q then 0%N else 1%N).
  { intros name q n l [(-> & ->)|(v & b & G & _ & ->)]; [reflexivity|]. destruct q; [contradiction|reflexivity]. }
  unfold registered_count. cbv zeta.
  rewrite <- (T _ _ _ H1), <- (T _ _ _ H2), <- (T _ _ _ H3), <- (S _ _ _ _ H4), <- (S _ _ _ _ H5), <- (S _ _ _ _ H6), <- (S _ _ _ _ H7).
  rewrite !app_length. lia.
Qed.
Lemma texts_ok ms ts : Forall2 member_text ms ts -> Forall member_ok ms.
Proof.
  induction 1 as [|m t ms ts (d & w1 & w2 & Hk & _ & _ & Hv & _) _ IH]; [constructor|]. constructor; [split; eauto|exact IH].
Qed.

Lemma header_braced ep (ok : Prop) ht j :
  header_text ep ok ht -> ok -> supported (ep_alg ep) j ->
  raw_values_ok (keyed_claims (ep_header_claims ep) (ep_header_claims_count ep)) ->
  exists add, (Forall2 asks_for (keyed_claims (ep_header_claims ep) (ep_header_claims_count ep)) add
      /\ Forall2 written (keyed_claims (ep_header_claims ep) (ep_header_claims_count ep)) add)
    /\ Forall member_ok (fixed_members j ++ add)
    /\ exists n, claims_size (keyed_claims (ep_header_claims ep) (ep_header_claims_count ep)) n
    /\ forall n, claims_size (keyed_claims (ep_header_claims ep) (ep_header_claims_count ep)) n ->
        braced (fixed_members j ++ add) ht (2 * N.of_nat (length (fixed_members j)) + n).
Proof.
  intros (h & t & Hh & Hw & ->) Hok Hj Hr.
  destruct (header_fixed _ _ _ Hh Hj) as (fts & -> & Hf).
  destruct (wrote_text _ _ _ _ Hw Hok) as (ts & Hts & ->).
  destruct (texts_members _ _ Hts Hr) as (ms & Ha & Haw & Hm).
  exists ms. split; [auto|]. split; [apply Forall_app; split; eapply texts_ok; eassumption|].
  destruct (has_size _ _ Hts Hr) as (n0 & Hn0). exists n0. split; [exact Hn0|]. clear n0 Hn0. intros n Hs.
  assert (P1 : piece false (fixed_members j) (join fts) (2 * N.of_nat (length (fixed_members j)))).
  { apply piece_join; [exact Hf|]. apply flat_sums; [exact Hf|]. apply Forall_forall. intros m Hin. apply not_container, (fixed_flat j m Hin). }
  pose proof (piece_join _ _ Hm _ (texts_sums _ _ Hts _ Hs)) as P2. unfold opt_claims.
  destruct (N.ltb_spec 0 (ep_header_claims_count ep)) as [Hn|Hn].
  - exists ((join fts ++ lit ",") ++ join ts). split; [rewrite <- !app_assoc; reflexivity|].
    apply piece_app; [eapply piece_then_comma; exact P1|exact P2].
  - assert (E : ep_header_claims_count ep = 0%N) by lia. rewrite E in Ha, Hs.
    assert (K : keyed_claims (ep_header_claims ep) 0 = []) by (destruct (ep_header_claims ep); reflexivity).
    rewrite K in Ha, Hs. inversion Ha; inversion Hs; subst. rewrite app_nil_r, N.add_0_r. cbn [app].
    exists (join fts). split; [rewrite <- app_assoc; reflexivity|exact P1].
Qed.
Lemma payload_braced ep (ok : Prop) pt :
  payload_text ep ok pt -> ok ->
  raw_values_ok (keyed_claims (ep_payload_claims ep) (ep_payload_claims_count ep)) ->
  exists reg add, (asks_registered ep reg /\ written_registered ep reg)
    /\ (Forall2 asks_for (keyed_claims (ep_payload_claims ep) (ep_payload_claims_count ep)) add
        /\ Forall2 written (keyed_claims (ep_payload_claims ep) (ep_payload_claims_count ep)) add)
    /\ Forall member_ok (reg ++ add)
    /\ exists n, claims_size (keyed_claims (ep_payload_claims ep) (ep_payload_claims_count ep)) n
    /\ forall n, claims_size (keyed_claims (ep_payload_claims ep) (ep_payload_claims_count ep)) n ->
        braced (reg ++ add) pt (2 * registered_count ep + n).
Proof.
  intros (tbuf & r & t & Htb & Hwr & Hw & ->) Hok Hr.
  destruct (wrote_text _ _ _ _ Hw Hok) as (ts & Hts & ->).
  destruct (wrote_text _ _ _ _ Hwr Hok) as (rts & Hrts & ->).
  cbn [keyed_claims] in Hrts. rewrite firstn_all2 in Hrts by (simpl; lia).
  destruct (registered_members _ _ _ Htb Hrts) as (reg & Hreg & Hrm & _ & Hstr).
  destruct (texts_members _ _ Hts Hr) as (ms & Ha & Haw & Hm).
  exists reg, ms. split; [exact Hreg|]. split; [auto|]. split; [apply Forall_app; split; eapply texts_ok; eassumption|].
  destruct (has_size _ _ Hts Hr) as (n0 & Hn0). exists n0. split; [exact Hn0|]. clear n0 Hn0. intros n Hs.
  rewrite <- (registered_number _ _ (proj1 Hreg)).
  assert (P1 : piece false reg (join rts) (2 * N.of_nat (length reg))).
  { apply piece_join; [exact Hrm|]. apply flat_sums; [exact Hrm|]. apply Forall_forall. intros m Hin.
    apply not_container, (registered_flat ep reg m (proj1 Hreg) Hin). }
  pose proof (piece_join _ _ Hm _ (texts_sums _ _ Hts _ Hs)) as P2. unfold opt_claims.
  destruct (N.ltb_spec 0 (ep_payload_claims_count ep)) as [Hn|Hn].
  - destruct (comma_cases ep) as [(-> & _)|(-> & Hf)].
    + exists ((join rts ++ lit ",") ++ join ts). split; [rewrite <- !app_assoc; reflexivity|].
      apply piece_app; [eapply piece_then_comma; exact P1|exact P2].
    + exists (join rts ++ join ts). split; [cbn [app]; rewrite <- !app_assoc; reflexivity|].
      apply piece_app; [|exact P2]. apply piece_strings. apply string_members_of; [exact Hrm| |].
      * eapply registered_strings; [exact (proj1 Hreg)|tauto].
      * apply Hstr. tauto.
  - assert (E : ep_payload_claims_count ep = 0%N) by lia. rewrite E in Ha, Hs.
    assert (K : keyed_claims (ep_payload_claims ep) 0 = []) by (destruct (ep_payload_claims ep); reflexivity).
    rewrite K in Ha, Hs. inversion Ha; inversion Hs; subst. rewrite app_nil_r, N.add_0_r. cbn [app].
    exists (join rts). split; [reflexivity|exact P1].
Qed.
Lemma manageable_fits f cs ms ms0 n0 : Forall2 asks_for cs ms -> manageable f cs -> claims_size cs n0 ->
  (forall m, In m ms0 -> m_kind m <> KArray /\ m_kind m <> KObject) ->
  exists n, claims_size cs n
    /\ ((1 + (2 * f + n) <= 62)%N \/ forall ms' m, ms0 ++ ms = ms' ++ [m] -> container (m_kind m) = false).
Proof.
  intros A [R|(n & Hs & Hl)] Hn H0; [exists n0; split; [exact Hn|right]|exists n; split; [exact Hs|left; lia]].
  intros ms' m E. apply not_container. destruct ms as [|m1 ms] using rev_ind.
  - rewrite app_nil_r in E. apply H0. rewrite E, in_app_iff. right. left. reflexivity.
  - clear IHms. rewrite app_assoc in E. apply app_inj_tail in E as [_ <-].
    apply Forall2_app_inv_r in A as (cs1 & cs2 & _ & A & ->). inversion A as [|c m cs2' ms'' Hc Hn']; subst. inversion Hn'; subst.
    destruct Hc as (k & v & _ & Gv & _ & Hs & Hr). destruct (Z.eq_dec (c_type c) L8W8JWT_CLAIM_TYPE_STRING) as [Et|Et].
    + destruct (Hs Et) as (-> & _). split; discriminate.
    + destruct (Hr Et) as (Hj & w1 & w2 & W1 & W2 & Ev). destruct (R cs1 c eq_refl) as [C|R']; [contradiction|]. eapply R'; eauto.
Qed.

(** ** Tokens whose texts can be read *)
Lemma accepted_reads p e dp h pl s hj ht pj pt sig st hms pms w :
  wf w -> allocs w -> grows w -> uses_jsmn e -> checknum_right e -> (32 <= p_size_bits p)%N ->
  c_text p dp (h ++ lit "." ++ pl ++ lit "." ++ s) -> no_dot h -> no_dot pl ->
  (Z.of_nat (length (h ++ lit "." ++ pl ++ lit "." ++ s)) <= INT_MAX)%Z ->
  url_decodes h hj ht -> url_decodes pl pj pt -> url_decodes s sig st ->
  reads e (hj ++ ht) (N.of_nat (length hj)) (map (entry_of e) hms) -> reads e (pj ++ pt) (N.of_nat (length pj)) (map (entry_of e) pms) ->
  Forall member_ok (hms ++ pms) ->
  key_ok (dp_verification_key dp) (dp_verification_key_length dp) ->
  signature_passes p e dp (h ++ lit "." ++ pl) sig ->
  requests_ok p e dp -> (dp_validate_typ dp = Null \/ typ_first_ok p (hms ++ pms)) ->
  exists r w' v b cs, l8w8jwt_decode p e (Some dp) true true true w = Ret r w'
    /\ dr_rc r = L8W8JWT_SUCCESS
    /\ dr_valid r = Some v /\ N.testbit v 7 = false /\ (asks_nothing dp -> v = 0%N)
    /\ dr_claims r = Some (CArr b cs, N.of_nat (length cs))
    /\ Forall2 (represents kept_body) cs (hms ++ pms).
Proof.
  intros Hwf Ha Hg Hj Hc Hp Ht N1 N2 Hlen D1 D2 D3 R1 R2 M Hk Hv Hrq Hty.
  pose proof (url_b64_decodes _ _ _ D1) as B1. pose proof (url_b64_decodes _ _ _ D2) as B2. pose proof (url_b64_decodes _ _ _ D3) as B3.
  assert (Hfo : typ_found p dp (map kv_of (map (entry_of e) hms ++ map (entry_of e) pms))).
  { rewrite <- map_app. destruct Hty as [Hty|Hty]; [left; exact Hty|]. apply typ_first_found; [exact M|exact Hty]. }
  pose proof (b64_decodes_shorter _ _ _ B1) as L1. pose proof (b64_decodes_shorter _ _ _ B2) as L2.
  rewrite !app_length in Hlen. change (length (lit ".")) with 1%nat in Hlen.
  destruct (decode_ok p e dp h pl s hj ht pj pt sig st _ _ true true w Hwf Ha Hj Hp eq_refl Ht N1 N2 B1 B2 B3
    ltac:(lia) ltac:(lia) R1 R2 Hk (passes_looked_at _ _ _ _ _ _ Hv) Hrq Hg Hfo)
    as (r & w' & H & Hrc).
  assert (Uniq : forall b' jwt h' pl' rest', dp_jwt dp = Ptr b' jwt -> three_parts jwt h' pl' rest' ->
    h' = h /\ pl' = pl /\ exists rest, rest' = s ++ x00 :: rest).
  { intros b' jwt h' pl' rest' Ej T. destruct Ht as ((b & rest & Ej') & Hz & _).
    assert (jwt = (h ++ lit "." ++ pl ++ lit "." ++ s) ++ x00 :: rest) by congruence. subst jwt.
    assert (T' : three_parts ((h ++ lit "." ++ pl ++ lit "." ++ s) ++ x00 :: rest) h pl (s ++ x00 :: rest)).
    { split; [rewrite <- !app_assoc; reflexivity|]. assert (no_nul h) by (intros K; apply Hz; rewrite !in_app_iff; auto).
      assert (no_nul pl) by (intros K; apply Hz; rewrite !in_app_iff; auto). auto. }
    destruct (three_parts_fun _ _ _ _ _ _ _ T T') as (-> & -> & ->). eauto. }
  destruct (decode_reads _ _ _ _ _ _ _ _ Hwf Hj Hp H Hrc)
    as (sg & hb & hm & pb & pm & eh & ep & id & cs & sub & res1 & v & Hs & P1 & Q1 & P2 & Q2 & _ & Hsub & Hh & T & Hres & Hval & Hvr & Hcl).
  (* claims *)
  specialize (Hsub Hg). subst sub.
  destruct (segments_parts _ _ _ Hs) as (h' & pl' & TP & (id1 & hj' & ht' & D1' & E1) & (id2 & pj' & pt' & D2' & E2)).
  assert (h' = h /\ pl' = pl) as (-> & ->).
  { destruct TP as [jwt h0 pl0 rest (b' & Ej) T0|jwt h0 s0 rest n (b' & Ej) _ E0 Nd _ Ns _ _].
    - destruct (Uniq _ _ _ _ _ Ej T0) as (-> & -> & _). auto.
    - exfalso. destruct Ht as ((b & rest' & Ej') & Hz & _). rewrite Ej' in Ej. injection Ej as _ Ej. rewrite E0 in Ej.
      rewrite <- !app_assoc in Ej. change (lit ".") with [x2e] in Ej. cbn [app] in Ej.
      rewrite <- app_assoc in Ej. refine (no_third pl (s ++ x00 :: rest') s0 rest h h0 _ Ns N1 Nd _); [intros K; apply Hz; rewrite !in_app_iff; auto|].
      exact Ej. }
  destruct (b64_decodes_fun _ _ _ _ _ D1' B1) as [-> ->]. destruct (b64_decodes_fun _ _ _ _ _ D2' B2) as [-> ->].
  rewrite E1 in P1, Q1. rewrite E2 in P2, Q2. cbn [s_ptr s_len] in *.
  assert (hm = hj ++ ht) by congruence. assert (pm = pj ++ pt) by congruence. subst hm pm.
  rewrite (reads_fun _ _ _ _ _ Q1 R1), (reads_fun _ _ _ _ _ Q2 R2), <- map_app in *.
  (* flags *)
  assert (Hb7 : N.testbit v 7 = false).
  { destruct Hv as [Em|(jw & k & Hjw & Hck & Hu & Hv)].
    { destruct (N.testbit v 7) eqn:E7; [exfalso|reflexivity].
      destruct (proj1 (proj1 C28_only_requested_flags p e dp true true w r w' v Hwf H Hrc Hvr) _ E7) as [K|[_ K]]; [apply K; reflexivity|contradiction]. }
    destruct (decode_signature p e dp true true w r w' v jw k Hwf H Hrc Hvr Hjw Hck (verified_hex _ _ _ _ _ Hv))
      as (jwt & h' & pl' & rest' & third & sig' & tail' & (b' & Ej) & T' & (n & En & Hn & Eth) & Hd & Hbit).
    destruct (Uniq _ _ _ _ _ Ej T') as (-> & -> & rest & ->).
    assert (third = s) as ->.
    { destruct Ht as (_ & _ & Hl & Hs'). rewrite !app_length in Hl, Hs'. change (length (lit ".")) with 1%nat in Hl, Hs'.
      rewrite to_size_small in En by lia. rewrite Eth.
      replace (N.to_nat n) with (length s) by lia. apply firstn_app_exact. }
    destruct (b64_decodes_fun _ _ _ _ _ Hd B3) as [-> ->].
    apply Hbit. exists sig. split; [eapply read_whole; eauto|exact Hv]. }
  exists r, w', v, (Some id), cs. repeat (split; [assumption|]). split; [|split; [exact Hcl|]].
  { intros (Z1 & Z2 & Z3 & Z4 & Z5 & Z6 & Z7 & Z8). unfold l8w8jwt_validate_claims in Hval.
    rewrite Z1, Z2, Z3, Z4, Z5, Z6, Z7, Z8 in Hval. cbn [is_null negb flag_if ubind] in Hval.
    assert (v = res1) by congruence. subst v. destruct Hres as [->| ->]; [reflexivity|discriminate Hb7]. }
  unfold told in T. clear - Hc M Hh T. revert M Hh T. generalize (hms ++ pms). intros ms. revert cs.
  induction ms as [|m ms IH]; intros cs K Hh T; cbn [map] in *.
  - inversion Hh; subst. constructor.
  - destruct cs as [|c cs']; [inversion Hh|]. inversion Hh as [|? ? ? ? Hx Hh' ]; subst. inversion T as [|? ? ? ? (_ & _ & Hn) T' ]; subst.
    inversion K as [|? ? Km K']; subst. constructor; [|exact (IH cs' K' Hh' T')].
    exact (proj1 (holds_represents e c m Hc Km Hx Hn)).
Qed.

(** ** C86 *)
(** Whatever is asked for, with values that are JSON where they are copied literally: the token is
    decoded with the matching key (or no look at the signature), and every claim asked for comes back.
    There is no condition on commas: the tokens concerned need not be JSON (C11). *)
Theorem C86_reads_own_tokens :
  forall p e ep w r w',
    (6 <= p_size_bits p)%N -> wf w -> appended w w' -> allocated w w' ->
    l8w8jwt_encode p e (Some ep) w = Ret r w' -> er_rc r = L8W8JWT_SUCCESS ->
    let hcs := keyed_claims (ep_header_claims ep) (ep_header_claims_count ep) in
    let pcs := keyed_claims (ep_payload_claims ep) (ep_payload_claims_count ep) in
    raw_values_ok hcs -> raw_values_ok pcs ->
    exists id token j k,
      er_out r = Some (Ptr (Some id) (token ++ [x00])) /\ er_len r = Some (N.of_nat (length token))
      /\ supported (ep_alg ep) j /\ caller_key (ep_secret_key ep) (ep_secret_key_length ep) k
      /\ forall p' e' dp w1,
         wf w1 -> grows w1 -> allocs w1 -> (32 <= p_size_bits p')%N -> uses_jsmn e' -> checknum_right e' ->
         manageable (N.of_nat (length (fixed_pairs j))) hcs -> manageable (registered_count ep) pcs ->
         c_text p' dp token -> (Z.of_nat (length token) <= INT_MAX)%Z ->
         key_ok (dp_verification_key dp) (dp_verification_key_length dp) ->
         (dp_alg dp = (-1)%Z \/ dp_alg dp = ep_alg ep /\ right_key p' e e' ep dp j k) ->
         requests_ok p' e' dp ->
         exists r' w2 v b fs hs rs ps, l8w8jwt_decode p' e' (Some dp) true true true w1 = Ret r' w2
           /\ dr_rc r' = L8W8JWT_SUCCESS
           /\ dr_valid r' = Some v /\ N.testbit v 7 = false /\ (asks_nothing dp -> v = 0%N)
           /\ dr_claims r' = Some (CArr b (fs ++ hs ++ rs ++ ps), N.of_nat (length (fs ++ hs ++ rs ++ ps)))
           /\ fixed_back j fs /\ Forall2 claim_back hcs hs /\ registered_back ep rs /\ Forall2 claim_back pcs ps.
Proof.
  intros p e ep w r w' Hp Hwf Hg Ha H Hrc hcs pcs Hhr Hpr.
  as_unlimited (local_encode p e (Some ep)) H Hg Ha.
  apply encode_inv in H as [(Hrc' & _)|(_ & _ & id & t & Ho & Hlen & _ & _ & _ & _ & Ht)]; auto; [congruence|].
  destruct (Ht Hg) as (ht & pt & sig & Hh & Hpt & Hne & (j & k & Hj & Hk & Hs) & Et).
  destruct (header_braced _ _ _ _ Hh Ha Hj Hhr) as (hadd & (A1 & W1) & K1 & n1 & Z1 & O1).
  destruct (payload_braced _ _ _ Hpt Ha Hpr) as (reg & padd & (A2 & W2) & (A3 & W3) & K2 & n2 & Z2 & O2).
  exists id, t, j, k. split; [exact Ho|]. split; [exact Hlen|]. split; [exact Hj|]. split; [exact Hk|].
  intros p' e' dp w1 Hwf1 Hg1 Ha1 Hp' Huj Hcn R1 R2 Htx Hln Hko Hky Hrq.
  assert (Lf : length (fixed_pairs j) = length (fixed_members j)).
  { unfold fixed_pairs, fixed_members. rewrite !app_length. destruct (j_family j) as [| | |[] ? ?|]; reflexivity. }
  rewrite Lf in R1.
  destruct (manageable_fits _ _ _ _ _ A1 R1 Z1 (fixed_flat j)) as (m1 & Y1 & F1).
  destruct (manageable_fits _ _ _ _ _ A3 R2 Z2 (fun m => registered_flat ep reg m A2)) as (m2 & Y2 & F2).
  specialize (O1 m1 Y1). specialize (O2 m2 Y2).
  assert (Ne : forall ms x n, braced ms x n -> x <> []) by (intros ms x n (b & -> & _); discriminate).
  destruct (text_decodes ht (Ne _ _ _ O1)) as (t1 & D1). destruct (text_decodes pt (Ne _ _ _ O2)) as (t2 & D2).
  destruct (text_decodes sig Hne) as (t3 & D3).
  destruct (unpadded_clean ht) as [N1 _]. destruct (unpadded_clean pt) as [N2 _].
  rewrite Et in Htx, Hln. unfold b64url in *.
  assert (Hps : signature_passes p' e' dp (rfc4648_unpadded true ht ++ lit "." ++ rfc4648_unpadded true pt) sig).
  { destruct Hky as [Hky|(Halg & k' & Hck & Hus & Hsh & Hmk)]; [left; exact Hky|right]. exists j, k'. rewrite Halg.
    split; [exact Hj|]. split; [exact Hck|]. split; [exact Hus|]. exact (signed_verified _ _ _ _ _ _ _ _ _ Hsh Hmk Hs). }
  destruct (accepted_reads p' e' dp _ _ _ ht t1 pt t2 sig t3 (fixed_members j ++ hadd) (reg ++ padd) w1
    Hwf1 Ha1 Hg1 Huj Hcn Hp' Htx N1 N2 Hln D1 D2 D3
    (reads_braced e' _ _ _ t1 O1 K1 (nums_known _ _ Hcn K1) F1) (reads_braced e' _ _ _ t2 O2 K2 (nums_known _ _ Hcn K2) F2)
    (proj2 (Forall_app _ _ _) (conj K1 K2)) Hko Hps Hrq (or_intror (fixed_typ_ok p' j _ _)))
    as (r' & w2 & v & b & cs & E & Erc & Ev & Eb & En & Ec & HF).
  rewrite <- app_assoc in HF.
  apply Forall2_app_inv_r in HF as (fs & x1 & G1 & HF & ->). apply Forall2_app_inv_r in HF as (hs & x2 & G2 & HF & ->).
  apply Forall2_app_inv_r in HF as (rs & ps & G3 & G4 & ->).
  exists r', w2, v, b, fs, hs, rs, ps. repeat (split; [assumption|]).
  split; [eapply back_fixed; eauto|]. split; [eapply back_claims; eauto|]. split; [eapply back_registered; eauto|eapply back_claims; eauto].
Qed.
Print Assumptions C86_reads_own_tokens.

(** Non-vacuous, with a request both of whose texts are no JSON: [{"alg":"HS256","typ":"JWT",}] and
    [{"iss":"me""age":27}]. *)
Definition ep_bad_commas : enc_params :=
  EncParams 0 (zstr "me") 0 Null 0 Null 0 Null 0 0 0 0 CNull 1
    (CArr None [Claim (zstr "age") 3 (zstr "27") 2 1]) 1 (zstr "secret") 6 Null 0 true true.
Definition bad_token : bytes :=
  match l8w8jwt_encode pe toy_num (Some ep_bad_commas) we with
  | Ret r _ => match er_out r with Some (Ptr _ t) => removelast t | _ => [] end | Undef _ => [] end.
Definition bad_commas_params : dec_params := dp_plain bad_token 0 (zstr "secret") 6.
Example C86_example :
  let hcs := keyed_claims (ep_header_claims ep_bad_commas) (ep_header_claims_count ep_bad_commas) in
  let pcs := keyed_claims (ep_payload_claims ep_bad_commas) (ep_payload_claims_count ep_bad_commas) in
  let ht := lit "{""alg"":""HS256"",""typ"":""JWT"",}" in let pt := lit "{""iss"":""me""""age"":27}" in
  wf we /\ raw_values_ok hcs /\ raw_values_ok pcs
  /\ manageable (N.of_nat (length (fixed_pairs (Jwa 0 (lit "HS256") HS SHA256)))) hcs /\ manageable (registered_count ep_bad_commas) pcs
  /\ bad_token = rfc4648_unpadded true ht ++ lit "." ++ rfc4648_unpadded true pt ++ lit "."
       ++ rfc4648_unpadded true (fit 32 (lit "secret" ++ rfc4648_unpadded true ht ++ lit "." ++ rfc4648_unpadded true pt))
  /\ (forall ms, ~ json_object ms ht) /\ (forall ms, ~ json_object ms pt)
  /\ c_text pe bad_commas_params bad_token
  /\ right_key pe toy_num toy_num ep_bad_commas bad_commas_params (Jwa 0 (lit "HS256") HS SHA256) (lit "secret")
  /\ requests_ok pe toy_num bad_commas_params /\ asks_nothing bad_commas_params
  /\ (match l8w8jwt_decode pe toy_num (Some bad_commas_params) true true true we with
      | Ret r _ => Some (dr_rc r, dr_valid r, match dr_claims r with Some (CArr _ cs, _) => map claim_texts cs | _ => [] end)
      | Undef _ => None end
      = Some (L8W8JWT_SUCCESS, Some 0%N,
          [(lit "alg", lit "HS256", 0%Z); (lit "typ", lit "JWT", 0%Z); (lit "iss", lit "me", 0%Z); (lit "age", lit "27", 1%Z)])).
Proof.
  cbv zeta. assert (J27 : json_number (lit "27")).
  { apply (JN [] (lit "27") [] []); [left; reflexivity| |constructor|constructor].
    constructor; [vm_compute; tauto|discriminate|]. constructor; [vm_compute; tauto|constructor]. }
  split; [apply we_wf|]. split; [constructor|]. split.
  { constructor; [|constructor]. intros _ v Hv.
    assert (v = lit "27") as -> by (eapply given_det; [exact Hv|split; [discriminate|reflexivity]]).
    exists [], KNumber, (lit "27"), []. repeat split; auto. constructor. exact J27. }
  split; [right; exists 0%N; split; [constructor|vm_compute; discriminate]|]. split.
  { right. exists 2%N. split; [|vm_compute; discriminate]. apply (Cz_cons _ 2 _ 0); [|constructor].
    apply (Cz_raw _ (lit "27") [] (lit "27") [] 1); [discriminate|split; [discriminate|reflexivity]|constructor|constructor; exact J27|constructor|reflexivity]. }
  split; [vm_compute; reflexivity|]. split; [intros ms Hm; exact (no_trailing_comma ms (lit """alg"":""HS256"",""typ"":""JWT""") Hm)|]. split.
  { intros ms Hm. apply (object_inv ms (lit """iss"":""me""""age"":27")) in Hm as [[_ Hm]|Hm].
    - inversion Hm as [|? ? Hin]; subst. notin Hin.
    - assert (B1 : json_body (lit "iss") (lit "iss")) by (apply lit_body; reflexivity).
      assert (B2 : json_body (lit "me") (lit "me")) by (apply lit_body; reflexivity).
      assert (S : Forall string_text_of [lit """iss"":""me"""]).
      { constructor; [|constructor]. exists (lit "iss"), (lit "iss"), (lit "me"), (lit "me"). auto. }
      refine (string_texts_no_quote _ S _ ms _ (lit "age"":27}") Hm _); [discriminate|reflexivity]. }
  split. { split; [exists None, []; reflexivity|]. split; [apply no_nul_b; vm_compute; reflexivity|]. split; vm_compute; reflexivity. }
  split.
  { exists (lit "secret"). split; [exists None, (clit "secret"); split; [reflexivity|]; split; [vm_compute; discriminate|reflexivity]|].
    split; [split; [discriminate|exact I]|]. split; [split; reflexivity|reflexivity]. }
  split. { do 4 (split; [left; reflexivity|]). split; [repeat split; discriminate|left; reflexivity]. }
  split; [repeat split|]. vm_compute. reflexivity.
Qed.
