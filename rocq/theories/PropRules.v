(** * Properties C89 to C92: rules of RFC 7515 and RFC 7519 on header parameters and claims *)
From Verif Require Import Base BaseProofs HeapProofs Util UtilProofs Claim Base64 SpecB64
  Base64EncProofs Base64EncApi Base64DecProofs Base64Api Jsmn Env Encode Decode SpecJson SpecJwa ClaimProofs UnescapeProofs
  EncodeProofs SignProofs EncodeTotal SpecEnc JsonProofs PropEncode DecodeProofs DecodeInv JsmnProofs ParseProofs
  PropClaim ReadProofs ValidateProofs JsmnJson JsmnSize PropVerify PropValidate PropLeak PropJson DecodeTotal DecodeOk PropSafe
  PropRoundTrip PropIssued PropTime PropVerdict Examples PropEncMemory PropPrograms Walk Exact Complete PropComplete.
From Coq Require Import ZifyBool ZifyNat ZifyN.
Ltac Zify.zify_post_hook ::= Z.div_mod_to_equations.
Local Opaque L8W8JWT_MAX_KEY_SIZE.

(** ** Notions *)
(** Another token, same parameters otherwise. *)
Definition with_token (dp : dec_params) (q : ptr) (n : N) : dec_params :=
  DecParams q n (dp_alg dp) (dp_validate_iss dp) (dp_validate_iss_length dp)
    (dp_validate_sub dp) (dp_validate_sub_length dp) (dp_validate_aud dp) (dp_validate_aud_length dp)
    (dp_validate_jti dp) (dp_validate_jti_length dp) (dp_validate_exp dp) (dp_validate_nbf dp) (dp_validate_iat dp)
    (dp_exp_tolerance dp) (dp_nbf_tolerance dp) (dp_iat_tolerance dp) (dp_verification_key dp) (dp_verification_key_length dp)
    (dp_validate_typ dp) (dp_validate_typ_length dp).
(** The names the caller's requests are about. *)
Definition asked_name (dp : dec_params) (name : bytes) : Prop :=
  asked dp name \/ (name = lit "typ" /\ dp_validate_typ dp <> Null).
(** The name and the value of a member as decoding hands them out: escapes other than \u are resolved (C31),
    values that are not strings are their JSON text. *)
Definition read_name (m : member) (k : bytes) : Prop := kept_body (m_key m) k.
Definition read_value (m : member) (v : bytes) : Prop :=
  match m_kind m with KString => exists t, m_value m = quoted t /\ kept_body t v | _ => v = m_value m end.
Definition concerns (name : bytes) (m : member) : Prop := exists rest, read_name m (name ++ rest).
(** [alike dp ms ms']: the lists differ only in members whose names do not start with a name asked for, and
    in the kinds of the values. *)
Inductive alike (dp : dec_params) : list member -> list member -> Prop :=
| Al_nil : alike dp [] []
| Al_same m m' k v ms ms' : read_name m k -> read_name m' k -> read_value m v -> read_value m' v ->
    alike dp ms ms' -> alike dp (m :: ms) (m' :: ms')
| Al_left m ms ms' : (forall name, asked_name dp name -> ~ concerns name m) -> alike dp ms ms' -> alike dp (m :: ms) ms'
| Al_right m ms ms' : (forall name, asked_name dp name -> ~ concerns name m) -> alike dp ms ms' -> alike dp ms (m :: ms').

(** ** Lemmas *)
Lemma holds_decoded cs es kvs : Forall2 holds cs es -> told cs kvs -> map kv_of es = kvs.
Proof.
  intros H. revert kvs. induction H as [|c [[ty ks] vs] cs es [D _] _ IH]; intros kvs T; inversion T as [|? [k v] ? kvs' (D' & _) T']; subst; [reflexivity|].
  cbn [map fst snd] in *. f_equal; [|apply IH; exact T']. cbn [kv_of]. destruct (decoded_fun _ _ _ _ _ D D') as [-> ->]. reflexivity.
Qed.
Lemma requests_weaken p e dp : requests_ok p e dp -> requests_readable e dp.
Proof.
  intros (A & B & C & D & E & F). do 5 (split; [assumption|]). destruct F as [F|(b & s & r & F & G & _)]; [left; exact F|right; eauto].
Qed.
Definition sound (e : env) (m : member) : Prop := member_ok m /\ no_nul (snd (kv_of (entry_of e m))).
Lemma presented_flags p e dp h pl s sig hms pms jw k w : presented p e dp h pl s sig hms pms jw k w ->
  exists r w' v verified, l8w8jwt_decode p e (Some dp) true true true w = Ret r w' /\ dr_rc r = L8W8JWT_SUCCESS /\ dr_valid r = Some v
    /\ (verified = true <-> verified_by e jw k (h ++ lit "." ++ pl) sig)
    /\ flags_are e dp verified (map kv_of (map (entry_of e) (hms ++ pms))) v /\ Forall (sound e) (hms ++ pms).
Proof.
  intros ((Hwf & Ha & Hg & Hj & Hc & Hp) & (Ht & N1 & N2 & Hlen) & (hj & ht & D1 & O1 & F1) & (pj & pt & D2 & O2 & F2)
     & (st & D3 & Hft & Hrl) & (Hjw & Hk & Hck & Hhx & Hu) & Hrq & Hty).
  pose proof (url_b64_decodes _ _ _ D1) as B1. pose proof (url_b64_decodes _ _ _ D2) as B2. pose proof (url_b64_decodes _ _ _ D3) as B3.
  destruct (object_reads e hj hms ht Hj Hc O1 F1) as [R1 M1]. destruct (object_reads e pj pms pt Hj Hc O2 F2) as [R2 M2].
  assert (Hfo : typ_found p dp (map kv_of (map (entry_of e) hms ++ map (entry_of e) pms))).
  { rewrite <- map_app. destruct Hty as [Hty|Hty]; [left; exact Hty|]. apply typ_first_found; [apply Forall_app; auto|exact Hty]. }
  pose proof (b64_decodes_shorter _ _ _ B1) as L1. pose proof (b64_decodes_shorter _ _ _ B2) as L2.
  assert (Hlen' := Hlen). rewrite !app_length in Hlen'. change (length (lit ".")) with 1%nat in Hlen'.
  destruct (decode_ok p e dp h pl s hj ht pj pt sig st _ _ true true w Hwf Ha Hj Hp eq_refl Ht N1 N2 B1 B2 B3
    ltac:(lia) ltac:(lia) R1 R2 Hk
    (or_intror (ex_intro _ jw (ex_intro _ k (conj Hjw (conj Hck (conj (fit_verifiable _ _ _ _ _ Hft) Hu)))))) Hrq Hg Hfo)
    as (r & w' & H & Hrc).
  assert (Uniq : forall b' jwt h' pl' rest', dp_jwt dp = Ptr b' jwt -> three_parts jwt h' pl' rest' ->
    h' = h /\ pl' = pl /\ exists rest, rest' = s ++ x00 :: rest).
  { intros b' jwt h' pl' rest' Ej T. destruct Ht as ((b & rest & Ej') & Hz & _).
    assert (jwt = (h ++ lit "." ++ pl ++ lit "." ++ s) ++ x00 :: rest) by congruence. subst jwt.
    assert (T' : three_parts ((h ++ lit "." ++ pl ++ lit "." ++ s) ++ x00 :: rest) h pl (s ++ x00 :: rest)).
    { split; [rewrite <- !app_assoc; reflexivity|]. assert (no_nul h) by (intros K; apply Hz; rewrite !in_app_iff; auto).
      assert (no_nul pl) by (intros K; apply Hz; rewrite !in_app_iff; auto). auto. }
    destruct (three_parts_fun _ _ _ _ _ _ _ T T') as (-> & -> & ->). eauto. }
  (* the claims *)
  destruct (decode_reads _ _ _ _ _ _ _ _ Hwf Hj Hp H Hrc)
    as (sg & hb & hm & pb & pm & eh & ep & id & cs & sub & res1 & v & Hs & P1 & Q1 & P2 & Q2 & _ & Hsub & _ & T & _ & _ & Hvr & Hcl).
  specialize (Hsub Hg). subst sub.
  destruct (segments_parts _ _ _ Hs) as (h' & pl' & TP & (id1 & hj' & ht' & D1' & E1) & (id2 & pj' & pt' & D2' & E2)).
  assert (h' = h /\ pl' = pl) as (-> & ->).
  { destruct TP as [jwt h0 pl0 rest (b' & Ej) T0|jwt h0 s0 rest n _ Ea _ _ _ _ _ _].
    - destruct (Uniq _ _ _ _ _ Ej T0) as (-> & -> & _). auto.
    - destruct (supported_range _ _ Hjw). lia. }
  destruct (b64_decodes_fun _ _ _ _ _ D1' B1) as [-> ->]. destruct (b64_decodes_fun _ _ _ _ _ D2' B2) as [-> ->].
  rewrite E1 in P1, Q1. rewrite E2 in P2, Q2. cbn [s_ptr s_len] in *.
  assert (hm = hj ++ ht) by congruence. assert (pm = pj ++ pt) by congruence. subst hm pm.
  rewrite (reads_fun _ _ _ _ _ Q1 R1), (reads_fun _ _ _ _ _ Q2 R2), <- map_app in T.
  (* the flags *)
  destruct (C75_decode_complete p e dp _ true true w Hwf Ha Hg Hj Hp Ht Hlen Hk (requests_weaken _ _ _ Hrq) (fun X => X)) as (o & De & _ & Ho).
  destruct o as [rc|v' es|u].
  { exfalso. destruct Ho as (Hz & w2 & Ho). rewrite H in Ho. injection Ho as Er _. rewrite Er in Hrc. cbn in Hrc. contradiction. }
  2: { rewrite H in Ho. discriminate Ho. }
  destruct Ho as (id' & cs' & w2 & Hh & Ho). rewrite H in Ho. injection Ho as Er _. subst r. cbn [dr_valid dr_claims dr_rc] in *.
  assert (v' = v) by congruence. subst v'. assert (cs' = cs) by (cbn in Hcl; congruence). subst cs'.
  assert (Ekv := holds_decoded _ _ _ Hh T).
  assert (Fl : exists verified, flags_are e dp verified (map kv_of es) v).
  { inversion De as [|? ? ?|? _ _ Rn]; subst. inversion Rn as [| | |? ? ? ? ? ? vf ? _ _ Rd]; subst. inversion Rd; subst. eauto. }
  destruct Fl as (verified & Fl). rewrite Ekv in Fl.
  exists (DecRes 0 (Some v) (Some (CArr (Some id') cs, N.of_nat (length es)))), w', v, verified.
  split; [exact H|]. split; [reflexivity|]. split; [reflexivity|]. split; [|split; [exact Fl|]].
  2: { assert (M : Forall member_ok (hms ++ pms)) by (apply Forall_app; auto). clear - T M. revert cs T.
    induction M as [|m ms Hm M IH]; intros cs T; [constructor|]. inversion T as [|c ? cs' ? (_ & _ & Hz) T']; subst. constructor; [split; assumption|eauto]. }
  (* the signature *)
  destruct (decode_signature p e dp true true w _ w' v jw k Hwf H eq_refl eq_refl Hjw Hck Hhx)
    as (jwt & h' & pl' & rest' & third & sig' & tail' & (b' & Ej) & T3 & (n & En & Hn & Eth) & Hd & Hbit).
  destruct (Uniq _ _ _ _ _ Ej T3) as (-> & -> & rest & ->).
  assert (third = s) as ->.
  { destruct Ht as (_ & _ & Hl & Hs'). rewrite !app_length in Hl, Hs'. change (length (lit ".")) with 1%nat in Hl, Hs'.
    rewrite to_size_small in En by lia. rewrite Eth.
    replace (N.to_nat n) with (length s) by lia. apply firstn_app_exact. }
  destruct (b64_decodes_fun _ _ _ _ _ Hd B3) as [-> ->].
  assert (Hb7 : N.testbit v 7 = false <-> verified_by e jw k (h ++ lit "." ++ pl) sig).
  { rewrite Hbit. split.
    - intros (looked & Hl & Hv). rewrite (right_length_read _ _ _ _ _ _ Hrl Hl) in Hv. exact Hv.
    - intros Hv. exists sig. split; [eapply read_whole; eauto|exact Hv]. }
  rewrite <- Hb7. specialize (Fl 7%N).
  assert (F7 : forall vf kvs, failed e dp vf kvs 7 -> vf = false).
  { intros vf kvs F. remember 7%N as seven eqn:E7. destruct F as [E|bit name q n0 s0 Hi _ _|c _ _|c t z _ _ _ _|]; try assumption; try discriminate E7.
    - subst bit. cbn [identity_checks In] in Hi. decompose [or] Hi; try contradiction; congruence.
    - destruct c; discriminate E7.
    - destruct c; discriminate E7. }
  destruct verified; split; intros E; try reflexivity; try discriminate E.
  - destruct (N.testbit v 7) eqn:E7; [|reflexivity]. pose proof (F7 _ _ (proj1 Fl eq_refl)). discriminate.
  - exfalso. assert (N.testbit v 7 = true) by (apply Fl; constructor; reflexivity). congruence.
Qed.
Lemma read_pair e m k v : sound e m -> read_name m k -> read_value m v -> kv_of (entry_of e m) = (k, v).
Proof.
  intros [_ Hz]. revert Hz. unfold read_name, read_value, entry_of. cbn [kv_of snd]. intros Hz Hk Hv. rewrite (kept_unesc _ _ Hk). f_equal.
  revert Hz. unfold mtype. destruct (m_kind m) eqn:K; cbn [vtext]; intros Hz; try (rewrite Hv; unfold claim_value_of in *; cbn in *; apply PropJson.ncpy_plain; exact Hz).
  - destruct Hv as (t & -> & Hv). fold (vtext KString (quoted t)) in *. rewrite vtext_quoted. cbn. apply kept_unesc. exact Hv.
  - rewrite Hv. destruct (_ =? 1)%Z; unfold claim_value_of in *; cbn in *; apply PropJson.ncpy_plain; exact Hz.
Qed.
Lemma unconcerned e name m : sound e m -> ~ concerns name m -> prefixb name (fst (kv_of (entry_of e m))) = false.
Proof.
  intros [[(d & Kb) _] _] H. unfold entry_of. cbn [kv_of fst]. destruct (prefixb name (unesc (m_key m))) eqn:E; [|reflexivity].
  exfalso. apply H. apply prefixb_spec in E as (rest & E). exists rest. unfold read_name. rewrite <- E. exact (json_body_kept _ _ Kb).
Qed.
Lemma lookup_skip name kv kvs : prefixb name (fst kv) = false -> lookup_prefix name (kv :: kvs) = lookup_prefix name kvs.
Proof. destruct kv as [k v]. unfold lookup_prefix. cbn [fst value_of]. intros ->. reflexivity. Qed.
Lemma alike_lookup e dp ms ms' name : alike dp ms ms' -> Forall (sound e) ms -> Forall (sound e) ms' -> asked_name dp name ->
  lookup_prefix name (map kv_of (map (entry_of e) ms)) = lookup_prefix name (map kv_of (map (entry_of e) ms')).
Proof.
  intros H. induction H as [|m m' k v ms ms' K K' V V' H IH|m ms ms' N H IH|m ms ms' N H IH]; intros M M' A; [reflexivity| | |].
  - inversion M; inversion M'; subst. cbn [map]. rewrite (read_pair e m k v) by assumption. rewrite (read_pair e m' k v) by assumption.
    unfold lookup_prefix in *. cbn [value_of]. rewrite IH by auto. reflexivity.
  - inversion M; subst. cbn [map]. rewrite lookup_skip; [apply IH; auto|apply unconcerned; auto].
  - inversion M'; subst. cbn [map]. rewrite lookup_skip; [apply IH; auto|apply unconcerned; auto].
Qed.
Lemma found_first e name a m b v rest : Forall (sound e) (a ++ m :: b) -> Forall (fun x => ~ concerns name x) a ->
  read_name m (name ++ rest) -> read_value m v -> lookup_prefix name (map kv_of (map (entry_of e) (a ++ m :: b))) = Some v.
Proof.
  intros M A N V. induction A as [|x a X A IH]; cbn [app map] in *; inversion M; subst.
  - rewrite (read_pair e m (name ++ rest) v) by assumption. unfold lookup_prefix. cbn [value_of]. rewrite (proj2 (prefixb_spec name (name ++ rest))) by eauto. reflexivity.
  - rewrite lookup_skip; [apply IH; auto|apply unconcerned; auto].
Qed.
Lemma flags_agree e dp q n vf kvs kvs' v : (forall name, asked_name dp name -> lookup_prefix name kvs = lookup_prefix name kvs') ->
  flags_are e dp vf kvs v -> flags_are e (with_token dp q n) vf kvs' v.
Proof.
  intros L F bit. rewrite (F bit). split; intros H.
  - destruct H as [E|bit name q0 n0 s Hi G H|c R H|c t z R H Z O|b x r E Nx H].
    + constructor; assumption.
    + eapply F_identity; [exact Hi|exact G|]. rewrite <- L; [exact H|]. left. left. exists bit, q0, n0. split; [exact Hi|]. intros ->. exact G.
    + apply F_no_time; [exact R|]. rewrite <- L; [exact H|]. left. right. eauto.
    + eapply F_time; [exact R| |exact Z|destruct c; exact O]. rewrite <- L; [exact H|]. left. right. eauto.
    + eapply F_typ; [exact E|exact Nx|]. rewrite <- L; [exact H|]. right. split; [reflexivity|]. rewrite E. discriminate.
  - destruct H as [E|bit name q0 n0 s Hi G H|c R H|c t z R H Z O|b x r E Nx H].
    + constructor; assumption.
    + change (identity_checks (with_token dp q n)) with (identity_checks dp) in Hi. eapply F_identity; [exact Hi|exact G|]. rewrite L; [exact H|]. left. left. exists bit, q0, n0. split; [exact Hi|]. intros ->. exact G.
    + change (time_requested (with_token dp q n) c) with (time_requested dp c) in R. apply F_no_time; [exact R|]. rewrite L; [exact H|]. left. right. eauto.
    + change (time_requested (with_token dp q n) c) with (time_requested dp c) in R. eapply F_time; [exact R| |exact Z|destruct c; exact O]. rewrite L; [exact H|]. left. right. eauto.
    + cbn [with_token dp_validate_typ dp_validate_typ_length] in *. eapply F_typ; [exact E|exact Nx|]. rewrite L; [exact H|]. right. split; [reflexivity|]. rewrite E. discriminate.
Qed.

(** ** C89 *)
(** Two tokens, one as good as the other by signature, whose headers and payloads differ only in members that
    the caller does not ask about, or in the kinds of values, get the same verdict. *)
Theorem C89_only_what_is_asked :
  forall p e dp q n h pl s sig hms pms h' pl' s' sig' hms' pms' jw k w w2,
    presented p e dp h pl s sig hms pms jw k w ->
    presented p e (with_token dp q n) h' pl' s' sig' hms' pms' jw k w2 ->
    (verified_by e jw k (h ++ lit "." ++ pl) sig <-> verified_by e jw k (h' ++ lit "." ++ pl') sig') ->
    alike dp (hms ++ pms) (hms' ++ pms') ->
    exists r w' r' w2' v, l8w8jwt_decode p e (Some dp) true true true w = Ret r w'
      /\ l8w8jwt_decode p e (Some (with_token dp q n)) true true true w2 = Ret r' w2'
      /\ dr_rc r = L8W8JWT_SUCCESS /\ dr_rc r' = L8W8JWT_SUCCESS /\ dr_valid r = Some v /\ dr_valid r' = Some v.
Proof.
  intros p e dp q n h pl s sig hms pms h' pl' s' sig' hms' pms' jw k w w2 P P' V A.
  destruct (presented_flags _ _ _ _ _ _ _ _ _ _ _ _ P) as (r & w' & v & vf & D & Rc & Dv & Vf & F & M).
  destruct (presented_flags _ _ _ _ _ _ _ _ _ _ _ _ P') as (r' & w2' & v' & vf' & D' & Rc' & Dv' & Vf' & F' & M').
  assert (vf' = vf) by (destruct vf, vf'; intuition congruence). subst vf'.
  assert (v' = v) as ->.
  { eapply verdict_fun; [exact F'|]. eapply flags_agree; [|exact F]. intros name Hn. eapply alike_lookup; eauto. }
  exists r, w', r', w2', v. auto 10.
Qed.
Print Assumptions C89_only_what_is_asked.

(** ** C90 *)
(** What becomes of an identity check: its flag is clear if and only if the text of the first member that
    concerns it is the expected one. *)
Lemma identity_flag p e dp h pl s sig hms pms jw k w bit name q n x a m b rest v0 :
  presented p e dp h pl s sig hms pms jw k w -> In (bit, name, q, n) (identity_checks dp) -> given q n x ->
  hms ++ pms = a ++ m :: b -> Forall (fun y => ~ concerns name y) a -> read_name m (name ++ rest) -> read_value m v0 ->
  exists r w' v, l8w8jwt_decode p e (Some dp) true true true w = Ret r w' /\ dr_rc r = L8W8JWT_SUCCESS /\ dr_valid r = Some v
    /\ (N.testbit v bit = false <-> x = v0).
Proof.
  intros P Hi G E A N V. destruct (presented_flags _ _ _ _ _ _ _ _ _ _ _ _ P) as (r & w' & v & vf & D & Rc & Dv & Vf & F & M).
  exists r, w', v. do 3 (split; [assumption|]). rewrite E in F, M. pose proof (found_first e _ _ _ _ _ _ M A N V) as L.
  specialize (F bit). split.
  - intros B. destruct (list_eq_dec Byte.byte_eq_dec x v0) as [|Ne]; [assumption|]. exfalso.
    assert (N.testbit v bit = true) by (apply F; eapply F_identity; [exact Hi|exact G|congruence]). congruence.
  - intros ->. destruct (N.testbit v bit) eqn:B; [exfalso|reflexivity]. pose proof (proj1 F eq_refl) as H.
    assert (Eb : forall c, bit <> time_bit c /\ bit <> 7%N /\ bit <> 8%N).
    { intros c. cbn [identity_checks In] in Hi. decompose [or] Hi; try contradiction;
        match goal with K : _ = (_, _, _, _) |- _ => injection K as <- _ _ _ end; destruct c; repeat split; discriminate. }
    clear B F. remember bit as bit' eqn:Ebit. destruct H as [_|bit' name' q' n' s' Hi' G' H|c _ _|c t z _ _ _ _|].
    + destruct (Eb Exp) as (_ & C & _). congruence.
    + assert (name' = name /\ q' = q /\ n' = n) as (-> & -> & ->).
      { subst bit'. cbn [identity_checks In] in Hi, Hi'. decompose [or] Hi; try contradiction; decompose [or] Hi'; try contradiction; split; try split; congruence. }
      rewrite (given_det _ _ _ _ G' G) in H. congruence.
    + destruct (Eb c) as (C & _). congruence.
    + destruct (Eb c) as (C & _). congruence.
    + destruct (Eb Exp) as (_ & _ & C). congruence.
Qed.
Theorem C90_audience_list :
  forall p e dp h pl s sig hms pms jw k w x a m b,
    presented p e dp h pl s sig hms pms jw k w -> given (dp_validate_aud dp) (dp_validate_aud_length dp) x ->
    hms ++ pms = a ++ m :: b -> Forall (fun y => ~ concerns (lit "aud") y) a -> read_name m (lit "aud") -> m_kind m = KArray ->
    exists r w' v, l8w8jwt_decode p e (Some dp) true true true w = Ret r w' /\ dr_rc r = L8W8JWT_SUCCESS /\ dr_valid r = Some v
      /\ (N.testbit v 2 = false <-> x = m_value m) /\ ((forall y, x <> lit "[" ++ y) -> N.testbit v 2 = true).
Proof.
  intros p e dp h pl s sig hms pms jw k w x a m b P G E A N K.
  destruct (identity_flag p e dp h pl s sig hms pms jw k w 2%N (lit "aud") (dp_validate_aud dp) (dp_validate_aud_length dp) x a m b [] (m_value m))
    as (r & w' & v & D & Rc & Dv & B); auto.
  - cbn. auto.
  - unfold read_value. rewrite K. reflexivity.
  - exists r, w', v. do 4 (split; [assumption|]). intros H. destruct (N.testbit v 2) eqn:E2; [reflexivity|exfalso].
    pose proof (proj1 B eq_refl) as Ex. destruct (presented_flags _ _ _ _ _ _ _ _ _ _ _ _ P) as (_ & _ & _ & _ & _ & _ & _ & _ & _ & M).
    rewrite E in M. apply Forall_app in M as [_ M]. inversion M as [|? ? [[_ Hv] _] _]; subst. rewrite K in Hv.
    remember KArray as kd eqn:Ek. destruct Hv as [| | | | |ws _|t _| |]; try discriminate Ek; [apply (H (ws ++ lit "]"))|apply (H (t ++ lit "]"))]; reflexivity.
Qed.
Print Assumptions C90_audience_list.

(** ** C91 *)
(** Of several members of one name the first counts. *)
Theorem C91_first_counts :
  forall p e dp h pl s sig hms pms jw k w bit name q n x a m b m' c v1 v2,
    presented p e dp h pl s sig hms pms jw k w -> In (bit, name, q, n) (identity_checks dp) -> given q n x ->
    hms ++ pms = a ++ m :: b ++ m' :: c -> Forall (fun y => ~ concerns name y) a ->
    read_name m name -> read_value m v1 -> read_name m' name -> read_value m' v2 ->
    exists r w' v, l8w8jwt_decode p e (Some dp) true true true w = Ret r w' /\ dr_rc r = L8W8JWT_SUCCESS /\ dr_valid r = Some v
      /\ (N.testbit v bit = false <-> x = v1) /\ (x = v2 -> v2 <> v1 -> N.testbit v bit = true).
Proof.
  intros p e dp h pl s sig hms pms jw k w bit name q n x a m b m' c v1 v2 P Hi G E A N V N2 V2.
  destruct (identity_flag p e dp h pl s sig hms pms jw k w bit name q n x a m (b ++ m' :: c) [] v1) as (r & w' & v & D & Rc & Dv & B); auto.
  - rewrite app_nil_r. exact N.
  - exists r, w', v. do 4 (split; [assumption|]). intros -> Ne. destruct (N.testbit v bit); [reflexivity|]. exfalso. apply Ne. apply B. reflexivity.
Qed.
Print Assumptions C91_first_counts.

(** ** C92 *)
Lemma time_flag p e dp h pl s sig hms pms jw k w c a m b rest t z :
  presented p e dp h pl s sig hms pms jw k w -> time_requested dp c = true ->
  hms ++ pms = a ++ m :: b -> Forall (fun y => ~ concerns (time_name c) y) a -> read_name m (time_name c ++ rest) ->
  read_value m t -> reads_as t z ->
  exists r w' v, l8w8jwt_decode p e (Some dp) true true true w = Ret r w' /\ dr_rc r = L8W8JWT_SUCCESS /\ dr_valid r = Some v
    /\ (N.testbit v (time_bit c) = true <-> out_of_time c (limit e dp c) z).
Proof.
  intros P R E A N V Z. destruct (presented_flags _ _ _ _ _ _ _ _ _ _ _ _ P) as (r & w' & v & vf & D & Rc & Dv & Vf & F & M).
  exists r, w', v. do 3 (split; [assumption|]). rewrite E in F, M. pose proof (found_first e _ _ _ _ _ _ M A N V) as L.
  rewrite (F (time_bit c)). split.
  - intros H. remember (time_bit c) as bit eqn:Eb. destruct H as [_|bit name' q' n' s' Hi' _ _|c' _ H|c' t' z' _ H Z' O|].
    + destruct c; discriminate Eb.
    + exfalso. subst bit. cbn [identity_checks In] in Hi'. decompose [or] Hi'; try contradiction; destruct c; discriminate.
    + assert (c' = c) as -> by (destruct c, c'; try reflexivity; discriminate Eb). congruence.
    + assert (c' = c) as -> by (destruct c, c'; try reflexivity; discriminate Eb). assert (t' = t) by congruence. subst t'.
      rewrite (reads_as_fun _ _ _ Z Z'). exact O.
    + destruct c; discriminate Eb.
  - intros O. eapply F_time; eauto.
Qed.
(** Values that are neither numbers nor strings count as the date 0: such an expiry date has passed, such
    a not-before or issued-at date, too. Strings count as the number they start with. *)
Theorem C92_dates_of_other_kinds :
  forall p e dp h pl s sig hms pms jw k w c a m b t,
    presented p e dp h pl s sig hms pms jw k w -> time_requested dp c = true ->
    hms ++ pms = a ++ m :: b -> Forall (fun y => ~ concerns (time_name c) y) a -> read_name m (time_name c) -> read_value m t ->
    exists r w' v, l8w8jwt_decode p e (Some dp) true true true w = Ret r w' /\ dr_rc r = L8W8JWT_SUCCESS /\ dr_valid r = Some v
      /\ (forall z, reads_as t z -> (N.testbit v (time_bit c) = true <-> out_of_time c (limit e dp c) z))
      /\ (m_kind m <> KNumber -> m_kind m <> KString ->
            (N.testbit v (time_bit c) = true <-> match c with Exp => 0 < limit e dp c | Nbf | Iat => limit e dp c < 0 end%Z)).
Proof.
  intros p e dp h pl s sig hms pms jw k w c a m b t P R E A N V.
  destruct (reads_as_exists t) as (z & Z).
  destruct (time_flag p e dp h pl s sig hms pms jw k w c a m b [] t z) as (r & w' & v & D & Rc & Dv & B); auto.
  { rewrite app_nil_r. exact N. }
  exists r, w', v. do 3 (split; [assumption|]). split.
  - intros z' Z'. rewrite (reads_as_fun _ _ _ Z' Z). exact B.
  - intros K1 K2. assert (z = 0%Z) as ->.
    { destruct (presented_flags _ _ _ _ _ _ _ _ _ _ _ _ P) as (_ & _ & _ & _ & _ & _ & _ & _ & _ & M).
      rewrite E in M. apply Forall_app in M as [_ M]. inversion M as [|? ? [[_ Hv] _] _]; subst.
      assert (H0 : at_head (fun c => ~ blank c /\ c <> x2d /\ c <> x2b /\ ~ digit c) t).
      { unfold read_value in V. destruct (m_kind m); try congruence; subst t; inversion Hv; subst;
          try (match goal with K : json_object _ _ |- _ => inversion K; subst end); cbn [app lit at_head];
          (split; [unfold blank; vm_compute; intuition discriminate|]; split; [discriminate|]; split; [discriminate|]; vm_compute; intuition discriminate). }
      destruct t as [|c0 t]; [destruct H0|]. cbn [at_head] in H0. destruct H0 as (H1 & H2 & H3 & H4).
      eapply reads_as_fun; [exact Z|]. exists [], [], [], (c0 :: t). split; [reflexivity|]. split; [constructor|]. split; [constructor|]. split; [exact H4|].
      left. split; [reflexivity|]. split; [|reflexivity]. intros _. cbn [at_head]. tauto. }
    rewrite B. destruct c; cbn [out_of_time]; reflexivity.
Qed.
Print Assumptions C92_dates_of_other_kinds.

(** ** Tokens that break the rules *)
Lemma presented_asks p e dp dp' h pl s sig hms pms jw k w : presented p e dp h pl s sig hms pms jw k w ->
  dp_jwt dp' = dp_jwt dp -> dp_jwt_length dp' = dp_jwt_length dp -> dp_alg dp' = dp_alg dp ->
  dp_verification_key dp' = dp_verification_key dp -> dp_verification_key_length dp' = dp_verification_key_length dp ->
  dp_validate_typ dp' = dp_validate_typ dp -> requests_ok p e dp' -> presented p e dp' h pl s sig hms pms jw k w.
Proof.
  unfold presented, c_text. intros (A & B & C & D & E & F & G & H) -> -> -> -> -> -> R. auto 10.
Qed.
(** Requests for another audience, subject and for nbf, with [verdict_params]'s key and type. *)
Definition asking (tok : bytes) (aud : ptr) (sub : ptr) (exp nbf : bool) : dec_params :=
  DecParams (Ptr None (tok ++ [x00])) (N.of_nat (length tok)) 0 Null 0 sub 0 aud 0 Null 0 exp nbf false 0 0 0 (zstr "secret") 6 (zstr "JWT") 4.
Lemma asking_presented tok aud sub exp nbf h pl s sig hms pms jw k w :
  presented pe toy_num (verdict_params tok) h pl s sig hms pms jw k w ->
  expectable aud 0 -> expectable sub 0 -> presented pe toy_num (asking tok aud sub exp nbf) h pl s sig hms pms jw k w.
Proof.
  intros P Ha Hs. eapply presented_asks; [exact P|reflexivity|reflexivity|reflexivity|reflexivity|reflexivity|reflexivity|].
  split; [exact Hs|]. split; [exact Ha|]. do 2 (split; [left; reflexivity|]).
  split; [vm_compute; repeat split; discriminate|]. right. exists None, (lit "JWT"), [].
  split; [reflexivity|]. split; [apply no_nul_b; reflexivity|]. repeat constructor.
Qed.
Definition hs256 : jwa := Jwa 0 (lit "HS256") HS SHA256.
(** An accepted token: presented in the toy world, properly signed, with verdict [v]. *)
Definition judged (dp : dec_params) (hms pms : list member) (v : N) : Prop :=
  (exists h pl s sig, presented pe toy_num dp h pl s sig hms pms hs256 (lit "secret") we
     /\ verified_by toy_num hs256 (lit "secret") (h ++ lit "." ++ pl) sig)
  /\ exists r w', l8w8jwt_decode pe toy_num (Some dp) true true true we = Ret r w' /\ dr_rc r = L8W8JWT_SUCCESS /\ dr_valid r = Some v.
Ltac one_member := eapply JM_one; [js_ws|js_body|js_ws|js_ws|first [eapply JV_string; js_body|apply num_2000|constructor]|js_ws].
Ltac a_member := eapply JM_cons; [js_ws|js_body|js_ws|js_ws|first [eapply JV_string; js_body|apply num_2000|constructor]|js_ws|].

Definition crit_header : string := "{""alg"":""HS256"",""typ"":""JWT"",""crit"":[""b64""],""b64"":false}"%string.
Definition crit_members : list member :=
  plain_members ++ [Member (lit "crit") KArray (lit "[""b64""]"); Member (lit "b64") KFalse (lit "false")].
Lemma array_one t d : json_body t d -> json_value KArray (lit "[" ++ quoted t ++ lit "]").
Proof.
  intros H. apply JV_array. replace (quoted t) with ([] ++ quoted t ++ []) by (cbn [app]; apply app_nil_r).
  eapply JEl_one; [constructor|eapply JV_string; exact H|constructor].
Qed.
Lemma array_two t d t' d' : json_body t d -> json_body t' d' -> json_value KArray (lit "[" ++ (quoted t ++ lit "," ++ quoted t') ++ lit "]").
Proof.
  intros H H'. apply JV_array. change (quoted t ++ lit "," ++ quoted t') with ([] ++ quoted t ++ [] ++ lit "," ++ quoted t').
  eapply JEl_cons; [constructor|eapply JV_string; exact H|constructor|]. replace (quoted t') with ([] ++ quoted t' ++ []) by (cbn [app]; apply app_nil_r).
  eapply JEl_one; [constructor|eapply JV_string; exact H'|constructor].
Qed.
Lemma crit_object : object_text (lit crit_header) crit_members.
Proof.
  exists [], (lit crit_header), []. split; [constructor|]. split; [|split; [constructor|reflexivity]].
  change (lit crit_header) with (lit "{" ++ ([] ++ quoted (lit "alg") ++ [] ++ lit ":" ++ [] ++ quoted (lit "HS256") ++ []
    ++ lit "," ++ ([] ++ quoted (lit "typ") ++ [] ++ lit ":" ++ [] ++ quoted (lit "JWT") ++ []
    ++ lit "," ++ ([] ++ quoted (lit "crit") ++ [] ++ lit ":" ++ [] ++ (lit "[" ++ quoted (lit "b64") ++ lit "]") ++ []
    ++ lit "," ++ ([] ++ quoted (lit "b64") ++ [] ++ lit ":" ++ [] ++ lit "false" ++ [])))) ++ lit "}").
  apply JO_members. a_member. a_member.
  eapply JM_cons; [js_ws|js_body|js_ws|js_ws|eapply array_one; js_body|js_ws|]. one_member.
Qed.
(** RFC 7515, 4.1.11: a recipient that does not understand an extension listed in crit must not accept the
    token. Here it is RFC 7797's b64. *)
Theorem C89_critical_refuted :
  exists dp hms pms m, judged dp hms pms L8W8JWT_VALID /\ In m hms /\ read_name m (lit "crit").
Proof.
  exists (verdict_params (signed crit_header alice_payload)), crit_members, alice_members, (Member (lit "crit") KArray (lit "[""b64""]")).
  split; [|split; [cbn; auto|]].
  - split.
    + destruct (signed_presented crit_header alice_payload crit_members alice_members crit_object alice_object) as [P V];
        [left; apply small_size; vm_compute; reflexivity|left; apply small_size; vm_compute; reflexivity|vm_compute; discriminate|js_plain|].
      do 4 eexists. split; [exact P|exact V].
    + do 2 eexists. split; [vm_compute; reflexivity|]. split; reflexivity.
  - unfold read_name. cbn [m_key]. apply (json_body_kept (lit "crit") (lit "crit")). js_body.
Qed.
Print Assumptions C89_critical_refuted.

Definition list_payload : string := "{""aud"":[""alice"",""bob""]}"%string.
Definition list_members : list member := [Member (lit "aud") KArray (lit "[""alice"",""bob""]")].
Lemma list_object : object_text (lit list_payload) list_members.
Proof.
  exists [], (lit list_payload), []. split; [constructor|]. split; [|split; [constructor|reflexivity]].
  change (lit list_payload) with (lit "{" ++ ([] ++ quoted (lit "aud") ++ [] ++ lit ":" ++ []
    ++ (lit "[" ++ (quoted (lit "alice") ++ lit "," ++ quoted (lit "bob")) ++ lit "]") ++ []) ++ lit "}").
  apply JO_members. eapply JM_one; [js_ws|js_body|js_ws|js_ws|eapply array_two; js_body|js_ws].
Qed.
Lemma alice_given : given (zstr "alice") 0 (lit "alice").
Proof. exists []. split; [reflexivity|vm_compute; intuition discriminate]. Qed.
(** RFC 7519, 4.1.3: the audience may be a list, and each member of it may accept the token. *)
Theorem C90_audience_list_refuted :
  exists dp hms pms m, judged dp hms pms 4 /\ In m pms /\ read_name m (lit "aud")
    /\ given (dp_validate_aud dp) (dp_validate_aud_length dp) (lit "alice") /\ m_value m = lit "[" ++ quoted (lit "alice") ++ lit "," ++ quoted (lit "bob") ++ lit "]".
Proof.
  exists (asking (signed plain_header list_payload) (zstr "alice") Null false false), plain_members, list_members, (Member (lit "aud") KArray (lit "[""alice"",""bob""]")).
  split; [|split; [cbn; auto|]].
  - split.
    + destruct (signed_presented plain_header list_payload plain_members list_members plain_object list_object) as [P V];
        [left; apply small_size; vm_compute; reflexivity|left; apply small_size; vm_compute; reflexivity|vm_compute; discriminate|js_plain|].
      do 4 eexists. split; [eapply asking_presented; [exact P|right; eexists; apply alice_given|left; reflexivity]|exact V].
    + do 2 eexists. split; [vm_compute; reflexivity|]. split; reflexivity.
  - split; [|split; [apply alice_given|reflexivity]]. apply (json_body_kept (lit "aud") (lit "aud")). js_body.
Qed.
Print Assumptions C90_audience_list_refuted.

Definition twice_payload : string := "{""sub"":""alice"",""sub"":""mallory"",""exp"":2000}"%string.
Definition twice_members : list member :=
  [Member (lit "sub") KString (quoted (lit "alice")); Member (lit "sub") KString (quoted (lit "mallory")); Member (lit "exp") KNumber (lit "2000")].
Lemma twice_object : object_text (lit twice_payload) twice_members.
Proof.
  exists [], (lit twice_payload), []. split; [constructor|]. split; [|split; [constructor|reflexivity]].
  change (lit twice_payload) with (lit "{" ++ ([] ++ quoted (lit "sub") ++ [] ++ lit ":" ++ [] ++ quoted (lit "alice") ++ []
    ++ lit "," ++ ([] ++ quoted (lit "sub") ++ [] ++ lit ":" ++ [] ++ quoted (lit "mallory") ++ []
    ++ lit "," ++ ([] ++ quoted (lit "exp") ++ [] ++ lit ":" ++ [] ++ lit "2000" ++ []))) ++ lit "}").
  apply JO_members. a_member. a_member. one_member.
Qed.
(** RFC 7519, section 4: duplicate names are rejected, or the last one counts. *)
Theorem C91_duplicates_refuted :
  exists dp hms pms a m, judged dp hms pms L8W8JWT_VALID /\ given (dp_validate_sub dp) (dp_validate_sub_length dp) (lit "alice")
    /\ pms = a ++ m :: [Member (lit "exp") KNumber (lit "2000")] /\ read_name m (lit "sub") /\ read_value m (lit "mallory").
Proof.
  exists (verdict_params (signed plain_header twice_payload)), plain_members, twice_members, [Member (lit "sub") KString (quoted (lit "alice"))],
    (Member (lit "sub") KString (quoted (lit "mallory"))).
  split; [|split; [apply alice_given|split; [reflexivity|split]]].
  - split.
    + destruct (signed_presented plain_header twice_payload plain_members twice_members plain_object twice_object) as [P V];
        [left; apply small_size; vm_compute; reflexivity|left; apply small_size; vm_compute; reflexivity|vm_compute; discriminate|js_plain|].
      do 4 eexists. split; [exact P|exact V].
    + do 2 eexists. split; [vm_compute; reflexivity|]. split; reflexivity.
  - apply (json_body_kept (lit "sub") (lit "sub")). js_body.
  - exists (lit "mallory"). split; [reflexivity|]. apply (json_body_kept (lit "mallory") (lit "mallory")). js_body.
Qed.
Print Assumptions C91_duplicates_refuted.

Definition quoted_payload : string := "{""sub"":null,""exp"":""2000 years ago"",""nbf"":false}"%string.
Definition quoted_members : list member :=
  [Member (lit "sub") KNull (lit "null"); Member (lit "exp") KString (quoted (lit "2000 years ago")); Member (lit "nbf") KFalse (lit "false")].
Lemma quoted_object : object_text (lit quoted_payload) quoted_members.
Proof.
  exists [], (lit quoted_payload), []. split; [constructor|]. split; [|split; [constructor|reflexivity]].
  change (lit quoted_payload) with (lit "{" ++ ([] ++ quoted (lit "sub") ++ [] ++ lit ":" ++ [] ++ lit "null" ++ []
    ++ lit "," ++ ([] ++ quoted (lit "exp") ++ [] ++ lit ":" ++ [] ++ quoted (lit "2000 years ago") ++ []
    ++ lit "," ++ ([] ++ quoted (lit "nbf") ++ [] ++ lit ":" ++ [] ++ lit "false" ++ []))) ++ lit "}").
  apply JO_members. a_member. a_member. one_member.
Qed.
(** RFC 7519, 4.1.2, 4.1.4 and 4.1.5: sub is a string, exp and nbf are numbers. *)
Theorem C92_kinds_refuted :
  exists dp hms pms, judged dp hms pms L8W8JWT_VALID
    /\ given (dp_validate_sub dp) (dp_validate_sub_length dp) (lit "null") /\ dp_validate_exp dp = true /\ dp_validate_nbf dp = true
    /\ Forall (fun m => (read_name m (lit "sub") -> m_kind m <> KString)
                        /\ (read_name m (lit "exp") \/ read_name m (lit "nbf") -> m_kind m <> KNumber)) (hms ++ pms).
Proof.
  assert (G : given (zstr "null") 0 (lit "null")) by (exists []; split; [reflexivity|vm_compute; intuition discriminate]).
  exists (asking (signed plain_header quoted_payload) Null (zstr "null") true true), plain_members, quoted_members.
  split; [|split; [exact G|split; [reflexivity|split; [reflexivity|]]]].
  - split.
    + destruct (signed_presented plain_header quoted_payload plain_members quoted_members plain_object quoted_object) as [P V];
        [left; apply small_size; vm_compute; reflexivity|left; apply small_size; vm_compute; reflexivity|vm_compute; discriminate|js_plain|].
      do 4 eexists. split; [eapply asking_presented; [exact P|left; reflexivity|right; eexists; exact G]|exact V].
    + do 2 eexists. split; [vm_compute; reflexivity|]. split; reflexivity.
  - assert (U : forall m n, read_name m n -> n = unesc (m_key m)) by (intros m n H; symmetry; apply kept_unesc; exact H).
    repeat (constructor; [split; [intros H; apply U in H; first [discriminate H|discriminate]|
                                   intros [H|H]; apply U in H; first [discriminate H|discriminate]]|]). constructor.
Qed.
Print Assumptions C92_kinds_refuted.

(** ** Cases of the four theorems *)
Ltac here := first [left; apply small_size; vm_compute; reflexivity|vm_compute; discriminate|js_plain].
Lemma read_as_written s : unesc (lit s) = lit s -> json_body (lit s) (lit s) -> kept_body (lit s) (lit s).
Proof. intros E H. apply json_body_kept in H. rewrite E in H. exact H. Qed.
Lemma unconcerned_by m name : prefixb name (unesc (m_key m)) = false -> ~ concerns name m.
Proof.
  intros H [rest R]. unfold read_name in R. apply kept_unesc in R. rewrite R in H.
  assert (T : prefixb name (name ++ rest) = true) by (clear; induction name as [|b name IH]; cbn; [reflexivity|rewrite byte_eqb_refl; exact IH]).
  congruence.
Qed.
(** The critical token against the one without its two extra parameters. *)
Example C89_case :
  exists h pl s sig h' pl' s' sig',
    let dp := verdict_params (signed plain_header alice_payload) in
    let tok := signed crit_header alice_payload in
    let dp' := with_token dp (Ptr None (tok ++ [x00])) (N.of_nat (length tok)) in
    presented pe toy_num dp h pl s sig plain_members alice_members hs256 (lit "secret") we
    /\ presented pe toy_num dp' h' pl' s' sig' crit_members alice_members hs256 (lit "secret") we
    /\ (verified_by toy_num hs256 (lit "secret") (h ++ lit "." ++ pl) sig <-> verified_by toy_num hs256 (lit "secret") (h' ++ lit "." ++ pl') sig')
    /\ alike dp (plain_members ++ alice_members) (crit_members ++ alice_members).
Proof.
  destruct (signed_presented plain_header alice_payload plain_members alice_members plain_object alice_object) as [P V]; [here|here|here|here|].
  destruct (signed_presented crit_header alice_payload crit_members alice_members crit_object alice_object) as [P' V']; [here|here|here|here|].
  do 8 eexists. cbv zeta. split; [exact P|]. split; [exact P'|]. split; [split; intros _; [exact V'|exact V]|].
  assert (A : forall m, In m [Member (lit "crit") KArray (lit "[""b64""]"); Member (lit "b64") KFalse (lit "false")] ->
    forall name, asked_name (verdict_params (signed plain_header alice_payload)) name -> ~ concerns name m).
  { intros m Hm name Hn. apply unconcerned_by. unfold asked_name, asked in Hn. cbn in Hm.
    assert (B : In name [lit "sub"; lit "exp"; lit "typ"]).
    { destruct Hn as [Hn|[-> _]]; [|cbn; auto]. destruct Hn as [(bit & q & n & Hi & Hq)|(c & Hc & ->)].
      - cbn in Hi. repeat destruct Hi as [Hi|Hi]; try (injection Hi as <- <- <- <-; first [contradiction Hq; reflexivity|cbn; auto]). contradiction.
      - destruct c; try discriminate Hc. cbn. auto. }
    destruct Hm as [<-|[<-|[]]]; repeat destruct B as [<-|B]; try reflexivity; destruct B. }
  unfold crit_members, plain_members, alice_members. cbn [app].
  assert (S : forall ty s t ms ms', unesc (lit s) = lit s /\ json_body (lit s) (lit s) -> ty = KString /\ unesc (lit t) = lit t /\ json_body (lit t) (lit t) ->
     alike (verdict_params (signed plain_header alice_payload)) ms ms' ->
     alike (verdict_params (signed plain_header alice_payload)) (Member (lit s) ty (quoted (lit t)) :: ms) (Member (lit s) ty (quoted (lit t)) :: ms')).
  { intros ty s t ms ms' Hs [-> Ht] I. apply (Al_same _ _ _ (lit s) (lit t)); [apply read_as_written; [apply Hs|apply Hs]|apply read_as_written; [apply Hs|apply Hs]| | |exact I];
      (exists (lit t); split; [reflexivity|apply read_as_written; [apply Ht|apply Ht]]). }
  apply S; [split; [reflexivity|js_body]|split; [reflexivity|split; [reflexivity|js_body]]|]. apply S; [split; [reflexivity|js_body]|split; [reflexivity|split; [reflexivity|js_body]]|].
  apply Al_right; [apply A; cbn; auto|]. apply Al_right; [apply A; cbn; auto|].
  apply S; [split; [reflexivity|js_body]|split; [reflexivity|split; [reflexivity|js_body]]|].
  apply (Al_same _ _ _ (lit "exp") (lit "2000")); [apply read_as_written; [reflexivity|js_body]|apply read_as_written; [reflexivity|js_body]|reflexivity|reflexivity|constructor].
Qed.
Example C90_case : exists v, judged (asking (signed plain_header list_payload) (zstr "alice") Null false false) plain_members list_members v
  /\ N.testbit v 2 = true.
Proof.
  destruct (signed_presented plain_header list_payload plain_members list_members plain_object list_object) as [P V]; [here|here|here|here|].
  eapply (asking_presented _ (zstr "alice") Null false false) in P; [|right; eexists; apply alice_given|left; reflexivity].
  destruct (C90_audience_list _ _ _ _ _ _ _ _ _ _ _ _ (lit "alice") plain_members (Member (lit "aud") KArray (lit "[""alice"",""bob""]")) [] P alice_given)
    as (r & w' & v & D & Rc & Dv & _ & B); [reflexivity| | |reflexivity|].
  - repeat constructor; apply unconcerned_by; reflexivity.
  - apply read_as_written; [reflexivity|js_body].
  - exists v. split; [|apply B; intros y; discriminate]. split; [do 4 eexists; split; [exact P|exact V]|eauto].
Qed.
Example C91_case : exists v, judged (verdict_params (signed plain_header twice_payload)) plain_members twice_members v /\ N.testbit v 1 = false.
Proof.
  destruct (signed_presented plain_header twice_payload plain_members twice_members plain_object twice_object) as [P V]; [here|here|here|here|].
  destruct (C91_first_counts _ _ _ _ _ _ _ _ _ _ _ _ 1%N (lit "sub") (zstr "alice") 0%N (lit "alice") plain_members
      (Member (lit "sub") KString (quoted (lit "alice"))) [] (Member (lit "sub") KString (quoted (lit "mallory"))) [Member (lit "exp") KNumber (lit "2000")]
      (lit "alice") (lit "mallory") P)
    as (r & w' & v & D & Rc & Dv & B & _); [cbn; auto|apply alice_given|reflexivity| | | | | |].
  - repeat constructor; apply unconcerned_by; reflexivity.
  - apply read_as_written; [reflexivity|js_body].
  - exists (lit "alice"). split; [reflexivity|apply read_as_written; [reflexivity|js_body]].
  - apply read_as_written; [reflexivity|js_body].
  - exists (lit "mallory"). split; [reflexivity|apply read_as_written; [reflexivity|js_body]].
  - exists v. split; [|apply B; reflexivity]. split; [do 4 eexists; split; [exact P|exact V]|eauto].
Qed.
(** nbf false: not before 0, and the time is 1000. *)
Example C92_case : exists v, judged (asking (signed plain_header quoted_payload) Null (zstr "null") true true) plain_members quoted_members v
  /\ N.testbit v 5 = false.
Proof.
  assert (G : given (zstr "null") 0 (lit "null")) by (exists []; split; [reflexivity|vm_compute; intuition discriminate]).
  destruct (signed_presented plain_header quoted_payload plain_members quoted_members plain_object quoted_object) as [P V]; [here|here|here|here|].
  eapply (asking_presented _ Null (zstr "null") true true) in P; [|left; reflexivity|right; eexists; exact G].
  destruct (C92_dates_of_other_kinds _ _ _ _ _ _ _ _ _ _ _ _ Nbf (plain_members ++ removelast quoted_members) (Member (lit "nbf") KFalse (lit "false")) [] (lit "false") P)
    as (r & w' & v & D & Rc & Dv & _ & B); [reflexivity|reflexivity| | |reflexivity|].
  - repeat constructor; apply unconcerned_by; reflexivity.
  - apply read_as_written; [reflexivity|js_body].
  - exists v. split.
    + split; [do 4 eexists; split; [exact P|exact V]|eauto].
    + specialize (B ltac:(discriminate) ltac:(discriminate)). change (time_bit Nbf) with 5%N in B.
      destruct (N.testbit v 5); [|reflexivity]. pose proof (proj1 B eq_refl) as F. vm_compute in F. discriminate F.
Qed.
