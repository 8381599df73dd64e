(** * Property C71: decoded claims can be encoded again *)
From Verif Require Import Base BaseProofs HeapProofs Util UtilProofs Claim Base64 SpecB64
  Base64EncProofs Base64EncApi Base64DecProofs Base64Api Jsmn Env Encode Decode SpecJson SpecJwa ClaimProofs UnescapeProofs
  EncodeProofs SignProofs EncodeTotal SpecEnc JsonProofs JsonUnique PropEncode DecodeProofs DecodeInv JsmnProofs ParseProofs
  PropClaim ReadProofs ValidateProofs JsmnJson JsmnSize PropVerify PropValidate PropLeak PropJson DecodeTotal DecodeOk PropSafe
  PropRoundTrip PropInjective LocalProofs.
From Coq Require Import ZifyBool ZifyNat ZifyN.
Ltac Zify.zify_post_hook ::= Z.div_mod_to_equations.
Local Opaque L8W8JWT_MAX_KEY_SIZE.

(** ** Notions *)
(** [c] is the claim a successful decode handed out for the member [m] of a token, whose header and
    payload are JSON objects. *)
Definition from_member (c : claim) (m : member) : Prop :=
  exists p e dp w r w' h pl s hj ht pj pt hms pms b cs n i,
    wf w /\ appended w w' /\ uses_jsmn e /\ (32 <= p_size_bits p)%N /\ checknum_right e
    /\ l8w8jwt_decode p e (Some dp) true true true w = Ret r w' /\ dr_rc r = L8W8JWT_SUCCESS
    /\ c_text p dp (h ++ lit "." ++ pl ++ lit "." ++ s) /\ no_dot h /\ no_dot pl
    /\ url_decodes h hj ht /\ url_decodes pl pj pt
    /\ object_text hj hms /\ object_text pj pms
    /\ dr_claims r = Some (CArr b cs, n)
    /\ nth_error cs i = Some c /\ nth_error (hms ++ pms) i = Some m.
(** Two claims with the same key, the same value and the same type. *)
Definition same_claim (c d : claim) : Prop :=
  c_type c = c_type d /\ exists k v, decoded c k v /\ decoded d k v.
(** Two texts of JSON strings that denote the same string. *)
Definition same_string (t t' : bytes) : Prop := exists d, json_body t d /\ json_body t' d.
(** Two JSON members that mean the same: the same name, and the same string or the same text of
    another value. *)
Definition same_member (m m' : member) : Prop :=
  same_string (m_key m) (m_key m') /\ m_kind m = m_kind m'
  /\ match m_kind m with
     | KString => exists t t', m_value m = quoted t /\ m_value m' = quoted t' /\ same_string t t'
     | _ => m_value m = m_value m'
     end.
(** No DEL in the key, nor in the value of a string claim. *)
Definition no_del (c : claim) : Prop :=
  forall k v, decoded c k v -> ~ In x7f k /\ (c_type c = L8W8JWT_CLAIM_TYPE_STRING -> ~ In x7f v).

(** ** Lemmas *)
Lemma decoded_members p e dp w r w' h pl s hj ht pj pt hms pms b cs n :
  wf w -> appended w w' -> uses_jsmn e -> (32 <= p_size_bits p)%N -> checknum_right e ->
  l8w8jwt_decode p e (Some dp) true true true w = Ret r w' -> dr_rc r = L8W8JWT_SUCCESS ->
  c_text p dp (h ++ lit "." ++ pl ++ lit "." ++ s) -> no_dot h -> no_dot pl ->
  url_decodes h hj ht -> url_decodes pl pj pt ->
  object_text hj hms -> object_text pj pms ->
  dr_claims r = Some (CArr b cs, n) ->
  Forall2 (represents kept_body) cs (hms ++ pms)
  /\ (Forall simple_member (hms ++ pms) -> Forall2 (represents json_body) cs (hms ++ pms))
  /\ Forall member_ok (hms ++ pms).
Proof.
  intros Hwf Hg Hj Hp Hc H Hrc Ht N1 N2 D1 D2 O1 O2 Ecs.
  destruct (C31_members_partial p e dp w r w' Hwf Hg Hj Hp Hc H Hrc) as (h' & pl' & hj' & pj' & ht' & pt' & TP & D1' & D2' & Hcl).
  assert (h' = h /\ pl' = pl) as (-> & ->).
  { destruct Ht as ((b0 & rest & Ej) & Hz & _).
    assert (Nh : no_nul h) by (intros K; apply Hz; rewrite !in_app_iff; auto).
    assert (Np : no_nul pl) by (intros K; apply Hz; rewrite !in_app_iff; auto).
    destruct TP as [jwt h0 pl0 rest0 (b' & Ej') T|jwt h0 s0 rest0 n0 (b' & Ej') _ E0 Nd _ Ns _ _].
    - assert (jwt = (h ++ lit "." ++ pl ++ lit "." ++ s) ++ x00 :: rest) by congruence. subst jwt.
      assert (T' : three_parts ((h ++ lit "." ++ pl ++ lit "." ++ s) ++ x00 :: rest) h pl (s ++ x00 :: rest)).
      { split; [rewrite <- !app_assoc; reflexivity|]. auto. }
      destruct (three_parts_fun _ _ _ _ _ _ _ T T') as (-> & -> & _). auto.
    - exfalso. rewrite Ej in Ej'. injection Ej' as _ Ej'. rewrite E0 in Ej'.
      rewrite <- !app_assoc in Ej'. change (lit ".") with [x2e] in Ej'. cbn [app] in Ej'. rewrite <- app_assoc in Ej'.
      exact (no_third pl (s ++ x00 :: rest) s0 rest0 h h0 Np Ns N1 Nd Ej'). }
  destruct (url_decodes_fun _ _ _ _ _ D1' D1) as [_ ->]. destruct (url_decodes_fun _ _ _ _ _ D2' D2) as [_ ->].
  destruct (Hcl hms pms O1 O2) as (b' & cs' & Ecs' & Hkept & Hsimple).
  assert (cs' = cs) as -> by congruence. split; [exact Hkept|]. split; [exact Hsimple|].
  destruct O1 as (a1 & t1 & b1 & _ & O1 & _). destruct O2 as (a2 & t2 & b2 & _ & O2 & _).
  apply Forall_app. split; eapply object_ok; eauto.
Qed.

Lemma represents_nth body cs ms i c m : Forall2 (represents body) cs ms -> nth_error cs i = Some c -> nth_error ms i = Some m ->
  represents body c m.
Proof.
  intros H. revert i. induction H as [|x y cs ms Hx _ IH]; intros [|i] Hc Hm; try discriminate; cbn [nth_error] in *.
  - congruence.
  - eauto.
Qed.

Lemma from_kept c m : from_member c m -> represents kept_body c m /\ member_ok m.
Proof.
  intros (p & e & dp & w & r & w' & h & pl & s & hj & ht & pj & pt & hms & pms & b & cs & n & i
    & Hwf & Hg & Hj & Hp & Hc & H & Hrc & Ht & N1 & N2 & D1 & D2 & O1 & O2 & Ecs & Ec & Em).
  destruct (decoded_members _ _ _ _ _ _ _ _ _ _ _ _ _ _ _ _ _ _ Hwf Hg Hj Hp Hc H Hrc Ht N1 N2 D1 D2 O1 O2 Ecs) as (K & _ & Ok).
  split; [eapply represents_nth; eauto|]. rewrite Forall_forall in Ok. apply Ok. eapply nth_error_In; eauto.
Qed.

Lemma decoded_given c k v : decoded c k v -> given (c_key c) (c_key_length c) k /\ given (c_value c) (c_value_length c) v.
Proof.
  assert (G : forall b r s, given (Ptr b (s ++ x00 :: r)) (N.of_nat (length s)) s).
  { intros b r s. cbn [given]. destruct (N.eqb_spec (N.of_nat (length s)) 0) as [E|E].
    - destruct s; [|cbn [length] in E; lia]. exists r. split; [reflexivity|intros []].
    - rewrite Nat2N.id, firstn_app_exact, app_length. split; [lia|reflexivity]. }
  intros ((b & r & ->) & -> & (b' & r' & ->) & ->). auto.
Qed.
Lemma decoded_fun c k v k' v' : decoded c k v -> decoded c k' v' -> k = k' /\ v = v'.
Proof.
  intros H H'. apply decoded_given in H as [H1 H2]. apply decoded_given in H' as [H1' H2']. split; eapply given_det; eauto.
Qed.
Lemma kept_survives t d : kept_body t d -> ~ In x7f d -> Forall survives d.
Proof.
  induction 1 as [|c t d H1 H2 H3 _ IH|e c t d H _ IH|t d _ IH]; intros Hd; [constructor| | |].
  - constructor; [|apply IH; intros K; apply Hd; right; exact K]. left. split; [exact H1|]. intros ->. apply Hd. left. reflexivity.
  - constructor; [|apply IH; intros K; apply Hd; right; exact K]. apply survivesb_spec.
    vm_compute in H. decompose [or] H; try contradiction;
      match goal with E : (_, _) = (_, _) |- _ => injection E as <- <- end; reflexivity.
  - assert (~ In x7f d) by (intros K; apply Hd; right; right; exact K).
    constructor; [apply survivesb_spec; reflexivity|]. constructor; [apply survivesb_spec; reflexivity|auto].
Qed.
Lemma value_alone k t k' t' w1 w2 : json_value k t -> json_value k' t' -> json_ws w1 -> json_ws w2 ->
  t = w1 ++ t' ++ w2 -> k = k' /\ t = t'.
Proof.
  intros H H' W1 W2 E.
  destruct (ws_split [] w1 t (t' ++ w2) E (Forall_nil _) W1) as [<- E'].
  { rewrite <- (app_nil_r t). eapply kind_starts; eauto. }
  { eapply kind_starts; eauto. }
  destruct (proj1 json_unambiguous k t H k' t' [] w2 H') as (-> & -> & _); auto.
  - exact I.
  - rewrite <- (app_nil_r w2). apply ends_ws; [exact W2|exact I].
  - rewrite app_nil_r. exact E'.
Qed.
Lemma value_type_fun m m' ty ty' : m_kind m = m_kind m' -> m_value m = m_value m' -> value_type m ty -> value_type m' ty' -> ty = ty'.
Proof.
  unfold value_type. intros <- <-. destruct (m_kind m); try congruence.
  intros [(A & ->)|(A & ->)] [(B & ->)|(B & ->)]; tauto.
Qed.
Lemma string_kind m ty : value_type m ty -> (ty = L8W8JWT_CLAIM_TYPE_STRING <-> m_kind m = KString).
Proof.
  unfold value_type. change L8W8JWT_CLAIM_TYPE_STRING with 0%Z. destruct (m_kind m); intros H; try (split; [intros ->|]; intros; congruence);
    try (subst ty; split; intros K; vm_compute in K; discriminate K).
  destruct H as [(_ & ->)|(_ & ->)]; split; intros K; vm_compute in K; discriminate K.
Qed.

(** A decoded claim is a fit argument of encode. *)
Lemma from_raw cs : (forall c, In c cs -> exists m, from_member c m) -> raw_values_ok cs.
Proof.
  intros H. apply Forall_forall. intros c Hc Ht v Gv. destruct (H c Hc) as (m & Hm).
  destruct (from_kept _ _ Hm) as ((k0 & v0 & Hd & _ & Hv & Hty) & _ & Hj).
  destruct (decoded_given _ _ _ Hd) as [_ Gv0]. rewrite (given_det _ _ _ _ Gv Gv0).
  assert (Hk : m_kind m <> KString) by (intros K; apply Ht; apply (string_kind m); auto).
  exists [], (m_kind m), (m_value m), []. split; [constructor|]. split; [exact Hj|]. split; [constructor|].
  rewrite app_nil_r. destruct (m_kind m); try exact Hv. congruence.
Qed.
(** ... and comes back as it was. *)
Lemma back_same c d m : from_member c m -> no_del c -> claim_back c d -> same_claim c d.
Proof.
  intros Hm Hdel (k & v & k' & v' & Gk & Gv & Hd & Bk & Bs & Br).
  destruct (from_kept _ _ Hm) as ((k0 & v0 & Hd0 & Hk & Hv & Hty) & _ & Hj).
  destruct (decoded_given _ _ _ Hd0) as [Gk0 Gv0].
  rewrite (given_det _ _ _ _ Gk Gk0) in *. rewrite (given_det _ _ _ _ Gv Gv0) in *. clear Gk Gv.
  destruct (Hdel _ _ Hd0) as [Dk Dv].
  rewrite (comes_back_same _ _ Bk (kept_survives _ _ Hk Dk)) in Hd.
  destruct (Z.eq_dec (c_type c) L8W8JWT_CLAIM_TYPE_STRING) as [Et|Et].
  - destruct (Bs Et) as (Et' & Bv). split; [congruence|]. exists k0, v0. split; [exact Hd0|].
    apply (string_kind m) in Et as Ek; [|exact Hty]. rewrite Ek in Hv. destruct Hv as (t & _ & Hv).
    rewrite (comes_back_same _ _ Bv (kept_survives _ _ Hv (Dv Et))) in Hd. exact Hd.
  - destruct (Br Et) as (m' & w1 & w2 & Hj' & W1 & W2 & Ev & Hty' & Hv').
    assert (Hn : m_kind m <> KString) by (intros K; apply Et; apply (string_kind m); auto).
    assert (Ev0 : v0 = m_value m) by (destruct (m_kind m); try exact Hv; congruence). rewrite Ev0 in Ev.
    destruct (value_alone _ _ _ _ _ _ Hj Hj' W1 W2 Ev) as [Ek Em].
    split; [exact (value_type_fun _ _ _ _ Ek Em Hty Hty')|]. exists k0, v0. split; [exact Hd0|].
    assert (v' = v0) as <-; [|exact Hd]. rewrite Ev0, Em. rewrite <- Ek in Hv'. destruct (m_kind m); try exact Hv'. congruence.
Qed.
Lemma asked_same c m m' : from_member c m -> simple_member m -> asks_for c m' -> same_member m m'.
Proof.
  intros Hm (S1 & S2) (k & v & Gk & Gv & Bk & Bs & Br).
  destruct (from_kept _ _ Hm) as ((k0 & v0 & Hd0 & Hk & Hv & Hty) & _ & Hj).
  destruct (decoded_given _ _ _ Hd0) as [Gk0 Gv0].
  rewrite (given_det _ _ _ _ Gk Gk0) in *. rewrite (given_det _ _ _ _ Gv Gv0) in *. clear Gk Gv.
  assert (SK : forall t d, simple_body t -> kept_body t d -> json_body t d).
  { intros t d St Kt. rewrite <- (kept_unesc _ _ Kt). apply simple_unesc. exact St. }
  split; [exists k0; auto|].
  destruct (Z.eq_dec (c_type c) L8W8JWT_CLAIM_TYPE_STRING) as [Et|Et].
  - destruct (Bs Et) as (Ek' & t' & Bt' & Ev'). apply (string_kind m) in Et as Ek; [|exact Hty].
    split; [congruence|]. rewrite Ek in *. destruct Hv as (t & Ev & Kt). destruct S2 as (t2 & Ev2 & S2).
    rewrite Ev in Ev2. apply quoted_inj in Ev2. subst t2. exists t, t'. split; [exact Ev|]. split; [exact Ev'|]. exists v0. auto.
  - destruct (Br Et) as (Hj' & w1 & w2 & W1 & W2 & Ev).
    assert (Hn : m_kind m <> KString) by (intros K; apply Et; apply (string_kind m); auto).
    assert (Ev0 : v0 = m_value m) by (destruct (m_kind m); try exact Hv; congruence). rewrite Ev0 in Ev.
    destruct (value_alone _ _ _ _ _ _ Hj Hj' W1 W2 Ev) as [Ek Em]. split; [exact Ek|].
    destruct (m_kind m); try exact Em. congruence.
Qed.

(** ** C71 *)
(** Claims taken from decoded tokens (any number of tokens, any selection, any order), given to encode
    as additional claims, come out of decoding the new token with the same key, value and type, unless
    they contain the character DEL. Missing: DEL, and (as in C18) allocators that fail and texts beyond
    the decoder's token limit. *)
Theorem C71_claims_kept_partial :
  forall p e ep w r w',
    (6 <= p_size_bits p)%N -> wf w -> appended w w' -> allocated w w' ->
    l8w8jwt_encode p e (Some ep) w = Ret r w' -> er_rc r = L8W8JWT_SUCCESS ->
    header_commas_ok ep -> payload_commas_ok ep ->
    let hcs := keyed_claims (ep_header_claims ep) (ep_header_claims_count ep) in
    let pcs := keyed_claims (ep_payload_claims ep) (ep_payload_claims_count ep) in
    (forall c, In c (hcs ++ pcs) -> exists m, from_member c m) ->
    (forall c, In c (hcs ++ pcs) -> no_del c) ->
    exists id token ht pt j k,
      er_out r = Some (Ptr (Some id) (token ++ [x00])) /\ er_len r = Some (N.of_nat (length token))
      /\ supported (ep_alg ep) j /\ caller_key (ep_secret_key ep) (ep_secret_key_length ep) k
      /\ (exists s, token = rfc4648_unpadded true ht ++ lit "." ++ rfc4648_unpadded true pt ++ lit "." ++ s)
      /\ forall p' e' dp w1,
         wf w1 -> grows w1 -> allocs w1 -> (32 <= p_size_bits p')%N -> uses_jsmn e' -> checknum_right e' ->
         readable ht hcs -> readable pt pcs ->
         c_text p' dp token -> (Z.of_nat (length token) <= INT_MAX)%Z ->
         key_ok (dp_verification_key dp) (dp_verification_key_length dp) ->
         (dp_alg dp = (-1)%Z \/ dp_alg dp = ep_alg ep /\ right_key p' e e' ep dp j k) ->
         requests_ok p' e' dp ->
         exists r' w2 b fs hs rs ps, l8w8jwt_decode p' e' (Some dp) true true true w1 = Ret r' w2
           /\ dr_rc r' = L8W8JWT_SUCCESS
           /\ dr_claims r' = Some (CArr b (fs ++ hs ++ rs ++ ps), N.of_nat (length (fs ++ hs ++ rs ++ ps)))
           /\ fixed_back j fs /\ registered_back ep rs
           /\ Forall2 same_claim hcs hs /\ Forall2 same_claim pcs ps.
Proof.
  intros p e ep w r w' Hp Hwf Hg Ha H Hrc Hhc Hpc hcs pcs Hfrom Hdel.

  assert (S : forall cs ds, (forall c, In c cs -> In c (hcs ++ pcs)) -> Forall2 claim_back cs ds -> Forall2 same_claim cs ds).
  { intros cs ds Hin HF. induction HF as [|c d cs ds Hcd _ IH]; constructor.
    - destruct (Hfrom c) as (m & Hm); [apply Hin; left; reflexivity|].
      eapply back_same; eauto. apply Hdel, Hin. left. reflexivity.
    - apply IH. intros x Hx. apply Hin. right. exact Hx. }
  destruct (C18_round_trip p e ep w r w' Hp Hwf Hg Ha H Hrc Hhc Hpc) as (id & token & ht & pt & j & k & Ho & Hl & Hj & Hk & Hs & Hd).
  { apply from_raw. intros c Hc. apply Hfrom. apply in_or_app. auto. }
  { apply from_raw. intros c Hc. apply Hfrom. apply in_or_app. auto. }
  exists id, token, ht, pt, j, k. do 5 (split; [assumption|]).
  intros p' e' dp w1 Q1 Q2 Q3 Q4 Q5 Q6 Q7 Q8 Q9 Q10 Q11 Q12 Q13.
  destruct (Hd p' e' dp w1 Q1 Q2 Q3 Q4 Q5 Q6 Q7 Q8 Q9 Q10 Q11 Q12 Q13)
    as (r' & w2 & v & b & fs & hs & rs & ps & E & Erc & _ & _ & _ & Ec & F1 & F2 & F3 & F4).
  exists r', w2, b, fs, hs, rs, ps. do 5 (split; [assumption|]).
  split; (apply S; [intros c Hc; apply in_or_app; auto|assumption]).
Qed.
Print Assumptions C71_claims_kept_partial.

(** What the new token says as JSON: members that mean the same as those decoded, unless these were
    written with \u escapes. Missing: \u escapes. *)
Theorem C71_members_kept_partial :
  forall p e ep w r w' hms pms,
    (6 <= p_size_bits p)%N -> wf w -> appended w w' -> allocated w w' ->
    l8w8jwt_encode p e (Some ep) w = Ret r w' -> er_rc r = L8W8JWT_SUCCESS ->
    header_commas_ok ep -> payload_commas_ok ep ->
    Forall2 from_member (keyed_claims (ep_header_claims ep) (ep_header_claims_count ep)) hms ->
    Forall2 from_member (keyed_claims (ep_payload_claims ep) (ep_payload_claims_count ep)) pms ->
    Forall simple_member hms -> Forall simple_member pms ->
    exists id ht pt s j hms' reg pms',
      er_out r = Some (Ptr (Some id) (rfc4648_unpadded true ht ++ lit "."
                                      ++ rfc4648_unpadded true pt ++ lit "." ++ s ++ [x00]))
      /\ supported (ep_alg ep) j
      /\ json_object (fixed_members j ++ hms') ht /\ Forall2 same_member hms hms'
      /\ json_object (reg ++ pms') pt /\ asks_registered ep reg /\ Forall2 same_member pms pms'.
Proof.
  intros p e ep w r w' hms pms Hp Hwf Hg Ha H Hrc Hhc Hpc F1 F2 S1 S2.

  assert (R : forall cs ms, Forall2 from_member cs ms -> forall c, In c cs -> exists m, from_member c m).
  { induction 1 as [|c0 m0 cs ms Hm _ IH]; intros c []; [subst; eauto|eauto]. }
  assert (G : forall cs ms, Forall2 from_member cs ms -> Forall simple_member ms -> forall ms', Forall2 asks_for cs ms' -> Forall2 same_member ms ms').
  { induction 1 as [|c m cs ms Hm _ IH]; intros Hs ms' A; inversion A; subst; constructor; inversion Hs; subst.
    - eapply asked_same; eauto.
    - apply IH; auto. }
  destruct (C11_header_and_payload_partial p e ep w r w' Hp Hwf Hg Ha H Hrc Hhc Hpc (from_raw _ (R _ _ F1)) (from_raw _ (R _ _ F2)))
    as (id & ht & pt & s & j & hadd & reg & padd & Ho & Hj & O1 & A1 & O2 & A2 & A3).
  exists id, ht, pt, s, j, hadd, reg, padd. do 3 (split; [assumption|]). split; [eapply G; eauto|].
  do 2 (split; [assumption|]). eapply G; eauto.
Qed.
Print Assumptions C71_members_kept_partial.

(** ** Witnesses *)
Definition toy_decode (pl : string) : res dec_res :=
  l8w8jwt_decode pe toy_num (Some (dp_plain (signed plain_header pl) 0 (zstr "secret") 6)) true true true we.
Arguments toy_decode pl%string_scope.
Definition toy_claims (m : res dec_res) : list claim :=
  match m with Ret r _ => match dr_claims r with Some (CArr _ cs, _) => cs | _ => [] end | Undef _ => [] end.
Lemma toy_from pl pms r w' b n i c m :
  object_text (lit pl) pms -> lit pl <> [] -> (N.of_nat (length (signed plain_header pl)) < size_mod pe)%N ->
  toy_decode pl = Ret r w' -> dr_rc r = L8W8JWT_SUCCESS -> dr_claims r = Some (CArr b (toy_claims (toy_decode pl)), n) ->
  nth_error (toy_claims (toy_decode pl)) i = Some c -> nth_error (plain_members ++ pms) i = Some m -> from_member c m.
Proof.
  intros O Ne L H Hrc Ecs Ec Em.
  destruct (text_decodes (lit plain_header)) as (ht & Dh); [discriminate|]. destruct (text_decodes (lit pl) Ne) as (pt & Dp).
  exists pe, toy_num, (dp_plain (signed plain_header pl) 0 (zstr "secret") 6), we, r, w',
    (rfc4648_unpadded true (lit plain_header)), (rfc4648_unpadded true (lit pl)),
    (rfc4648_unpadded true (fit 32 (lit "secret" ++ rfc4648_unpadded true (lit plain_header) ++ lit "." ++ rfc4648_unpadded true (lit pl)))),
    (lit plain_header), ht, (lit pl), pt, plain_members, pms, b, (toy_claims (toy_decode pl)), n, i.
  split; [apply we_wf|]. split; [intros k; reflexivity|]. split; [intros js cap; reflexivity|]. split; [vm_compute; discriminate|].
  split; [apply toy_num_right|]. split; [exact H|]. split; [exact Hrc|].
  assert (E : signed plain_header pl = rfc4648_unpadded true (lit plain_header) ++ lit "." ++ rfc4648_unpadded true (lit pl) ++ lit "."
    ++ rfc4648_unpadded true (fit 32 (lit "secret" ++ rfc4648_unpadded true (lit plain_header) ++ lit "." ++ rfc4648_unpadded true (lit pl)))).
  { unfold signed. rewrite <- !app_assoc. reflexivity. }
  split.
  { rewrite <- E. split; [exists None, []; reflexivity|]. split; [|split; [reflexivity|exact L]].
    rewrite E. destruct (unpadded_clean (lit plain_header)) as [_ A]. destruct (unpadded_clean (lit pl)) as [_ B].
    match goal with |- no_nul (_ ++ _ ++ _ ++ _ ++ rfc4648_unpadded true ?s) => destruct (unpadded_clean s) as [_ C] end.
    unfold no_nul in *. rewrite !in_app_iff. intros K. decompose [or] K; try contradiction;
      match goal with D : In x00 (lit ".") |- _ => destruct D as [D|[]]; discriminate D end. }
  split; [apply unpadded_clean|]. split; [apply unpadded_clean|]. split; [exact Dh|]. split; [exact Dp|].
  split; [apply plain_object|]. split; [exact O|].
  split; [exact Ecs|]. auto.
Qed.

(** A member whose value is the single character DEL, and one whose value is written \u0041. *)
Definition del : string := String.String (Ascii.ascii_of_nat 127) String.EmptyString.
Definition del_payload : string := String.append "{""a"":""" (String.append del """}")%string.
Definition del_members : list member := [Member (lit "a") KString (quoted (lit del))].
Lemma del_object : object_text (lit del_payload) del_members.
Proof.
  exists [], (lit del_payload), []. split; [constructor|]. split; [|split; [constructor|reflexivity]].
  change (lit del_payload) with (lit "{" ++ ([] ++ quoted (lit "a") ++ [] ++ lit ":" ++ [] ++ quoted (lit del) ++ []) ++ lit "}").
  apply JO_members. eapply JM_one; [constructor|js_body|constructor|constructor| |constructor].
  eapply JV_string. js_body.
Qed.
Definition again (pl : string) : enc_params := ep_claims Null 0 (skipn 2 (toy_claims (toy_decode pl))).
Arguments again pl%string_scope.
(** The token made from the payload claims of another one. *)
Definition again_text (pl : string) : bytes :=
  match l8w8jwt_encode pe toy_num (Some (again pl)) we with
  | Ret r _ => match er_out r with Some (Ptr _ t) => removelast t | _ => [] end | Undef _ => [] end.
Arguments again_text pl%string_scope.
Lemma again_commas pl : skipn 2 (toy_claims (toy_decode pl)) <> [] -> header_commas_ok (again pl) /\ payload_commas_ok (again pl).
Proof.
  intros Hn. split; [intros C; vm_compute in C; discriminate C|]. intros _.
  unfold some_time, some_length, some_string, again, ep_claims. cbn. intuition congruence.
Qed.

Theorem C71_kept_refuted :
  (exists c m ep r w' id t dp r' w2 b fs d n,
     from_member c m /\ keyed_claims (ep_payload_claims ep) (ep_payload_claims_count ep) = [c]
     /\ header_commas_ok ep /\ payload_commas_ok ep
     /\ l8w8jwt_encode pe toy_num (Some ep) we = Ret r w' /\ er_rc r = L8W8JWT_SUCCESS
     /\ er_out r = Some (Ptr (Some id) (t ++ [x00])) /\ c_text pe dp t
     /\ l8w8jwt_decode pe toy_num (Some dp) true true true we = Ret r' w2 /\ dr_rc r' = L8W8JWT_SUCCESS
     /\ dr_valid r' = Some 0%N
     /\ dr_claims r' = Some (CArr b (fs ++ [d]), n) /\ ~ same_claim c d)
  /\ (exists c m ep r w' id ht pt s,
     from_member c m /\ keyed_claims (ep_payload_claims ep) (ep_payload_claims_count ep) = [c]
     /\ header_commas_ok ep /\ payload_commas_ok ep
     /\ l8w8jwt_encode pe toy_num (Some ep) we = Ret r w' /\ er_rc r = L8W8JWT_SUCCESS
     /\ er_out r = Some (Ptr (Some id) (rfc4648_unpadded true ht ++ lit "." ++ rfc4648_unpadded true pt ++ lit "." ++ s ++ [x00]))
     /\ forall ms, json_object ms pt -> ~ Forall2 same_member [m] ms).
Proof.
  split.
  - eexists _, (Member (lit "a") KString (quoted (lit del))), (again del_payload). do 3 eexists.
    exists (again_text del_payload), (dp_plain (again_text del_payload) 0 (zstr "secret") 6). do 3 eexists.
    exists (firstn 2 (toy_claims (l8w8jwt_decode pe toy_num (Some (dp_plain (again_text del_payload) 0 (zstr "secret") 6)) true true true we))).
    do 2 eexists.
    split. { eapply (toy_from del_payload del_members _ _ _ _ 2); [apply del_object|discriminate
             |vm_compute; reflexivity|vm_compute; reflexivity|reflexivity|vm_compute; reflexivity|vm_compute; reflexivity|reflexivity]. }
    split; [vm_compute; reflexivity|]. destruct (again_commas del_payload) as [C1 C2]; [vm_compute; discriminate|].
    split; [exact C1|]. split; [exact C2|]. split; [vm_compute; reflexivity|]. split; [reflexivity|].
    split; [vm_compute; reflexivity|].
    split. { split; [exists None, []; reflexivity|]. split; [apply no_nul_b; vm_compute; reflexivity|]. split; vm_compute; reflexivity. }
    split; [vm_compute; reflexivity|]. split; [reflexivity|]. split; [reflexivity|]. split; [vm_compute; reflexivity|].
    intros (_ & k & v & (_ & _ & _ & L1) & (_ & _ & _ & L2)). cbn [c_value_length] in L1, L2. rewrite <- L1 in L2. discriminate L2.
  - eexists _, (Member (lit "a") KString (quoted (lit "\u0041"))), (again unicode_payload). do 3 eexists.
    exists (lit plain_header), (lit "{""a"":""\\u0041""}"), (skipn 58 (again_text unicode_payload)).
    split. { eapply (toy_from unicode_payload unicode_members _ _ _ _ 2); [apply unicode_object|discriminate
             |vm_compute; reflexivity|vm_compute; reflexivity|reflexivity|vm_compute; reflexivity|vm_compute; reflexivity|reflexivity]. }
    split; [vm_compute; reflexivity|]. destruct (again_commas unicode_payload) as [C1 C2]; [vm_compute; discriminate|].
    split; [exact C1|]. split; [exact C2|]. split; [vm_compute; reflexivity|]. split; [reflexivity|].
    split; [vm_compute; reflexivity|]. intros ms O HF.
    assert (E : ms = [Member (lit "a") KString (quoted (lit "\\u0041"))]).
    { eapply json_object_fun; [exact O|].
      change (lit "{""a"":""\\u0041""}") with (lit "{" ++ ([] ++ quoted (lit "a") ++ [] ++ lit ":" ++ [] ++ quoted (lit "\\u0041") ++ []) ++ lit "}").
      apply JO_members. eapply JM_one; [constructor|js_body|constructor|constructor| |constructor].
      eapply JV_string. js_body. }
    subst ms. apply Forall2_cons_iff in HF as [(_ & _ & t & t' & E & E' & v & B & B') _].
    cbn [m_value] in E, E'. apply quoted_inj in E. apply quoted_inj in E'. subst t t'.
    apply body_A in B. subst v. inversion B' as [| |e0 c0 t0 d0 He Ht| |]; subst.
    vm_compute in He. decompose [or] He; try congruence; contradiction.
Qed.
Print Assumptions C71_kept_refuted.

Lemma pointwise {A B} (R : A -> B -> Prop) l : forall l', length l = length l' ->
  (forall i x y, nth_error l i = Some x -> nth_error l' i = Some y -> R x y) -> Forall2 R l l'.
Proof.
  induction l as [|x l IH]; intros [|y l'] L H; try discriminate L; constructor.
  - apply (H 0%nat); reflexivity.
  - apply IH; [cbn [length] in L; lia|]. intros i. exact (H (S i)).
Qed.
Lemma Forall2_back {A B} (R : A -> B -> Prop) l l' : Forall2 R l l' -> Forall2 R (rev l) (rev l').
Proof. induction 1; [constructor|]. cbn [rev]. apply Forall2_app; auto. Qed.
(** Non-vacuous: the claims of a token with nesting, a line feed, a quote and a backslash, encoded again
    in another order. *)
Definition rich_again : enc_params := ep_claims Null 0 (rev (toy_claims (toy_decode rich_payload))).
Example C71_example :
  let cs := keyed_claims (ep_payload_claims rich_again) (ep_payload_claims_count rich_again) in
  length cs = 5%nat /\ Forall2 from_member cs (rev (plain_members ++ rich_members)) /\ Forall no_del cs
  /\ Forall simple_member (rev (plain_members ++ rich_members))
  /\ header_commas_ok rich_again /\ payload_commas_ok rich_again
  /\ (exists t r' w', outcome (l8w8jwt_encode pe toy_num (Some rich_again) we) = Some (L8W8JWT_SUCCESS, t ++ [x00])
       /\ l8w8jwt_decode pe toy_num (Some (dp_plain t 0 (zstr "secret") 6)) true true true we = Ret r' w' /\ dr_valid r' = Some 0%N
       /\ map claim_texts (skipn 2 (toy_claims (Ret r' w'))) = map claim_texts cs).
Proof.
  cbv zeta.
  assert (L : keyed_claims (ep_payload_claims rich_again) (ep_payload_claims_count rich_again) = rev (toy_claims (toy_decode rich_payload)))
    by (vm_compute; reflexivity). rewrite L. clear L.
  assert (F : forall i c m, nth_error (toy_claims (toy_decode rich_payload)) i = Some c -> nth_error (plain_members ++ rich_members) i = Some m ->
    from_member c m).
  { intros i c m Ec Em. eapply (toy_from rich_payload rich_members _ _ _ _ i); [apply rich_object|discriminate
      |vm_compute; reflexivity|vm_compute; reflexivity|reflexivity|vm_compute; reflexivity|exact Ec|exact Em]. }
  split; [vm_compute; reflexivity|]. split.
  { apply Forall2_back, pointwise; [vm_compute; reflexivity|exact F]. }
  split.
  { apply Forall_forall. intros c Hc. apply in_rev in Hc. intros k v Hd.
    assert (T : claim_texts c = (k, v, c_type c)).
    { destruct Hd as ((b & r & Ek) & Lk & (b' & r' & Ev) & Lv). unfold claim_texts. rewrite Ek, Lk, Ev, Lv, !Nat2N.id, !firstn_app_exact. reflexivity. }
    assert (I : In (claim_texts c) (map claim_texts (toy_claims (toy_decode rich_payload)))) by (apply in_map; exact Hc).
    rewrite T in I. clear F Hc T Hd. vm_compute in I.
    assert (D : forall l, existsb (Byte.eqb x7f) l = false -> ~ In x7f l).
    { intros l E K. assert (existsb (Byte.eqb x7f) l = true); [|congruence]. apply existsb_exists. exists x7f. split; [exact K|reflexivity]. }
    decompose [or] I; try contradiction; match goal with E : _ = _ |- _ => injection E as <- <- _ end; split; intros; apply D; reflexivity. }
  split.
  { clear F. unfold simple_member. cbn [rev app plain_members rich_members].
    repeat (apply Forall_cons; [split; cbn [m_key m_kind m_value]; [|first [exact I|exists (lit "\""x\\"); split; [reflexivity|]|eexists; split; [reflexivity|]]];
      repeat first [apply SB_nil | apply SB_char; [vm_compute; discriminate|discriminate|discriminate|]
        |eapply SB_escape; [vm_compute; intuition reflexivity|]]|]). apply Forall_nil. }
  clear F. split; [intros C; vm_compute in C; discriminate C|]. split.
  { intros _. split; intros K.
    - exfalso. vm_compute in K. intuition congruence.
    - exfalso. destruct K as [K _]. vm_compute in K. intuition congruence. }
  exists (match l8w8jwt_encode pe toy_num (Some rich_again) we with
          | Ret r _ => match er_out r with Some (Ptr _ t) => removelast t | _ => [] end | Undef _ => [] end).
  do 2 eexists. split; [vm_compute; reflexivity|]. split; [vm_compute; reflexivity|]. split; [reflexivity|].
  vm_compute. reflexivity.
Qed.
