(** * Property C100: names in an issued token are unique *)
From Verif Require Import Base BaseProofs HeapProofs Util UtilProofs Claim Base64 SpecB64
  Base64EncProofs Base64EncApi Base64DecProofs Base64Api UnescapeProofs Jsmn Env Encode Decode SpecJson SpecJwa ClaimProofs EncodeProofs
  SignProofs EncodeTotal SpecEnc JsonProofs JsonUnique PropEncode DecodeProofs DecodeInv JsmnProofs ParseProofs
  PropClaim ReadProofs ValidateProofs JsmnJson DecodeTotal PropVerify PropValidate PropJson PropRoundTrip LocalProofs PropInjective PropEncComplete PropAuthentic.
From Coq Require Import ZifyBool ZifyNat ZifyN.
Ltac Zify.zify_post_hook ::= Z.div_mod_to_equations.

(** ** Specification *)
(** The names of the members of an object, as JSON reads them (escapes resolved). *)
Definition has_names (t : bytes) (ns : list bytes) : Prop :=
  exists ms, json_object ms t /\ Forall2 (fun m n => json_body (m_key m) n) ms ns.
(** RFC 7515 section 4, RFC 7519 section 4: names within an object must be unique. *)
Definition unique_names (t : bytes) : Prop := forall ns, has_names t ns -> NoDup ns.
(** The names a request asks for. *)
Definition claim_names (cs : list claim) (ks : list bytes) : Prop := Forall2 (fun c k => given (c_key c) (c_key_length c) k) cs ks.
Definition header_names (alg : Z) : list bytes :=
  [lit "alg"; lit "typ"] ++ if (alg =? 12)%Z || (alg =? 13)%Z then [lit "kty"; lit "crv"] else [].
Definition date_name (name : bytes) (t : Z) : list bytes := if (t =? 0)%Z then [] else [name].
Definition text_name (name : bytes) (q : ptr) : list bytes := match q with Null => [] | _ => [name] end.
Definition payload_names (ep : enc_params) : list bytes :=
  date_name (lit "iat") (ep_iat ep) ++ date_name (lit "nbf") (ep_nbf ep) ++ date_name (lit "exp") (ep_exp ep)
  ++ text_name (lit "sub") (ep_sub ep) ++ text_name (lit "iss") (ep_iss ep) ++ text_name (lit "aud") (ep_aud ep) ++ text_name (lit "jti") (ep_jti ep).

(** ** Lemmas *)
Lemma names_fun t ns ns' : has_names t ns -> has_names t ns' -> ns = ns'.
Proof.
  intros (ms & O & F) (ms' & O' & F'). assert (ms' = ms) as -> by (eapply json_object_fun; eauto). clear O O'.
  revert ns' F'. induction F as [|m n ms ns H F IH]; intros ns' F'; inversion F' as [|? n' ? ns1 H' F1]; subst; [reflexivity|].
  f_equal; [eapply json_body_det; eauto|auto].
Qed.
Lemma asked_names cs ms : Forall2 asks_for cs ms -> exists ks, claim_names cs ks /\ Forall2 (fun m n => json_body (m_key m) n) ms ks.
Proof.
  induction 1 as [|c m cs ms (k & v & K & _ & B & _) H (ks & H1 & H2)]; [exists []; split; constructor|].
  exists (k :: ks). split; constructor; auto.
Qed.
Lemma claim_names_fun cs ks ks' : claim_names cs ks -> claim_names cs ks' -> ks = ks'.
Proof.
  intros H. revert ks'. induction H as [|c k cs ks H F IH]; intros ks' F'; inversion F' as [|? k' ? ks1 H' F1]; subst; [reflexivity|].
  f_equal; [eapply given_det; eauto|auto].
Qed.
Lemma fixed_names alg j : supported alg j -> Forall2 (fun m n => json_body (m_key m) n) (fixed_members j) (header_names alg).
Proof. intros [H <-]. vm_compute in H. decompose [or] H; try contradiction; subst; vm_compute; repeat constructor; discriminate. Qed.
Lemma registered_names ep ms : asks_registered ep ms -> Forall2 (fun m n => json_body (m_key m) n) ms (payload_names ep).
Proof.
  intros (a & b & c & d & f & g & h & -> & A & B & C & D & F & G & H). unfold payload_names.
  assert (T : forall n t l, In n registered -> asks_time n t l -> Forall2 (fun m n => json_body (m_key m) n) l (date_name n t)).
  { intros n t l I [(-> & ->)|(N & x & -> & _)]; unfold date_name; [constructor|]. apply Z.eqb_neq in N. rewrite N. constructor; [apply name_body; exact I|constructor]. }
  assert (S : forall n q k l, In n registered -> asks_string n q k l -> Forall2 (fun m n => json_body (m_key m) n) l (text_name n q)).
  { intros n q k l I [(-> & ->)|(v & x & K & _ & ->)]; unfold text_name; [constructor|]. destruct q; [destruct K|]. constructor; [apply name_body; exact I|constructor]. }
  repeat apply Forall2_app; first [eapply T; [|eassumption]|eapply S; [|eassumption]]; vm_compute; tauto.
Qed.
Lemma header_names_distinct alg : NoDup (header_names alg).
Proof. unfold header_names. destruct (_ || _); repeat constructor; vm_compute; intuition discriminate. Qed.
Lemma payload_names_distinct ep : NoDup (payload_names ep).
Proof.
  unfold payload_names, date_name, text_name.
  destruct (ep_iat ep =? 0)%Z, (ep_nbf ep =? 0)%Z, (ep_exp ep =? 0)%Z, (ep_sub ep), (ep_iss ep), (ep_aud ep), (ep_jti ep);
    cbn [app]; repeat (apply NoDup_cons; [vm_compute; intuition discriminate|]); apply NoDup_nil.
Qed.
Lemma distinct_app (l l' : list bytes) : NoDup l -> (NoDup (l ++ l') <-> NoDup l' /\ Forall (fun x => ~ In x l) l').
Proof.
  intros N. rewrite Forall_forall. induction N as [|x l Hx N IH]; cbn [app].
  - intuition.
  - rewrite NoDup_cons_iff, in_app_iff, IH. cbn [In]. split.
    + intros (H1 & H2 & H3). split; [exact H2|]. intros y Hy [->|K]; [tauto|exact (H3 y Hy K)].
    + intros (H2 & H3). split; [|split; [exact H2|intros y Hy K; apply (H3 y Hy); auto]]. intros [K|K]; [contradiction|]. apply (H3 x K). auto.
Qed.

(** ** C100 *)
(** In an issued header (payload) no name occurs twice exactly if the additional claims have different names and none
    of them is a name the library writes itself: alg, typ - for ES256K and EdDSA kty and crv, too -, respectively the
    registered claims that are set. *)
Theorem C100_unique_exactly :
  forall p e ep w r w',
    (6 <= p_size_bits p)%N -> wf w -> appended w w' -> allocated w w' ->
    l8w8jwt_encode p e (Some ep) w = Ret r w' -> er_rc r = L8W8JWT_SUCCESS -> well_posed ep ->
    exists id ht pt c hks pks,
      er_out r = Some (Ptr (Some id) (rfc4648_unpadded true ht ++ lit "." ++ rfc4648_unpadded true pt ++ lit "." ++ c ++ [x00]))
      /\ claim_names (header_claims ep) hks /\ has_names ht (header_names (ep_alg ep) ++ hks)
      /\ (unique_names ht <-> NoDup hks /\ Forall (fun k => ~ In k (header_names (ep_alg ep))) hks)
      /\ claim_names (payload_claims ep) pks /\ has_names pt (payload_names ep ++ pks)
      /\ (unique_names pt <-> NoDup pks /\ Forall (fun k => ~ In k (payload_names ep)) pks).
Proof.
  intros p e ep w r w' Hp Hwf Hg Ha H Hrc (C1 & C2 & C3 & C4).
  destruct (C11_header_and_payload_partial p e ep w r w' Hp Hwf Hg Ha H Hrc C1 C2 C3 C4)
    as (id & ht & pt & c & j & hadd & reg & padd & Ho & Hj & O1 & A1 & O2 & A2 & A3).
  destruct (asked_names _ _ A1) as (hks & K1 & F1). destruct (asked_names _ _ A3) as (pks & K2 & F2).
  assert (N1 : has_names ht (header_names (ep_alg ep) ++ hks)).
  { exists (fixed_members j ++ hadd). split; [exact O1|]. apply Forall2_app; [apply fixed_names; exact Hj|exact F1]. }
  assert (N2 : has_names pt (payload_names ep ++ pks)).
  { exists (reg ++ padd). split; [exact O2|]. apply Forall2_app; [apply registered_names; exact A2|exact F2]. }
  assert (G : forall t l l', NoDup l -> has_names t (l ++ l') -> (unique_names t <-> NoDup l' /\ Forall (fun k => ~ In k l) l')).
  { intros t l l' Nl Hn. rewrite <- (distinct_app l l' Nl). split; [intros U; exact (U _ Hn)|]. intros Nd ns Hn'. rewrite (names_fun _ _ _ Hn' Hn). exact Nd. }
  exists id, ht, pt, c, hks, pks. split; [exact Ho|]. split; [exact K1|]. split; [exact N1|].
  split; [apply G; [apply header_names_distinct|exact N1]|]. split; [exact K2|]. split; [exact N2|]. apply G; [apply payload_names_distinct|exact N2].
Qed.
Print Assumptions C100_unique_exactly.

(** Without additional claims names are unique. *)
Corollary C100_unique_without_claims :
  forall p e ep w r w',
    (6 <= p_size_bits p)%N -> wf w -> appended w w' -> allocated w w' ->
    l8w8jwt_encode p e (Some ep) w = Ret r w' -> er_rc r = L8W8JWT_SUCCESS ->
    ep_header_claims ep = CNull -> ep_payload_claims ep = CNull -> ep_header_claims_count ep = 0%N -> ep_payload_claims_count ep = 0%N ->
    exists id ht pt c,
      er_out r = Some (Ptr (Some id) (rfc4648_unpadded true ht ++ lit "." ++ rfc4648_unpadded true pt ++ lit "." ++ c ++ [x00]))
      /\ unique_names ht /\ unique_names pt.
Proof.
  intros p e ep w r w' Hp Hwf Hg Ha H Hrc E1 E2 E3 E4.
  assert (Wp : well_posed ep).
  { split; [intros X; lia|]. split; [intros X; lia|]. unfold header_claims, payload_claims. rewrite E1, E2. split; constructor. }
  destruct (C100_unique_exactly p e ep w r w' Hp Hwf Hg Ha H Hrc Wp) as (id & ht & pt & c & hks & pks & Ho & K1 & _ & U1 & K2 & _ & U2).
  unfold header_claims, payload_claims in *. rewrite E1 in K1. rewrite E2 in K2. inversion K1; inversion K2; subst.
  exists id, ht, pt, c. split; [exact Ho|]. split; [apply U1|apply U2]; split; constructor.
Qed.
Print Assumptions C100_unique_without_claims.

(** In general they are not: an additional header claim alg and an additional payload claim sub are written after
    the library's own, and the caller gets a token whose header names two algorithms and whose payload two subjects. *)
Definition ep_twice : enc_params :=
  EncParams 0 Null 0 (zstr "alice") 5 Null 0 Null 0 0 0 0
    (CArr None [Claim (zstr "alg") 3 (zstr "none") 4 0]) 1 (CArr None [Claim (zstr "sub") 3 (zstr "mallory") 7 0]) 1 (zstr "secret") 6 Null 0 true true.
Lemma twice_posed : well_posed ep_twice.
Proof.
  split; [discriminate|]. split; [|split; (constructor; [intros X; destruct X; reflexivity|constructor])].
  intros _. split; intros _; [split; [|discriminate]|]; right; [left; discriminate|right; left; discriminate].
Qed.
Theorem C100_unique_refuted :
  exists ep r w' id ht pt c, well_posed ep /\ l8w8jwt_encode pe toy (Some ep) we = Ret r w' /\ er_rc r = L8W8JWT_SUCCESS
    /\ er_out r = Some (Ptr (Some id) (rfc4648_unpadded true ht ++ lit "." ++ rfc4648_unpadded true pt ++ lit "." ++ c ++ [x00]))
    /\ ht = lit "{""alg"":""HS256"",""typ"":""JWT"",""alg"":""none""}" /\ has_names ht [lit "alg"; lit "typ"; lit "alg"] /\ ~ unique_names ht
    /\ pt = lit "{""sub"":""alice"",""sub"":""mallory""}" /\ has_names pt [lit "sub"; lit "sub"] /\ ~ unique_names pt.
Proof.
  set (h := lit "{""alg"":""HS256"",""typ"":""JWT"",""alg"":""none""}"). set (q := lit "{""sub"":""alice"",""sub"":""mallory""}").
  assert (W : exists r w' s, l8w8jwt_encode pe toy (Some ep_twice) we = Ret r w' /\ appended we w' /\ allocated we w' /\ er_rc r = L8W8JWT_SUCCESS
    /\ er_out r = Some (Ptr (Some 9%nat) (rfc4648_unpadded true h ++ lit "." ++ rfc4648_unpadded true q ++ lit "." ++ rfc4648_unpadded true s ++ [x00]))).
  { let x := eval vm_compute in (l8w8jwt_encode pe toy (Some ep_twice) we) in match x with Ret ?r ?w' => exists r, w' end.
    exists (lit "secreteyJhbGciOiJIUzI1NiIsInR5cC"). split; [vm_compute; reflexivity|]. split; [intros k _; reflexivity|]. split; [intros k _; reflexivity|].
    split; [reflexivity|]. vm_compute. reflexivity. }
  destruct W as (r & w' & s & E & Wa & Wb & Hrc & Ho).
  destruct (C100_unique_exactly pe toy ep_twice we r w' ltac:(vm_compute; discriminate) we_wf Wa Wb E Hrc twice_posed)
    as (id & ht & pt & c & hks & pks & Ho' & K1 & N1 & U1 & K2 & N2 & U2).
  exists ep_twice, r, w', id, ht, pt, c. split; [apply twice_posed|]. split; [exact E|]. split; [exact Hrc|]. split; [exact Ho'|].
  assert (H1 : hks = [lit "alg"]) by (eapply claim_names_fun; [exact K1|]; constructor; [apply given_zstr; reflexivity|constructor]).
  assert (H2 : pks = [lit "sub"]) by (eapply claim_names_fun; [exact K2|]; constructor; [apply given_zstr; reflexivity|constructor]).
  subst hks pks. rewrite Ho in Ho'. assert (E' : rfc4648_unpadded true h ++ lit "." ++ rfc4648_unpadded true q ++ lit "." ++ rfc4648_unpadded true s ++ [x00]
    = rfc4648_unpadded true ht ++ lit "." ++ rfc4648_unpadded true pt ++ lit "." ++ c ++ [x00]) by congruence.
  destruct (unpadded_clean h) as [C1 _]. destruct (unpadded_clean q) as [C2 _]. destruct (unpadded_clean ht) as [C3 _]. destruct (unpadded_clean pt) as [C4 _].
  destruct (at_dot _ _ _ _ C1 C3 E') as [E1 E2]. destruct (at_dot _ _ _ _ C2 C4 E2) as [E3 _].
  destruct N1 as (ms & O1 & F1). destruct N2 as (ms' & O2 & F2).
  apply unpadded_inj in E1; [|discriminate|eapply object_not_empty; exact O1]. apply unpadded_inj in E3; [|discriminate|eapply object_not_empty; exact O2].
  split; [symmetry; exact E1|]. split; [exists ms; split; [exact O1|exact F1]|]. split.
  { rewrite U1. intros [_ X]. inversion X as [|? ? Y _]. apply Y. left. reflexivity. }
  split; [symmetry; exact E3|]. split; [exists ms'; split; [exact O2|exact F2]|].
  rewrite U2. intros [_ X]. inversion X as [|? ? Y _]. apply Y. left. reflexivity.
Qed.
Print Assumptions C100_unique_refuted.

(** A request with claims in header and payload whose names are unique. *)
Example C100_example :
  well_posed ep_sample /\ (exists r w', l8w8jwt_encode pe toy (Some ep_sample) we = Ret r w' /\ er_rc r = L8W8JWT_SUCCESS /\ appended we w' /\ allocated we w')
  /\ claim_names (header_claims ep_sample) [lit "kid"] /\ claim_names (payload_claims ep_sample) [lit "ctx"; lit "age"]
  /\ payload_names ep_sample = [lit "iat"; lit "exp"; lit "sub"; lit "iss"]
  /\ NoDup [lit "ctx"; lit "age"] /\ Forall (fun k => ~ In k (payload_names ep_sample)) [lit "ctx"; lit "age"]
  /\ Forall (fun k => ~ In k (header_names 0)) [lit "kid"].
Proof.
  split; [exact sample_well_posed|]. split.
  { let x := eval vm_compute in (l8w8jwt_encode pe toy (Some ep_sample) we) in match x with Ret ?r ?w' => exists r, w' end.
    split; [vm_compute; reflexivity|]. split; [reflexivity|]. split; intros k _; reflexivity. }
  split; [constructor; [apply given_cstr; reflexivity|constructor]|].
  split; [constructor; [apply given_zstr; reflexivity|constructor; [apply given_zstr; reflexivity|constructor]]|].
  split; [reflexivity|]. split; [repeat constructor; vm_compute; intuition discriminate|]. split; repeat constructor; vm_compute; intuition discriminate.
Qed.
