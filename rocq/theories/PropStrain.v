(** * Property C78: decoding when memory is short *)
From Verif Require Import Base BaseProofs HeapProofs Util UtilProofs Claim Base64 SpecB64
  Base64EncProofs Base64EncApi Base64DecProofs Base64Api Jsmn Env Encode Decode SpecJson SpecJwa ClaimProofs UnescapeProofs
  EncodeProofs SignProofs EncodeTotal SpecEnc JsonProofs PropEncode DecodeProofs DecodeInv JsmnProofs ParseProofs
  PropClaim ReadProofs ValidateProofs JsmnJson JsmnSize PropVerify PropValidate PropLeak PropJson DecodeTotal DecodeOk
  OverRead PropSafe PropRoundTrip PropOverRead CodeProofs Walk Exact PropExact Complete PropComplete LocalProofs Strain.
From Coq Require Import ZifyBool ZifyNat ZifyN.
Ltac Zify.zify_post_hook ::= Z.div_mod_to_equations.
Local Opaque L8W8JWT_MAX_KEY_SIZE.

Lemma short_code p e dp j rc : running_short p e dp j (Code rc) -> stored rc = Some NOT_VALID.
Proof.
  intros H. inversion H as [| |msg hj ht pj pt sg vf o C K R]; subst; [reflexivity|]. inversion R; subst. reflexivity.
Qed.

(** What a call comes to when its allocations and its appends are answered as [w] says, without any
    assumption about the answers: what decoding comes to (C75), or one of the outcomes of [decoding_short]
    (Strain.v); the latter only if an allocation or an append that the call made was refused. *)
Theorem C78_decode_under_strain :
  forall p e dp j cn ln w,
    wf w -> uses_jsmn e -> (32 <= p_size_bits p)%N ->
    c_text p dp j -> (Z.of_nat (length j) <= INT_MAX)%Z ->
    key_ok (dp_verification_key dp) (dp_verification_key_length dp) -> requests_readable e dp ->
    (cn = true -> ln = true) ->
    let call := l8w8jwt_decode p e (Some dp) true cn ln w in
    exists o, (decoding p e dp j o \/ decoding_short p e dp j o)
    /\ match o with
       | Harm u => call = Undef u
       | Code rc => rc <> 0%Z /\ exists w', call = Ret (DecRes rc (stored rc) None) w'
                      /\ (allocated w w' -> appended w w' -> decoding p e dp j o)
       | Result v es => exists id cs w', Forall2 holds cs es
           /\ call = Ret (DecRes 0 (Some v) (if cn then Some (CArr (Some id) cs, N.of_nat (length es)) else None)) w'
           /\ (allocated w w' -> appended w w' -> decoding p e dp j o)
       end.
Proof.
  intros p e dp j cn ln w Hwf Hj Hp Ht Hl Hk Hr Hc call.
  assert (Served : forall r w', call = Ret r w' -> allocated w w' -> appended w w' ->
    exists o, decoding p e dp j o
    /\ match o with
       | Harm u => False
       | Code rc => rc <> 0%Z /\ r = DecRes rc (stored rc) None
       | Result v es => exists id cs, Forall2 holds cs es
           /\ r = DecRes 0 (Some v) (if cn then Some (CArr (Some id) cs, N.of_nat (length es)) else None)
       end).
  { intros r w' H Al Ap. pose proof (local_unlimited _ _ _ _ (local_decode p e (Some dp) true cn ln) H Ap Al) as U.
    destruct (C75_decode_complete p e dp j cn ln (unlimited w) Hwf (unlimited_allocs w) (unlimited_grows w) Hj Hp Ht Hl Hk Hr Hc) as (o & O1 & _ & O2).
    exists o. split; [exact O1|]. rewrite U in O2. destruct o as [rc|v es|u].
    - destruct O2 as (R0 & w2 & E). split; [exact R0|congruence].
    - destruct O2 as (id & cs & w2 & F & E). exists id, cs. split; [exact F|congruence].
    - discriminate O2. }
  assert (Main : exists o, (decoding p e dp j o \/ decoding_short p e dp j o)
    /\ match o with
       | Harm u => call = Undef u
       | Code rc => rc <> 0%Z /\ exists w', call = Ret (DecRes rc (stored rc) None) w'
       | Result v es => exists id cs w', Forall2 holds cs es
           /\ call = Ret (DecRes 0 (Some v) (if cn then Some (CArr (Some id) cs, N.of_nat (length es)) else None)) w'
       end).
  { clear Served. assert (Ec : cn && negb ln = false) by (destruct cn; [rewrite Hc by reflexivity|]; reflexivity).
    pose proof (params_code p dp j Ht Hk) as Pc. unfold call.
    destruct j as [|c0 j0] eqn:Ej.
    { exists (Code 200). split; [left; apply De_empty; reflexivity|]. split; [discriminate|].
      cbn [length Nat.eqb] in Pc. unfold l8w8jwt_decode. rewrite Ec, Pc. eexists. reflexivity. }
    rewrite <- Ej in *. assert (Nj : j <> []) by (rewrite Ej; discriminate). assert (El : Nat.eqb (length j) 0 = false) by (rewrite Ej; reflexivity).
    clear Ej c0 j0. rewrite El in Pc.
    destruct ((dp_alg dp =? 13)%Z && negb (p_eddsa p)) eqn:Eu.
    { assert (Ea : dp_alg dp = 13%Z) by lia. assert (Ep : p_eddsa p = false) by (destruct (p_eddsa p); [lia|reflexivity]).
      exists (Code 800). split; [left; apply De_unbuilt; auto|].
      split; [discriminate|]. unfold l8w8jwt_decode. rewrite Ec, Pc. eexists. reflexivity. }
    assert (Nu : ~ (dp_alg dp = 13%Z /\ p_eddsa p = false)) by (intros [C1 C2]; rewrite C1, C2 in Eu; discriminate Eu).
    destruct (w_alloc w (w_next w)) eqn:Ea.
    2:{ destruct (p_cb_init_clears p) eqn:Ei; [exists (Code 300)|exists (Harm UninitUse)]; (split; [right; constructor; auto|]);
        [split; [discriminate|]|]; unfold l8w8jwt_decode; rewrite Ec, Pc; change (negb (0 =? L8W8JWT_SUCCESS)%Z) with false; cbn [negb]; cbv iota;
        unfold mbind at 1; rewrite cb_init_eq, Ea; cbn [free_claims_buffer]; rewrite Ei; [eexists|]; reflexivity. }
    destruct (strain_body p e dp j (w_next w) (w_ok w)) as (o & O1 & O3); auto using wf_ok.
    exists o. split; [destruct O1; [left; apply De_run; auto|right; apply Ds_run; auto]|].
    destruct o as [rc|v es|u].
    - destruct O3 as (R0 & st & w1 & E1 & E2 & _). split; [exact R0|].
      destruct (decode_finish p e dp cn ln w st w1 Hwf Ec Pc Ea E1) as (w' & E). exists w'. rewrite E, E2.
      apply Z.eqb_neq in R0. change L8W8JWT_SUCCESS with 0%Z. rewrite R0. cbn [andb].
      replace (stored rc) with (Some NOT_VALID) by (symmetry; destruct O1; [eapply running_code; eauto|eapply short_code; eauto]). reflexivity.
    - destruct O3 as (st & w1 & E1 & E2 & E3 & E4 & _).
      destruct (decode_finish p e dp cn ln w st w1 Hwf Ec Pc Ea E1) as (w' & E).
      exists (cb_id (ds_claims st)), (cb_elems (ds_claims st)), w'. split; [exact E4|]. rewrite E, E2, E3. change (0 =? L8W8JWT_SUCCESS)%Z with true. cbv iota.
      unfold cb_len. assert (Len : length (cb_elems (ds_claims st)) = length es) by (clear - E4; induction E4; cbn; congruence). rewrite Len. do 2 f_equal. destruct cn; [rewrite Hc by reflexivity|]; reflexivity.
    - unfold l8w8jwt_decode. rewrite Ec, Pc. change (negb (0 =? L8W8JWT_SUCCESS)%Z) with false. cbn [negb]. cbv iota.
      unfold mbind at 1. rewrite cb_init_eq, Ea. unfold mbind at 1. rewrite O3. reflexivity. }
  assert (Sat : forall r w', call = Ret r w' ->
    (allocated w w' /\ appended w w') \/ ~ (allocated w w' /\ appended w w')).
  { intros r w' _. destruct (range_dec (w_alloc w) (w_next w) (w_next w')) as [D|(k & D1 & D2)];
      [|right; intros [C _]; specialize (C k D1); congruence].
    destruct (appended_dec w w') as [D'|(k & D1 & D2)]; [left; split; assumption|right; intros [_ C]; specialize (C k D1); congruence]. }
  assert (Fin : forall r w', call = Ret r w' -> allocated w w' /\ appended w w' ->
    exists o, (decoding p e dp j o \/ decoding_short p e dp j o)
    /\ match o with
       | Harm u => call = Undef u
       | Code rc => rc <> 0%Z /\ exists w', call = Ret (DecRes rc (stored rc) None) w'
                      /\ (allocated w w' -> appended w w' -> decoding p e dp j o)
       | Result v es => exists id cs w', Forall2 holds cs es
           /\ call = Ret (DecRes 0 (Some v) (if cn then Some (CArr (Some id) cs, N.of_nat (length es)) else None)) w'
           /\ (allocated w w' -> appended w w' -> decoding p e dp j o)
       end).
  { intros r w' H [S1 S2]. destruct (Served r w' H S1 S2) as (o & O1 & O2). exists o. split; [left; exact O1|].
    destruct o as [rc|v es|u]; [|destruct O2 as (id & cs & F & ->)|contradiction].
    - destruct O2 as (R0 & ->). split; [exact R0|]. exists w'. auto.
    - exists id, cs, w'. auto. }
  destruct Main as (o & O1 & O2). destruct o as [rc|v es|u].
  - destruct O2 as (R0 & w' & E). destruct (Sat _ _ E) as [S|S]; [eapply Fin; eauto|].
    exists (Code rc). split; [exact O1|]. split; [exact R0|]. exists w'. split; [exact E|]. intros S1 S2. destruct S. auto.
  - destruct O2 as (id & cs & w' & F & E). destruct (Sat _ _ E) as [S|S]; [eapply Fin; eauto|].
    exists (Result v es). split; [exact O1|]. exists id, cs, w'. split; [exact F|]. split; [exact E|]. intros S1 S2. destruct S. auto.
  - exists (Harm u). auto.
Qed.
Print Assumptions C78_decode_under_strain.

(** The same of l8w8jwt_decode_raw; what is handed out of the parts if one of them could not be decoded for
    want of memory is left open. *)
Theorem C78_decode_raw_under_strain :
  forall p e dp j hn hl pn pl sn sl w,
    wf w -> uses_jsmn e -> (32 <= p_size_bits p)%N ->
    c_text p dp j -> (Z.of_nat (length j) <= INT_MAX)%Z ->
    key_ok (dp_verification_key dp) (dp_verification_key_length dp) -> requests_readable e dp ->
    (hn = true -> hl = true) -> (pn = true -> pl = true) -> (sn = true -> sl = true) ->
    let call := l8w8jwt_decode_raw p e (Some dp) true hn hl pn pl sn sl w in
    exists o, (decoding p e dp j o \/ decoding_short p e dp j o)
    /\ match o with
       | Harm u => call = Undef u
       | Code rc => rc <> 0%Z /\ exists r w', call = Ret r w' /\ rr_rc r = rc /\ rr_valid r = stored rc
                      /\ (rc = 300%Z \/ if (stored rc : option N) then given_parts dp j hn pn sn r else r = RawRes rc None None None None)
       | Result v es => exists r w', call = Ret r w' /\ rr_rc r = 0%Z /\ rr_valid r = Some v /\ given_parts dp j hn pn sn r
       end.
Proof.
  intros p e dp j hn hl pn pl sn sl w Hwf Hj Hp Ht Hl Hk Hr Hh Hpn Hsn call.
  assert (Ec : negb true || (hn && negb hl) || (pn && negb pl) || (sn && negb sl) = false).
  { destruct hn; [rewrite Hh by reflexivity|]; destruct pn; try (rewrite Hpn by reflexivity); destruct sn; try (rewrite Hsn by reflexivity); reflexivity. }
  pose proof (params_code p dp j Ht Hk) as Pc. unfold call.
  destruct j as [|c0 j0] eqn:Ej.
  { exists (Code 200). split; [left; apply De_empty; reflexivity|]. split; [discriminate|].
    cbn [length Nat.eqb] in Pc. unfold l8w8jwt_decode_raw. rewrite Ec, Pc. do 2 eexists. do 3 (split; [reflexivity|]). right. exact eq_refl. }
  rewrite <- Ej in *. assert (Nj : j <> []) by (rewrite Ej; discriminate). assert (El : Nat.eqb (length j) 0 = false) by (rewrite Ej; reflexivity).
  clear Ej c0 j0. rewrite El in Pc.
  destruct ((dp_alg dp =? 13)%Z && negb (p_eddsa p)) eqn:Eu.
  { assert (Ea : dp_alg dp = 13%Z) by lia. assert (Ep : p_eddsa p = false) by (destruct (p_eddsa p); [lia|reflexivity]).
    exists (Code 800). split; [left; apply De_unbuilt; auto|].
    split; [discriminate|]. unfold l8w8jwt_decode_raw. rewrite Ec, Pc. do 2 eexists. do 3 (split; [reflexivity|]). right. exact eq_refl. }
  assert (Nu : ~ (dp_alg dp = 13%Z /\ p_eddsa p = false)) by (intros [C1 C2]; rewrite C1, C2 in Eu; discriminate Eu).
  destruct (w_alloc w (w_next w)) eqn:Ea.
  2:{ assert (G : forall nn w0, give_or_free nn seg0 w0 = Ret (if nn then Some seg0 else None) w0) by (intros [] w0; reflexivity).
      destruct (p_cb_init_clears p) eqn:Ei; [exists (Code 300)|exists (Harm UninitUse)]; (split; [right; constructor; auto|]);
        [split; [discriminate|]|]; unfold l8w8jwt_decode_raw; rewrite Ec, Pc; change (negb (0 =? L8W8JWT_SUCCESS)%Z) with false; cbv iota;
        unfold mbind at 1; rewrite cb_init_eq, Ea; unfold mbind at 1; unfold mret at 1; cbn [sg_header sg_payload sg_signature];
        unfold mbind at 1; rewrite G; unfold mbind at 1; rewrite G; unfold mbind at 1; rewrite G; cbn [free_claims_buffer]; rewrite Ei; [|reflexivity].
      do 2 eexists. split; [reflexivity|]. auto. }
  destruct (strain_body p e dp j (w_next w) (w_ok w)) as (o & O1 & O3); auto using wf_ok.
  exists o. split; [destruct O1; [left; apply De_run; auto|right; apply Ds_run; auto]|].
  assert (Gp : forall st rc v, the_parts dp j (ds_segs st) -> given_parts dp j hn pn sn
    (RawRes rc v (if hn then Some (sg_header (ds_segs st)) else None) (if pn then Some (sg_payload (ds_segs st)) else None)
             (if sn then Some (sg_signature (ds_segs st)) else None))).
  { intros st rc v T msg hj ht pj pt sg C. destruct (T _ _ _ _ _ _ C) as (T1 & T2 & T3). cbn [rr_header rr_payload rr_signature]. unfold given_part.
    split; [destruct hn; eauto|]. split; [destruct pn; eauto|]. destruct sg as [[sig st']|]; [|rewrite T3; reflexivity]. destruct sn; eauto. }
  destruct o as [rc|v es|u].
  - destruct O3 as (R0 & st & w1 & E1 & E2 & E3). split; [exact R0|].
    destruct (decode_raw_of p e dp hn hl pn pl sn sl w st w1 Hwf Ea Hh Hpn Hsn Pc E1) as (w' & E). do 2 eexists. split; [exact E|].
    cbn [rr_rc rr_valid]. rewrite E2. split; [reflexivity|]. apply Z.eqb_neq in R0. change L8W8JWT_SUCCESS with 0%Z. rewrite R0.
    replace (stored rc) with (Some NOT_VALID) by (symmetry; destruct O1; [eapply running_code; eauto|eapply short_code; eauto]). split; [reflexivity|].
    destruct E3 as [E3|E3]; [left; congruence|right; auto].
  - destruct O3 as (st & w1 & E1 & E2 & E3 & E4 & [E5|E5]); [discriminate E5|].
    destruct (decode_raw_of p e dp hn hl pn pl sn sl w st w1 Hwf Ea Hh Hpn Hsn Pc E1) as (w' & E). do 2 eexists. split; [exact E|].
    cbn [rr_rc rr_valid]. rewrite E2, E3. auto.
  - unfold l8w8jwt_decode_raw. rewrite Ec, Pc. change (negb (0 =? L8W8JWT_SUCCESS)%Z) with false. cbv iota.
    unfold mbind at 1. rewrite cb_init_eq, Ea, decode_raw_body_eq. unfold mbind at 1. unfold mbind at 1. rewrite O3. reflexivity.
Qed.
Print Assumptions C78_decode_raw_under_strain.

(** ** Validity *)
(** At most one claim has a name that starts with [name]. *)
Definition at_most_one (name : bytes) (kvs : list (bytes * bytes)) : Prop :=
  forall a k v b k' v', kvs = a ++ (k, v) :: b -> prefixb name k = true -> In (k', v') b -> prefixb name k' = false.
(** The names of the claims that validation is asked to look at. *)
Inductive asked_for (dp : dec_params) : bytes -> Prop :=
| Ask_identity bit name q n : In (bit, name, q, n) (identity_checks dp) -> q <> Null -> asked_for dp name
| Ask_time c : time_requested dp c = true -> asked_for dp (time_name c)
| Ask_typ : dp_validate_typ dp <> Null -> asked_for dp (lit "typ").
Definition unambiguous (dp : dec_params) (kvs : list (bytes * bytes)) : Prop :=
  forall name, asked_for dp name -> at_most_one name kvs.
(** The same of a token: of the claims that are read from it. *)
Definition unambiguous_token (e : env) (dp : dec_params) (j : bytes) : Prop :=
  forall msg hj ht pj pt sg eh ep, cut dp j (Parts msg hj ht pj pt sg) -> has_fate e hj ht (Read eh) -> has_fate e pj pt (Read ep) ->
  unambiguous dp (map kv_of (eh ++ ep)).

Lemma lookup_sub name (es full : list entry) x : subseq es full -> at_most_one name (map kv_of full) ->
  lookup_prefix name (map kv_of es) = Some x -> lookup_prefix name (map kv_of full) = Some x.
Proof.
  unfold lookup_prefix. intros Hs. induction Hs as [|y a b Hs IH|y a b Hs IH]; intros Ho H; [exact H| |].
  - cbn [map value_of] in *. destruct (kv_of y) as [k v]. destruct (prefixb name k); [exact H|]. apply IH; [|exact H].
    intros a0 k0 v0 b0 k' v' E. apply (Ho ((k, v) :: a0) k0 v0). cbn [app]. rewrite E. reflexivity.
  - assert (IH' : value_of (fun k => prefixb name k) (map kv_of b) = Some x).
    { apply IH; [|exact H]. intros a0 k0 v0 b0 k' v' E. apply (Ho (kv_of y :: a0) k0 v0). cbn [map app]. rewrite E. reflexivity. }
    cbn [map value_of]. destruct (kv_of y) as [k v] eqn:Ey. destruct (prefixb name k) eqn:Ek; [|exact IH']. exfalso.
    assert (Q : exists k' v', In (k', v') (map kv_of b) /\ prefixb name k' = true).
    { clear - IH'. induction (map kv_of b) as [|[k' v'] l IHl]; [discriminate|]. cbn [value_of] in IH'.
      destruct (prefixb name k') eqn:E; [exists k', v'; split; [left; reflexivity|exact E]|].
      destruct (IHl IH') as (k2 & v2 & I2 & E2). exists k2, v2. split; [right; exact I2|exact E2]. }
    destruct Q as (k' & v' & I' & E'). specialize (Ho [] k v (map kv_of b) k' v'). cbn [map app] in Ho. rewrite Ey in Ho.
    specialize (Ho eq_refl Ek I'). congruence.
Qed.
Lemma failed_sub e dp vf (es full : list entry) bit : subseq es full -> unambiguous dp (map kv_of full) ->
  failed e dp vf (map kv_of full) bit -> failed e dp vf (map kv_of es) bit.
Proof.
  intros Hs Hu H. assert (L : forall name x, asked_for dp name -> lookup_prefix name (map kv_of es) = Some x -> lookup_prefix name (map kv_of full) = Some x).
  { intros name x A E. eapply lookup_sub; eauto. }
  destruct H as [K|bit name q n s Hin K1 K2|c K1 K2|c t z K1 K2 K3 K4|b0 x r K1 K2 K3].
  - apply F_signature. exact K.
  - eapply F_identity; [exact Hin|exact K1|]. intros C. apply K2. apply L; [|exact C]. eapply Ask_identity; [exact Hin|].
    intros ->. exact K1.
  - apply F_no_time; [exact K1|]. destruct (lookup_prefix (time_name c) (map kv_of es)) eqn:E; [|reflexivity].
    apply L in E; [congruence|]. constructor. exact K1.
  - destruct (lookup_prefix (time_name c) (map kv_of es)) eqn:E; [|apply F_no_time; assumption].
    pose proof E as E'. apply L in E; [|constructor; exact K1]. eapply F_time; [exact K1|exact E'| |exact K4]. congruence.
  - eapply F_typ; [exact K1|exact K2|]. intros t Et. apply K3. apply L; [|exact Et]. constructor. rewrite K1. discriminate.
Qed.

Lemma fate_fun e js post f f' : uses_jsmn e -> (Z.of_nat (length js) <= INT_MAX)%Z -> (5 <= length post)%nat ->
  has_fate e js post f -> has_fate e js post f' -> f = f'.
Proof.
  intros Hj Hl Hp H H'. destruct (parse_claims_fate pe e (CB 0 []) None js post we Hj ltac:(vm_compute; discriminate) Hl Hp we_wf) as (g & _ & U & _).
  rewrite (U _ H), (U _ H'). reflexivity.
Qed.
Lemma cut_lengths dp j msg hj ht pj pt sg : (Z.of_nat (length j) <= INT_MAX)%Z -> cut dp j (Parts msg hj ht pj pt sg) ->
  (Z.of_nat (length hj) <= INT_MAX)%Z /\ (Z.of_nat (length pj) <= INT_MAX)%Z /\ (5 <= length ht)%nat /\ (5 <= length pt)%nat.
Proof.
  assert (G : forall h pl r, j = h ++ lit "." ++ pl ++ r -> (Z.of_nat (length j) <= INT_MAX)%Z -> url_decodes h hj ht -> url_decodes pl pj pt ->
    (Z.of_nat (length hj) <= INT_MAX)%Z /\ (Z.of_nat (length pj) <= INT_MAX)%Z /\ (5 <= length ht)%nat /\ (5 <= length pt)%nat).
  { intros h pl r E Hl D1 D2. apply url_b64_decodes in D1, D2. destruct (parts_short _ _ _ _ E Hl _ _ _ _ D1 D2).
    apply b64_decodes_tail in D1, D2. lia. }
  intros Hl C. inversion C as [| | |h pl hj' ht' pj' pt' P2 A D1 D2| |h pl s hj' ht' pj' pt' sig st P3 D1 D2 D3]; subst.
  - eapply (G h pl []); eauto. rewrite app_nil_r. apply P2.
  - eapply (G h pl (lit "." ++ s)); eauto. apply P3.
Qed.

(** Whatever is short: if a call says that the token is valid, so does the same call with all the memory it wants
    - provided the token has no two claims whose names both start with the name of a claim that is validated. In
    general, no failed check is hidden, and no claim is made up. *)
Theorem C78_no_failure_hidden :
  forall p e dp j cn ln w r w' wu,
    wf w -> uses_jsmn e -> (32 <= p_size_bits p)%N ->
    c_text p dp j -> (Z.of_nat (length j) <= INT_MAX)%Z ->
    key_ok (dp_verification_key dp) (dp_verification_key_length dp) -> requests_readable e dp ->
    (cn = true -> ln = true) -> unambiguous_token e dp j ->
    l8w8jwt_decode p e (Some dp) true cn ln w = Ret r w' -> dr_rc r = L8W8JWT_SUCCESS ->
    wf wu -> allocs wu -> grows wu ->
    l8w8jwt_decode p e (Some dp) true cn ln wu = Undef BadCtype
    \/ exists ru wu', l8w8jwt_decode p e (Some dp) true cn ln wu = Ret ru wu' /\ dr_rc ru = L8W8JWT_SUCCESS
       /\ forall v vu, dr_valid r = Some v -> dr_valid ru = Some vu -> forall bit, N.testbit vu bit = true -> N.testbit v bit = true.
Proof.
  intros p e dp j cn ln w r w' wu Hwf Hj Hp Ht Hl Hk Hr Hc Hu H H0 Wu Au Gu.
  destruct (C78_decode_under_strain p e dp j cn ln w Hwf Hj Hp Ht Hl Hk Hr Hc) as (o & O1 & O2).
  rewrite H in O2. destruct o as [rc|v es|u].
  { destruct O2 as (R0 & w2 & E & _). injection E as -> _. cbn [dr_rc] in H0. contradiction. }
  2: discriminate O2.
  destruct O2 as (id & cs & w2 & F & E & _). injection E as -> _.
  destruct (C75_decode_complete p e dp j cn ln wu Wu Au Gu Hj Hp Ht Hl Hk Hr Hc) as (o & D1 & D2 & D3).
  destruct O1 as [O1|O1].
  { specialize (D2 _ O1). subst o. destruct D3 as (id' & cs' & wu' & F' & E'). right. do 2 eexists. split; [exact E'|].
    split; [reflexivity|]. cbn [dr_valid]. intros v1 vu E1 E2. replace v1 with vu by congruence. auto. }
  inversion O1 as [| |o' Nj Nu R]; subst. inversion R as [| |msg hj ht pj pt sg vf o' C K Rd]; subst.
  inversion Rd as [| |eh ep es' v' F1 F2 Q Nt V]; subst.
  pose proof (Hu _ _ _ _ _ _ _ _ C F1 F2) as Un. destruct (cut_lengths _ _ _ _ _ _ _ _ Hl C) as (L1 & L2 & L3 & L4).
  assert (U1 : forall f, has_fate e hj ht f -> f = Read eh) by (intros f X; exact (fate_fun _ _ _ _ _ Hj L1 L3 X F1)).
  assert (U2 : forall f, has_fate e pj pt f -> f = Read ep) by (intros f X; exact (fate_fun _ _ _ _ _ Hj L2 L4 X F2)).
  assert (De : o = Harm BadCtype \/ exists vu, o = Result vu (eh ++ ep) /\ flags_are e dp vf (map kv_of (eh ++ ep)) vu).
  { destruct D1 as [X|_ X1 X2|o _ _ D1]; [contradiction|destruct Nu; auto|].
    destruct D1 as [rc' X|msg' hj' ht' pj' pt' sg' rc' X Y|msg' hj' ht' pj' pt' sg' u X Y|msg' hj' ht' pj' pt' sg' vf' o X Y Z];
      pose proof (cut_fun _ _ _ _ X C) as Q1; try discriminate Q1; injection Q1 as -> -> -> -> -> ->;
      pose proof (check_fun _ _ _ _ _ _ _ Y K) as Q1; try discriminate Q1. injection Q1 as ->.
    destruct Z as [X'|X'|eh' X1 X'|eh' X1 X'|eh' ep' X1 X2 X'|eh' ep' vu X1 X2 X' V'];
      try (apply U1 in X'; discriminate X'); try (apply U2 in X'; discriminate X'); [left; reflexivity|right].
    apply U1 in X1. apply U2 in X2. injection X1 as ->. injection X2 as ->. eauto. }
  destruct De as [->|(vu & -> & Vu)]; [left; exact D3|right].
  destruct D3 as (id' & cs' & wu' & F' & E'). do 2 eexists. split; [exact E'|]. split; [reflexivity|]. cbn [dr_valid].
  intros v1 vu1 E1 E2 bit B. injection E1 as <-. injection E2 as <-. apply V. eapply failed_sub; [exact Q|exact Un|]. apply Vu. exact B.
Qed.
Print Assumptions C78_no_failure_hidden.

(** In particular for the verdict that everything is in order: then the undefined behaviour is excluded too. *)
Theorem C78_never_made_valid :
  forall p e dp j cn ln w cl w' wu,
    wf w -> uses_jsmn e -> (32 <= p_size_bits p)%N ->
    c_text p dp j -> (Z.of_nat (length j) <= INT_MAX)%Z ->
    key_ok (dp_verification_key dp) (dp_verification_key_length dp) -> requests_readable e dp ->
    (cn = true -> ln = true) -> unambiguous_token e dp j ->
    l8w8jwt_decode p e (Some dp) true cn ln w = Ret (DecRes 0 (Some 0%N) cl) w' ->
    wf wu -> allocs wu -> grows wu ->
    exists clu wu', l8w8jwt_decode p e (Some dp) true cn ln wu = Ret (DecRes 0 (Some 0%N) clu) wu'.
Proof.
  intros p e dp j cn ln w cl w' wu Hwf Hj Hp Ht Hl Hk Hr Hc Hu H Wu Au Gu.
  destruct (C75_decode_complete p e dp j cn ln wu Wu Au Gu Hj Hp Ht Hl Hk Hr Hc) as (o & D1 & D2 & D3).
  assert (Dr : exists es, decoding p e dp j (Result 0 es)).
  { destruct (C78_decode_under_strain p e dp j cn ln w Hwf Hj Hp Ht Hl Hk Hr Hc) as (o' & O1 & O2).
    rewrite H in O2. destruct o' as [rc|v es|u].
    { destruct O2 as (R0 & w2 & E & _). injection E as E _ _ _. congruence. }
    2: discriminate O2.
    destruct O2 as (id & cs & w2 & F & E & _). injection E as <- _ _. destruct O1 as [O1|O1]; [eauto|].
    inversion O1 as [| |o' Nj Nu R]; subst. inversion R as [| |msg hj ht pj pt sg vf o' C K Rd]; subst.
    inversion Rd as [| |eh ep es' v' F1 F2 Q Nt V]; subst. pose proof (Hu _ _ _ _ _ _ _ _ C F1 F2) as Un.
    exists (eh ++ ep). apply De_run; auto. eapply Rn_goes; eauto. eapply Rd_result; eauto.
    - intros (b & x & rr & t & T1 & T2 & T3 & T4).
      destruct (lookup_prefix (lit "typ") (map kv_of es)) as [t'|] eqn:Et.
      + apply Nt. pose proof Et as Et'. eapply lookup_sub in Et; [|exact Q|apply Un; constructor; rewrite T1; discriminate].
        unfold lookup_prefix in Et. change (fun k => prefixb (lit "typ") k) with (prefixb (lit "typ")) in Et.
        exists b, x, rr, t. split; [exact T1|]. split; [exact T2|]. split; [|exact T4]. rewrite T3 in Et. injection Et as ->. exact Et'.
      + assert (B : N.testbit 0 8 = true) by (apply V; eapply F_typ; eauto; intros t' Et'; congruence). discriminate B.
    - intros bit. rewrite N.bits_0. split; [discriminate|]. intros B. assert (B' : N.testbit 0 bit = true) by (apply V; eapply failed_sub; eauto).
      rewrite N.bits_0 in B'. exact B'. }
  destruct Dr as (es & Dr). apply D2 in Dr. subst o. destruct D3 as (id & cs & wu' & F & E). eauto.
Qed.
Print Assumptions C78_never_made_valid.

(** ** Examples, and that the names must be unambiguous *)
(** The [n]-th append is refused; the [n]-th allocation is refused. *)
Definition no_append (n : nat) : world := World ever (fun k => negb (Nat.eqb k n)) (fun _ _ => xff) 1 0 (fun _ => false).
Definition no_alloc (n : nat) : world := World (fun k => negb (Nat.eqb k n)) ever (fun _ _ => xff) 1 0 (fun _ => false).

Lemma valid_of_verdict m rc v : (exists n, verdict_of m = Some (rc, Some v, n)) -> exists cl w', m = Ret (DecRes rc (Some v) cl) w'.
Proof. intros (n & E). destruct m as [[rc' v' cl] w'|]; [|discriminate]. cbn in E. injection E as -> -> _. eauto. Qed.

(** A token for somebody else that, further down, is for me: it is refused, unless the list of claims could not be
    extended at the right moment. Then the token is said to be valid, and no error is reported. *)
Definition twice_text : bytes := signed plain_header "{""sub"":""you"",""sub"":""me""}".
Theorem C78_made_valid_refuted :
  exists p e dp j w wu, wf w /\ uses_jsmn e /\ (32 <= p_size_bits p)%N /\ c_text p dp j /\ (Z.of_nat (length j) <= INT_MAX)%Z
    /\ key_ok (dp_verification_key dp) (dp_verification_key_length dp) /\ requests_readable e dp /\ wf wu /\ allocs wu /\ grows wu
    /\ (exists cl w', l8w8jwt_decode p e (Some dp) true true true w = Ret (DecRes 0 (Some 0%N) cl) w')
    /\ (exists cl w', l8w8jwt_decode p e (Some dp) true true true wu = Ret (DecRes 0 (Some 2%N) cl) w').
Proof.
  assert (S : sample_ok toy_num (sample_params twice_text 0 (zstr "me") false) twice_text) by sampled.
  destruct S as (S1 & S2 & S3 & S4 & S5 & S6 & S7 & S8 & S9).
  exists pe, toy_num, (sample_params twice_text 0 (zstr "me") false), twice_text, (no_append 2), we.
  split; [intros i _; reflexivity|]. do 9 (split; [assumption|]). split; apply valid_of_verdict; vm_compute; eexists; reflexivity.
Qed.
Print Assumptions C78_made_valid_refuted.

(** A token that can be read in one way only, under various kinds of strain. *)
Definition once_text : bytes := lit "e30." ++ rfc4648_unpadded true (lit "{""sub"":""me""}").
Example C78_example :
  let dp := sample_params once_text (-1) (zstr "me") false in
  sample_ok toy_num dp once_text /\ unambiguous_token toy_num dp once_text /\ asked_for dp (lit "sub")
  /\ wf (no_append 0) /\ wf (no_alloc 1)
  /\ verdict_of (l8w8jwt_decode pe toy_num (Some dp) true true true we) = Some (0%Z, Some 0%N, Some 1%N)
  (* the claim is lost, and missed *)
  /\ verdict_of (l8w8jwt_decode pe toy_num (Some dp) true true true (no_append 0)) = Some (0%Z, Some 2%N, Some 0%N)
  (* the list, a part, a name, a value cannot be allocated *)
  /\ map (fun n => verdict_of (l8w8jwt_decode pe toy_num (Some dp) true true true (no_alloc n))) [1; 2; 3; 4; 5; 6]%nat
     = [Some (300%Z, Some NOT_VALID, None); Some (300%Z, Some NOT_VALID, None); Some (300%Z, Some NOT_VALID, None);
        Some (600%Z, Some NOT_VALID, None); Some (600%Z, Some NOT_VALID, None); Some (0%Z, Some 0%N, Some 1%N)]
  (* builds with the key on the heap: undefined behaviour *)
  /\ l8w8jwt_decode pe_small toy_num (Some (sample_params twice_text 0 (zstr "me") false)) true true true (no_alloc 5) = Undef NullDeref
  /\ decoding_short pe toy_num dp once_text (Result 2 []).
Proof.
  intros dp.
  assert (C : cut dp once_text (Parts once_text (lit "{}") (repeat x00 14) (lit "{""sub"":""me""}") (repeat x00 16) None)).
  { change once_text with (lit "e30" ++ lit "." ++ rfc4648_unpadded true (lit "{""sub"":""me""}")) at 2. apply Cut_two.
    - split; [reflexivity|]. split; vm_compute; intuition discriminate.
    - reflexivity.
    - apply b64_decodes_url. split; [discriminate|]. split; [reflexivity|]. eexists. split; [vm_compute; reflexivity|reflexivity].
    - apply b64_decodes_url. split; [discriminate|]. split; [reflexivity|]. eexists. split; [vm_compute; reflexivity|reflexivity]. }
  assert (F1 : has_fate toy_num (lit "{}") (repeat x00 14) (Read [])).
  { eapply HF_walk with (r := 1%Z); [lia|vm_compute; reflexivity|vm_compute; reflexivity|reflexivity|apply W_done|apply EF_done]. }
  assert (F2 : has_fate toy_num (lit "{""sub"":""me""}") (repeat x00 16) (Read [(0%Z, lit "sub", lit "me")])).
  { eapply HF_walk with (r := 3%Z); [lia|vm_compute; reflexivity|vm_compute; reflexivity|reflexivity| |].
    - apply W_flat; [reflexivity|intros [X|X]; discriminate X|apply K_string; reflexivity|apply W_done].
    - apply EF_done. }
  split; [unfold dp; sampled|]. split.
  { assert (G1 : forall f, has_fate toy_num (lit "{}") (repeat x00 14) f -> f = Read []).
    { intros f F. refine (fate_fun toy_num (lit "{}") (repeat x00 14) f (Read []) (fun js cap => eq_refl) _ _ F F1); cbn; [discriminate|lia]. }
    assert (G2 : forall f, has_fate toy_num (lit "{""sub"":""me""}") (repeat x00 16) f -> f = Read [(0%Z, lit "sub", lit "me")]).
    { intros f F. refine (fate_fun toy_num (lit "{""sub"":""me""}") (repeat x00 16) f _ (fun js cap => eq_refl) _ _ F F2); cbn; [discriminate|lia]. }
    intros msg hj ht pj pt sg eh ep C' F1' F2'. pose proof (cut_fun _ _ _ _ C' C) as X.
    assert (hj = lit "{}" /\ ht = repeat x00 14 /\ pj = lit "{""sub"":""me""}" /\ pt = repeat x00 16) as (-> & -> & -> & ->).
    { inversion X. auto. }
    apply G1 in F1'. apply G2 in F2'. injection F1' as ->. injection F2' as ->. intros name _ a k v b k' v' E _ I.
    destruct a as [|x a]; [cbn in E; injection E as _ _ <-; destruct I|]. cbn in E. injection E as _ E. destruct a; discriminate E. }
  split; [eapply Ask_identity; [left; reflexivity|discriminate]|].
  split; [intros i _; reflexivity|]. split; [intros i _; reflexivity|].
  split; [vm_compute; reflexivity|]. split; [vm_compute; reflexivity|]. split; [vm_compute; reflexivity|]. split; [vm_compute; reflexivity|].
  apply Ds_run; [discriminate|intros [X _]; discriminate X|]. eapply Us_goes; [exact C|apply Ck_none; reflexivity|].
  eapply Rs_result; [exact F1|exact F2|repeat constructor| |].
  - intros (b & x & r & v & _ & _ & X & _). discriminate X.
  - intros bit. split.
    + intros B. assert (bit = 1%N) as ->.
      { destruct (N.eq_dec bit 1) as [->|N]; [reflexivity|]. change 2%N with (2 ^ 1)%N in B. rewrite N.pow2_bits_false in B by congruence. discriminate. }
      eapply F_identity with (s := lit "me"); [left; reflexivity| |discriminate]. exists []. split; [reflexivity|]. apply no_nul_b. reflexivity.
    + intros [X|bit' name q n s Hin K1 K2|c K1 K2|c t z K1 K2 K3 K4|b0 x r K1 K2 K3]; try discriminate.
      * cbn in Hin. destruct Hin as [E|[E|[E|[E|[]]]]]; injection E as <- <- <- <-; [reflexivity|destruct K1|destruct K1|destruct K1].
      * destruct c; discriminate K1.
Qed.
