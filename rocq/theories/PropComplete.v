(** * Property C75: what decoding does, for every token *)
From Verif Require Import Base BaseProofs HeapProofs Util UtilProofs Claim Base64 SpecB64
  Base64EncProofs Base64EncApi Base64DecProofs Base64Api Jsmn Env Encode Decode SpecJson SpecJwa ClaimProofs UnescapeProofs
  EncodeProofs SignProofs EncodeTotal SpecEnc JsonProofs PropEncode DecodeProofs DecodeInv JsmnProofs ParseProofs
  PropClaim ReadProofs ValidateProofs JsmnJson JsmnSize PropVerify PropValidate PropLeak PropJson DecodeTotal DecodeOk
  OverRead PropSafe PropRoundTrip PropOverRead CodeProofs Walk Exact PropExact Complete.
From Coq Require Import ZifyBool ZifyNat ZifyN.
Ltac Zify.zify_post_hook ::= Z.div_mod_to_equations.
Local Opaque L8W8JWT_MAX_KEY_SIZE.

(** ** l8w8jwt_decode *)
(** The validation result stored with an error code: none if the parameters are turned down. *)
Definition stored (rc : Z) : option N := if (rc =? 200)%Z || (rc =? 800)%Z then None else Some NOT_VALID.

Lemma params_code p dp j : c_text p dp j -> key_ok (dp_verification_key dp) (dp_verification_key_length dp) ->
  l8w8jwt_validate_decoding_params p (Some dp)
  = (if Nat.eqb (length j) 0 then 200 else if (dp_alg dp =? 13)%Z && negb (p_eddsa p) then 800 else 0)%Z.
Proof.
  intros ((b & rest & Ej) & _ & Hn & _) (Hk & k & (kb & km & Ek & _) & _). unfold l8w8jwt_validate_decoding_params.
  rewrite Ej, Ek, Hn. cbn [is_null orb]. change L8W8JWT_MAX_KEY_SIZE with 8192%N.
  replace (dp_verification_key_length dp =? 0)%N with false by lia. replace (8192 <? dp_verification_key_length dp)%N with false by lia.
  rewrite !orb_false_r. destruct (length j); cbn [Nat.eqb]; [reflexivity|]. replace (N.of_nat (S n) =? 0)%N with false by lia.
  change L8W8JWT_ALG_ED25519 with 13%Z. rewrite andb_comm. reflexivity.
Qed.
Lemma running_code p e dp j rc : ~ (dp_alg dp = 13%Z /\ p_eddsa p = false) -> running p e dp j (Code rc) -> stored rc = Some NOT_VALID.
Proof.
  assert (G : forall rc, In rc [600; 425; 700; 420; 410; 450]%Z -> stored rc = Some NOT_VALID).
  { intros r H. simpl in H. decompose [or] H; try contradiction; subst r; reflexivity. }
  assert (T : forall jw k msg r, supported (dp_alg dp) jw -> ~ (dp_alg dp = 13%Z /\ p_eddsa p = false) -> turned_down p e jw k msg r ->
    In r [600; 425; 700; 420; 410; 450]%Z).
  { intros jw k msg r S Hn [[_ T]|[_ T]]; [cbn; auto|]. cbv zeta in T. pose proof (family_range _ _ S) as Fr. destruct (j_family jw);
      [contradiction|..]; repeat match goal with K : _ \/ _ |- _ => destruct K | K : _ /\ _ |- _ => destruct K end; cbn; auto 8.
    destruct Hn. auto. }
  assert (R : forall vf hj ht pj pt o, reading p e dp vf hj ht pj pt o -> o = Code rc -> In rc [600; 425; 700; 420; 410; 450]%Z).
  { intros vf hj ht pj pt o [ | | | | | ] E; injection E as <- || discriminate E; cbn; auto. }
  intros Hn H. apply G. remember (Code rc) as o eqn:Eo.
  destruct H as [r C|msg hj ht pj pt sg r C K|msg hj ht pj pt sg u C K|msg hj ht pj pt sg vf o C K Rd]; try discriminate Eo.
  - injection Eo as ->. clear - C. inversion C; subst; cbn; auto.
  - injection Eo as ->. clear - T K Hn. inversion K; subst; [cbn; auto|eauto].
  - eauto.
Qed.

(** Decoding comes to exactly one of: an error code, a validation result with claims, undefined
    behaviour; which one it is, is said by [decoding] (Complete.v), and the library does just that. *)
Theorem C75_decode_complete :
  forall p e dp j cn ln w,
    wf w -> allocs w -> grows w -> uses_jsmn e -> (32 <= p_size_bits p)%N ->
    c_text p dp j -> (Z.of_nat (length j) <= INT_MAX)%Z ->
    key_ok (dp_verification_key dp) (dp_verification_key_length dp) -> requests_readable e dp ->
    (cn = true -> ln = true) ->
    let call := l8w8jwt_decode p e (Some dp) true cn ln w in
    exists o, decoding p e dp j o /\ (forall o', decoding p e dp j o' -> o' = o)
    /\ match o with
       | Harm u => call = Undef u
       | Code rc => rc <> 0%Z /\ exists w', call = Ret (DecRes rc (stored rc) None) w'
       | Result v es => exists id cs w', Forall2 holds cs es
           /\ call = Ret (DecRes 0 (Some v) (if cn then Some (CArr (Some id) cs, N.of_nat (length es)) else None)) w'
       end.
Proof.
  intros p e dp j cn ln w Hwf Ha Hg Hj Hp Ht Hl Hk Hr Hc call.
  assert (Ec : cn && negb ln = false) by (destruct cn; [rewrite Hc by reflexivity|]; reflexivity).
  pose proof (params_code p dp j Ht Hk) as Pc. unfold call.
  destruct j as [|c0 j0] eqn:Ej.
  { exists (Code 200). split; [apply De_empty; reflexivity|]. split; [intros o' [_|C|o C]; congruence|]. split; [discriminate|].
    cbn [length Nat.eqb] in Pc. unfold l8w8jwt_decode. rewrite Ec, Pc. eexists. reflexivity. }
  rewrite <- Ej in *. assert (Nj : j <> []) by (rewrite Ej; discriminate). assert (El : Nat.eqb (length j) 0 = false) by (rewrite Ej; reflexivity).
  clear Ej c0 j0. rewrite El in Pc.
  destruct ((dp_alg dp =? 13)%Z && negb (p_eddsa p)) eqn:Eu.
  { assert (Ea : dp_alg dp = 13%Z) by lia. assert (Ep : p_eddsa p = false) by (destruct (p_eddsa p); [lia|reflexivity]).
    exists (Code 800). split; [apply De_unbuilt; auto|]. split; [intros o' [C|_ _|o _ C _]; [contradiction|reflexivity|destruct C; auto]|].
    split; [discriminate|]. unfold l8w8jwt_decode. rewrite Ec, Pc. eexists. reflexivity. }
  assert (Nu : ~ (dp_alg dp = 13%Z /\ p_eddsa p = false)) by (intros [C1 C2]; rewrite C1, C2 in Eu; discriminate Eu).
  destruct (decode_body_does p e dp j (w_next w) (w_ok w)) as (o & O1 & O2 & O3); auto using wf_ok, allocs_ok.
  exists o. split; [apply De_run; auto|]. split; [intros o' [C|_ C1 C2|o2 _ _ C]; [contradiction|destruct Nu; auto|apply O2; exact C]|].
  destruct o as [rc|v es|u].
  - destruct O3 as (R0 & st & w1 & E1 & E2 & _). split; [exact R0|].
    destruct (decode_finish p e dp cn ln w st w1 Hwf Ec Pc (Ha _) E1) as (w' & E). exists w'. rewrite E, E2.
    apply Z.eqb_neq in R0. change L8W8JWT_SUCCESS with 0%Z. rewrite R0. cbn [andb]. rewrite (running_code p e dp j rc Nu O1). reflexivity.
  - destruct O3 as (st & w1 & E1 & E2 & E3 & E4 & _).
    destruct (decode_finish p e dp cn ln w st w1 Hwf Ec Pc (Ha _) E1) as (w' & E).
    exists (cb_id (ds_claims st)), (cb_elems (ds_claims st)), w'. split; [exact E4|]. rewrite E, E2, E3. change (0 =? L8W8JWT_SUCCESS)%Z with true. cbv iota.
    unfold cb_len. assert (Len : length (cb_elems (ds_claims st)) = length es) by (clear - E4; induction E4; cbn; congruence). rewrite Len. do 2 f_equal. destruct cn; [rewrite Hc by reflexivity|]; reflexivity.
  - unfold l8w8jwt_decode. rewrite Ec, Pc. change (negb (0 =? L8W8JWT_SUCCESS)%Z) with false. cbn [negb]. cbv iota.
    unfold mbind at 1. rewrite cb_init_eq, (Ha _). unfold mbind at 1. rewrite O3. reflexivity.
Qed.
Print Assumptions C75_decode_complete.

(** ** The raw functions *)
(** What is handed out of a part: it, if it is asked for. *)
Definition given_part (asked : bool) (o t : bytes) (s : option seg) : Prop :=
  if asked then exists x, s = Some x /\ a_part o t x else s = None.
Definition given_parts (dp : dec_params) (j : bytes) (hn pn sn : bool) (r : raw_res) : Prop :=
  forall msg hj ht pj pt sg, cut dp j (Parts msg hj ht pj pt sg) ->
  given_part hn hj ht (rr_header r) /\ given_part pn pj pt (rr_payload r)
  /\ match sg with
     | Some (sig, st) => given_part sn sig st (rr_signature r)
     | None => rr_signature r = if sn then Some seg0 else None
     end.

Lemma decode_raw_of p e dp hn hl pn pl sn sl w st w1 :
  wf w -> w_alloc w (w_next w) = true -> (hn = true -> hl = true) -> (pn = true -> pl = true) -> (sn = true -> sl = true) ->
  l8w8jwt_validate_decoding_params p (Some dp) = L8W8JWT_SUCCESS ->
  decode_body p e dp (CB (w_next w) []) (w_ok w) = Ret st w1 ->
  exists w', l8w8jwt_decode_raw p e (Some dp) true hn hl pn pl sn sl w
    = Ret (RawRes (ds_rc st) (Some (if (ds_rc st =? L8W8JWT_SUCCESS)%Z then ds_res st else NOT_VALID))
             (if hn then Some (sg_header (ds_segs st)) else None) (if pn then Some (sg_payload (ds_segs st)) else None)
             (if sn then Some (sg_signature (ds_segs st)) else None)) w'.
Proof.
  intros Hwf Ha Hh Hpn Hsn Ev H.
  destruct (decode_raw_finish p e dp true hn hl pn pl sn sl w Hwf (or_intror Ha)) as (r & w' & E); [eauto|].
  exists w'. rewrite E. f_equal. unfold l8w8jwt_decode_raw in E.
  assert (Ec : negb true || (hn && negb hl) || (pn && negb pl) || (sn && negb sl) = false).
  { destruct hn; [rewrite Hh by reflexivity|]; destruct pn; try (rewrite Hpn by reflexivity); destruct sn; try (rewrite Hsn by reflexivity); reflexivity. }
  rewrite Ec, Ev in E. change (negb (L8W8JWT_SUCCESS =? L8W8JWT_SUCCESS)%Z) with false in E. cbv iota in E.
  unfold mbind at 1 in E. rewrite cb_init_eq, Ha in E. rewrite decode_raw_body_eq in E.
  minvas E as [[[rc sg] res] ob] w2 H2. minvas H2 as st' w3 H3. rewrite H in H3. injection H3 as <- <-.
  unfold mret in H2. injection H2 as <- <- <- <- <-.
  minvas E as h w3 H3. minvas E as q w4 H4. minvas E as s w5 H5. minvas E as x w6 H6. unfold mret in E. injection E as <- _.
  assert (G : forall nn s0 wa o wb, give_or_free nn s0 wa = Ret o wb -> o = if nn then Some s0 else None).
  { intros [] s0 wa o wb K; unfold give_or_free in K; [unfold mret in K; congruence|]. minvas K as y wc K1. unfold mret in K. congruence. }
  apply G in H3, H4, H5. subst h q s. reflexivity.
Qed.

Theorem C75_decode_raw_complete :
  forall p e dp j hn hl pn pl sn sl w,
    wf w -> allocs w -> grows w -> uses_jsmn e -> (32 <= p_size_bits p)%N ->
    c_text p dp j -> (Z.of_nat (length j) <= INT_MAX)%Z ->
    key_ok (dp_verification_key dp) (dp_verification_key_length dp) -> requests_readable e dp ->
    (hn = true -> hl = true) -> (pn = true -> pl = true) -> (sn = true -> sl = true) ->
    let call := l8w8jwt_decode_raw p e (Some dp) true hn hl pn pl sn sl w in
    exists o, decoding p e dp j o /\ (forall o', decoding p e dp j o' -> o' = o)
    /\ match o with
       | Harm u => call = Undef u
       | Code rc => rc <> 0%Z /\ exists r w', call = Ret r w' /\ rr_rc r = rc /\ rr_valid r = stored rc
                      /\ if (stored rc : option N) then given_parts dp j hn pn sn r else r = RawRes rc None None None None
       | Result v es => exists r w', call = Ret r w' /\ rr_rc r = 0%Z /\ rr_valid r = Some v /\ given_parts dp j hn pn sn r
       end.
Proof.
  intros p e dp j hn hl pn pl sn sl w Hwf Ha Hg Hj Hp Ht Hl Hk Hr Hh Hpn Hsn call.
  assert (Ec : negb true || (hn && negb hl) || (pn && negb pl) || (sn && negb sl) = false).
  { destruct hn; [rewrite Hh by reflexivity|]; destruct pn; try (rewrite Hpn by reflexivity); destruct sn; try (rewrite Hsn by reflexivity); reflexivity. }
  pose proof (params_code p dp j Ht Hk) as Pc. unfold call.
  destruct j as [|c0 j0] eqn:Ej.
  { exists (Code 200). split; [apply De_empty; reflexivity|]. split; [intros o' [_|C|o C]; congruence|]. split; [discriminate|].
    cbn [length Nat.eqb] in Pc. unfold l8w8jwt_decode_raw. rewrite Ec, Pc. do 2 eexists. do 3 (split; [reflexivity|]). exact eq_refl. }
  rewrite <- Ej in *. assert (Nj : j <> []) by (rewrite Ej; discriminate). assert (El : Nat.eqb (length j) 0 = false) by (rewrite Ej; reflexivity).
  clear Ej c0 j0. rewrite El in Pc.
  destruct ((dp_alg dp =? 13)%Z && negb (p_eddsa p)) eqn:Eu.
  { assert (Ea : dp_alg dp = 13%Z) by lia. assert (Ep : p_eddsa p = false) by (destruct (p_eddsa p); [lia|reflexivity]).
    exists (Code 800). split; [apply De_unbuilt; auto|]. split; [intros o' [C|_ _|o _ C _]; [contradiction|reflexivity|destruct C; auto]|].
    split; [discriminate|]. unfold l8w8jwt_decode_raw. rewrite Ec, Pc. do 2 eexists. do 3 (split; [reflexivity|]). exact eq_refl. }
  assert (Nu : ~ (dp_alg dp = 13%Z /\ p_eddsa p = false)) by (intros [C1 C2]; rewrite C1, C2 in Eu; discriminate Eu).
  destruct (decode_body_does p e dp j (w_next w) (w_ok w)) as (o & O1 & O2 & O3); auto using wf_ok, allocs_ok.
  exists o. split; [apply De_run; auto|]. split; [intros o' [C|_ C1 C2|o2 _ _ C]; [contradiction|destruct Nu; auto|apply O2; exact C]|].
  assert (Gp : forall st rc v, the_parts dp j (ds_segs st) -> given_parts dp j hn pn sn
    (RawRes rc v (if hn then Some (sg_header (ds_segs st)) else None) (if pn then Some (sg_payload (ds_segs st)) else None)
             (if sn then Some (sg_signature (ds_segs st)) else None))).
  { intros st rc v T msg hj ht pj pt sg C. destruct (T _ _ _ _ _ _ C) as (T1 & T2 & T3). cbn [rr_header rr_payload rr_signature]. unfold given_part.
    split; [destruct hn; eauto|]. split; [destruct pn; eauto|]. destruct sg as [[sig st']|]; [|rewrite T3; reflexivity]. destruct sn; eauto. }
  destruct o as [rc|v es|u].
  - destruct O3 as (R0 & st & w1 & E1 & E2 & E3). split; [exact R0|].
    destruct (decode_raw_of p e dp hn hl pn pl sn sl w st w1 Hwf (Ha _) Hh Hpn Hsn Pc E1) as (w' & E). do 2 eexists. split; [exact E|].
    cbn [rr_rc rr_valid]. rewrite E2. split; [reflexivity|]. apply Z.eqb_neq in R0. change L8W8JWT_SUCCESS with 0%Z. rewrite R0.
    rewrite (running_code p e dp j rc Nu O1). auto.
  - destruct O3 as (st & w1 & E1 & E2 & E3 & E4 & E5).
    destruct (decode_raw_of p e dp hn hl pn pl sn sl w st w1 Hwf (Ha _) Hh Hpn Hsn Pc E1) as (w' & E). do 2 eexists. split; [exact E|].
    cbn [rr_rc rr_valid]. rewrite E2, E3. auto.
  - unfold l8w8jwt_decode_raw. rewrite Ec, Pc. change (negb (0 =? L8W8JWT_SUCCESS)%Z) with false. cbv iota.
    unfold mbind at 1. rewrite cb_init_eq, (Ha _), decode_raw_body_eq. unfold mbind at 1. unfold mbind at 1. rewrite O3. reflexivity.
Qed.
Print Assumptions C75_decode_raw_complete.

(** Without validation there is only the cutting; the signature is not looked at, nor the claims. *)
Theorem C75_decode_raw_no_validation_complete :
  forall p dp j hn hl pn pl sn sl w,
    wf w -> allocs w -> c_text p dp j -> key_ok (dp_verification_key dp) (dp_verification_key_length dp) ->
    j <> [] -> (dp_alg dp = 13%Z -> p_eddsa p = true) ->
    (hn = true -> hl = true) -> (pn = true -> pl = true) -> (sn = true -> sl = true) -> (hn || pn || sn = true) ->
    exists c r w', cut dp j c /\ (forall c', cut dp j c' -> c' = c)
    /\ l8w8jwt_decode_raw_no_validation p (Some dp) hn hl pn pl sn sl w = Ret r w' /\ rr_valid r = None
    /\ match c with Wrong rc => rc <> 0%Z /\ rr_rc r = rc | _ => rr_rc r = 0%Z /\ given_parts dp j hn pn sn r end.
Proof.
  intros p dp j hn hl pn pl sn sl w Hwf Ha Ht Hk Nj Hed Hh Hpn Hsn Hany.
  destruct (cut_segments p dp j w Hwf Ha Ht) as (c & Hc & Kc).
  destruct (decode_raw_nv_total p dp j hn hl pn pl sn sl w Hwf Ht) as (r & w' & E). pose proof E as E0. unfold l8w8jwt_decode_raw_no_validation in E.
  assert (Ec : (negb hn && negb pn && negb sn) || (hn && negb hl) || (pn && negb pl) || (sn && negb sl) = false).
  { destruct hn; try (rewrite Hh by reflexivity); destruct pn; try (rewrite Hpn by reflexivity); destruct sn; try (rewrite Hsn by reflexivity); reflexivity || discriminate Hany. }
  pose proof (params_code p dp j Ht Hk) as Pc. replace (Nat.eqb (length j) 0) with false in Pc by (destruct j; [contradiction|reflexivity]).
  assert (Eu : (dp_alg dp =? 13)%Z && negb (p_eddsa p) = false).
  { destruct (Z.eqb_spec (dp_alg dp) 13) as [Ea|]; [rewrite (Hed Ea)|]; reflexivity. }
  rewrite Eu in Pc. rewrite Ec, Pc in E. change (negb (0 =? L8W8JWT_SUCCESS)%Z) with false in E. cbv iota in E.
  minvas E as [rc sg] w1 H1. minvas E as h w3 H3. minvas E as q w4 H4. minvas E as s w5 H5. unfold mret in E. injection E as <- _.
  assert (G : forall nn s0 wa o wb, give_or_free nn s0 wa = Ret o wb -> o = if nn then Some s0 else None).
  { intros [] s0 wa o wb K; unfold give_or_free in K; [unfold mret in K; congruence|]. minvas K as y wc K1. unfold mret in K. congruence. }
  apply G in H3, H4, H5. subst h q s. exists c. do 2 eexists. split; [exact Hc|]. split; [intros c' C; eapply cut_fun; eauto|]. split; [exact E0|].
  split; [reflexivity|]. cbn [rr_rc]. destruct c as [rc'|msg hj ht pj pt sg'].
  - destruct Kc as (R0 & sg' & w2 & K). rewrite K in H1. injection H1 as -> _ _. auto.
  - destruct Kc as (_ & i1 & i2 & sgs & w2 & K & _ & _ & _ & Ks). rewrite K in H1. injection H1 as <- <- _. split; [reflexivity|].
    intros msg2 hj2 ht2 pj2 pt2 sg2 C. pose proof (cut_fun _ _ _ _ C Hc) as X. injection X as -> -> -> -> -> ->.
    cbn [rr_header rr_payload rr_signature sg_header sg_payload sg_signature]. unfold given_part, a_part.
    split; [destruct hn; eauto|]. split; [destruct pn; eauto|]. destruct sg' as [[sig st]|]; [|rewrite Ks; reflexivity].
    destruct sn; [|reflexivity]. eauto.
Qed.
Print Assumptions C75_decode_raw_no_validation_complete.

(** ** When a token is valid *)
(** With one of the supported algorithms the token is reported valid exactly if it has three parts that
    are base64url, the key can be used and the signature verifies, header and payload can be read, and
    no requested check fails. *)
Theorem C75_valid_iff :
  forall p e dp j jw k cn ln w,
    wf w -> allocs w -> grows w -> uses_jsmn e -> (32 <= p_size_bits p)%N ->
    c_text p dp j -> (Z.of_nat (length j) <= INT_MAX)%Z ->
    key_ok (dp_verification_key dp) (dp_verification_key_length dp) -> requests_readable e dp ->
    supported (dp_alg dp) jw -> caller_key (dp_verification_key dp) (dp_verification_key_length dp) k ->
    (cn = true -> ln = true) ->
    (exists r w', l8w8jwt_decode p e (Some dp) true cn ln w = Ret r w' /\ dr_rc r = L8W8JWT_SUCCESS /\ dr_valid r = Some L8W8JWT_VALID)
    <-> exists h pl s hj ht pj pt sig st eh ep,
      parts3 j h pl s /\ url_decodes h hj ht /\ url_decodes pl pj pt /\ url_decodes s sig st
      /\ (forall rc, ~ turned_down p e jw k (h ++ lit "." ++ pl) rc)
      /\ (forall u, ~ misused e jw k (h ++ lit "." ++ pl) (sig ++ st) u)
      /\ verifies p e jw k (h ++ lit "." ++ pl) sig st
      /\ has_fate e hj ht (Read eh) /\ has_fate e pj pt (Read ep) /\ ~ typ_trips p dp (eh ++ ep)
      /\ forall bit, ~ failed e dp true (map kv_of (eh ++ ep)) bit.
Proof.
  intros p e dp j jw k cn ln w Hwf Ha Hg Hj Hp Ht Hl Hk Hr Hs Hck Hc.
  destruct (C75_decode_complete p e dp j cn ln w Hwf Ha Hg Hj Hp Ht Hl Hk Hr Hc) as (o & O1 & O2 & O3).
  pose proof (supported_range _ _ Hs) as Rg. split.
  - intros (r & w' & E & Rc & V). destruct o as [rc|v es|u]; [destruct O3 as (R0 & w2 & E2)|destruct O3 as (id & cs & w2 & _ & E2)|congruence];
      rewrite E2 in E; injection E as <- _; cbn [dr_rc dr_valid] in *; [contradiction|]. injection V as ->.
    inversion O1 as [| |o' _ _ Rn]; subst o'. remember (Result L8W8JWT_VALID es) as o eqn:Eo.
    destruct Rn as [r C|msg hj ht pj pt sg r C K|msg hj ht pj pt sg u C K|msg hj ht pj pt sg vf o C K Rd]; try discriminate Eo.
    destruct Rd as [ | | | | |eh ep v F1 F2 Nt Vd]; try discriminate Eo. injection Eo as -> <-.
    destruct vf.
    2:{ exfalso. assert (B : N.testbit L8W8JWT_VALID 7 = true) by (apply Vd, F_signature; reflexivity). discriminate B. }
    inversion K as [C0|? ? C0|?|?|?|jw' k' sig st S' K' T1 Es M1 V1|?]; [lia|destruct (C0 _ Hs)|].
    assert (jw' = jw) by (eapply supported_fun; eauto). assert (k' = k) by (eapply caller_key_fun; eauto). subst jw' k' sg.
    inversion C; subst. do 11 eexists. split; [eassumption|]. do 3 (split; [eassumption|]). split; [exact T1|]. split; [exact M1|]. split; [exact V1|].
    split; [exact F1|]. split; [exact F2|]. split; [exact Nt|]. intros bit Fl. apply Vd in Fl. unfold L8W8JWT_VALID in Fl. rewrite N.bits_0 in Fl. discriminate Fl.
  - intros (h & pl & s & hj & ht & pj & pt & sig & st & eh & ep & P3 & D1 & D2 & D3 & T1 & M1 & V1 & F1 & F2 & Nt & Fl).
    assert (X : decoding p e dp j (Result L8W8JWT_VALID (eh ++ ep))).
    { apply De_run.
      - intros ->. destruct P3 as (E & _). destruct h; discriminate E.
      - intros [Ea Ep]. apply (T1 800%Z). right. split; [intros B; apply (T1 420%Z); left; auto|].
        cbv zeta. rewrite (ed_is _ _ Hs Ea). auto.
      - eapply Rn_goes; [eapply Cut_three; eauto|eapply Ck_good; eauto|]. eapply Rd_result; eauto.
        intros bit. split; [|intros C; destruct (Fl _ C)]. unfold L8W8JWT_VALID. rewrite N.bits_0. discriminate. }
    apply O2 in X. subst o. destruct O3 as (id & cs & w' & _ & E). do 2 eexists. split; [exact E|]. auto.
Qed.
Print Assumptions C75_valid_iff.

(** What [verifies] means is what the standards say (SpecJwa.v), if an Ed25519 key is made of
    hexadecimal digits. *)
Theorem C75_verifies_standard :
  forall p e j k msg sig st,
    (forall rc, ~ turned_down p e j k msg rc) -> (forall u, ~ misused e j k msg (sig ++ st) u) -> k <> [] -> hex_if_ed j k ->
    (verifies p e j k msg sig st <-> exists looked, signature_read e j k sig st looked /\ verified_by e j k msg looked).
Proof.
  intros p e j k msg sig st T M Hne Hx. unfold verifies. destruct (j_family j) eqn:Hf; try tauto.
  destruct (Hx Hf) as (hx & kb & Hkx & Hkb).
  assert (Eh : forall h b, (k = h \/ k = h ++ [x00]) -> unhex h = Some b -> hmac_key k = h).
  { intros h b Hh Hb. unfold hmac_key. destruct Hh as [->| ->].
    - destruct (exists_last Hne) as (k0 & z & E0). rewrite E0, last_last. destruct (is_nul z) eqn:Ez; [|reflexivity].
      exfalso. apply is_nul_true in Ez. subst z. apply unhex_no_nul in Hb. apply Hb. rewrite E0. apply in_app_iff. right. left. reflexivity.
    - rewrite last_last, removelast_last. reflexivity. }
  assert (Em : (64 <= length (sig ++ st))%nat).
  { destruct (le_lt_dec 64 (length (sig ++ st))) as [L|L]; [exact L|]. exfalso. apply (M OOBRead). unfold misused. rewrite Hf. auto. }
  assert (L64 : length (hmac_key k) = 64%nat).
  { destruct (Nat.eq_dec (length (hmac_key k)) 64) as [L|L]; [exact L|]. exfalso.
    assert (Nb : ~ bad_certificate e k) by (intros B; apply (T 420%Z); left; auto).
    destruct (p_eddsa p) eqn:Ep; [apply (T 450%Z)|apply (T 800%Z)]; right; (split; [exact Nb|]); cbv zeta; rewrite Hf; auto. }
  rewrite (Eh _ _ Hkx Hkb) in *. rewrite (loose_hex p hx kb Hkb). unfold signature_read, verified_by. rewrite Hf. split.
  - intros V. eexists. split; [reflexivity|]. exists hx, kb. split; [exact Hkx|]. split; [exact L64|]. split; [exact Hkb|].
    split; [rewrite firstn_length; lia|exact V].
  - intros (l & -> & hx' & kb' & Hkx' & _ & Hkb' & _ & V). rewrite <- (Eh _ _ Hkx' Hkb'), (Eh _ _ Hkx Hkb) in Hkb'. congruence.
Qed.
Print Assumptions C75_verifies_standard.

(** ** Examples *)
(** Tokens of each kind, decoded in the toy world. *)
Definition sample_params (tok : bytes) (alg : Z) (sub : ptr) (exp : bool) : dec_params :=
  DecParams (Ptr None (tok ++ [x00])) (N.of_nat (length tok)) alg Null 0 sub 0 Null 0 Null 0
    exp false false 0 0 0 (zstr "secret") 6 Null 0.
Definition sample_ok (e : env) (dp : dec_params) (j : bytes) : Prop :=
  wf we /\ allocs we /\ grows we /\ uses_jsmn e /\ (32 <= p_size_bits pe)%N /\ c_text pe dp j /\ (Z.of_nat (length j) <= INT_MAX)%Z
  /\ key_ok (dp_verification_key dp) (dp_verification_key_length dp) /\ requests_readable e dp.
Lemma sample_called e tok alg sub exp :
  uses_jsmn e -> (N.of_nat (length tok) < size_mod pe)%N -> (Z.of_nat (length tok) <= INT_MAX)%Z -> no_nul tok ->
  (sub = Null \/ exists s, given sub 0 s) -> (I64_MIN <= e_time e <= I64_MAX)%Z -> sample_ok e (sample_params tok alg sub exp) tok.
Proof.
  intros Hj Hs Hl Hz Hsub Ht. split; [apply we_wf|]. split; [intros k; reflexivity|]. split; [intros k; reflexivity|]. split; [exact Hj|].
  split; [vm_compute; discriminate|]. split; [split; [exists None, []; reflexivity|]; auto|]. split; [exact Hl|]. split; [apply secret_ok|].
  split; [exact Hsub|]. do 3 (split; [left; reflexivity|]). split; [|left; reflexivity].
  split; [cbn; intros _; lia|]. split; discriminate.
Qed.
Ltac sampled := apply sample_called; [intros js cap; reflexivity|vm_compute; reflexivity|vm_compute; discriminate|
  apply no_nul_b; vm_compute; reflexivity|
  first [left; reflexivity|right; exists (lit "me"); exists []; split; [reflexivity|apply no_nul_b; reflexivity]]|vm_compute; split; discriminate].
Lemma sample_decoding e dp j : sample_ok e dp j ->
  match l8w8jwt_decode pe e (Some dp) true true true we with
  | Undef u => decoding pe e dp j (Harm u)
  | Ret r _ => if (dr_rc r =? 0)%Z then exists v es, dr_valid r = Some v /\ decoding pe e dp j (Result v es) else decoding pe e dp j (Code (dr_rc r))
  end.
Proof.
  intros (H1 & H2 & H3 & H4 & H5 & H6 & H7 & H8 & H9).
  destruct (C75_decode_complete pe e dp j true true we H1 H2 H3 H4 H5 H6 H7 H8 H9 (fun H => H)) as (o & O1 & _ & O3). destruct o as [rc|v es|u].
  - destruct O3 as (R0 & w' & ->). cbn [dr_rc]. apply Z.eqb_neq in R0. rewrite R0. exact O1.
  - destruct O3 as (id & cs & w' & _ & ->). cbn [dr_rc dr_valid Z.eqb]. exists v, es. auto.
  - rewrite O3. exact O1.
Qed.
Definition me_text : bytes := signed plain_header "{""sub"":""me"",""exp"":1000}".
Example C75_example :
  (* valid; out of time; for someone else; not signed with the key *)
  (sample_ok (toy_at 999) (sample_params me_text 0 (zstr "me") true) me_text
   /\ exists es, decoding pe (toy_at 999) (sample_params me_text 0 (zstr "me") true) me_text (Result 0 es))
  /\ (exists es, decoding pe (toy_at 1001) (sample_params me_text 0 (zstr "me") true) me_text (Result 16 es))
  /\ (exists es, decoding pe (toy_at 999) (sample_params sure_text 0 (zstr "me") true) sure_text (Result 144 es))
  (* parts missing or not base64url; a hash that is not there; a payload that is no JSON *)
  /\ decoding pe toy_num (sample_params (lit "e30.e30") 0 Null false) (lit "e30.e30") (Code 700)
  /\ (exists es, decoding pe toy_num (sample_params (lit "e30.e30") (-1) Null false) (lit "e30.e30") (Result 0 es))
  /\ decoding pe toy_num (sample_params (lit "e30.!.e30") 0 Null false) (lit "e30.!.e30") (Code 425)
  /\ decoding pe toy_num (sample_params [] 0 Null false) [] (Code 200)
  /\ decoding pe toy_num (sample_params sure_text 13 Null false) sure_text (Code 450)
  /\ decoding pe toy_num (sample_params (signed plain_header "{x}") 0 Null false) (signed plain_header "{x}") (Code 600)
  (* a signature too short for the algorithm; claims that end with a name *)
  /\ decoding pe toy_num (sample_params short_token 0 Null false) short_token (Harm OOBRead)
  /\ decoding pe toy_num (sample_params lone_token 0 Null false) lone_token (Harm OOBRead).
Proof.
  assert (G : forall e dp j, sample_ok e dp j -> forall v, match l8w8jwt_decode pe e (Some dp) true true true we with
    | Ret r _ => dr_rc r = 0%Z /\ dr_valid r = Some v | Undef _ => False end -> exists es, decoding pe e dp j (Result v es)).
  { intros e dp j H v K. apply sample_decoding in H. destruct (l8w8jwt_decode pe e (Some dp) true true true we) as [r w'|]; [|contradiction].
    destruct K as [K1 K2]. rewrite K1 in H. cbn [Z.eqb] in H. destruct H as (v' & es & E & D). exists es. congruence. }
  assert (C : forall e dp j, sample_ok e dp j -> forall rc, match l8w8jwt_decode pe e (Some dp) true true true we with
    | Ret r _ => dr_rc r = rc | Undef _ => False end -> rc <> 0%Z -> decoding pe e dp j (Code rc)).
  { intros e dp j H rc K K0. apply sample_decoding in H. destruct (l8w8jwt_decode pe e (Some dp) true true true we) as [r w'|]; [|contradiction].
    rewrite K in H. apply Z.eqb_neq in K0. rewrite K0 in H. exact H. }
  assert (U : forall e dp j, sample_ok e dp j -> forall u, l8w8jwt_decode pe e (Some dp) true true true we = Undef u -> decoding pe e dp j (Harm u)).
  { intros e dp j H u K. apply sample_decoding in H. rewrite K in H. exact H. }
  split; [split; [sampled|]|repeat split].
  - apply G; [sampled|]. vm_compute. auto.
  - apply G; [sampled|]. vm_compute. auto.
  - apply G; [sampled|]. vm_compute. auto.
  - apply De_run; [discriminate|intros [X _]; discriminate X|]. apply Rn_cut. apply Cut_unsigned with (h := lit "e30") (pl := lit "e30").
    + split; [reflexivity|]. split; vm_compute; intuition discriminate.
    + intros X. eapply X. apply b64_decodes_url. split; [discriminate|]. split; [reflexivity|]. eexists. split; [vm_compute; reflexivity|reflexivity].
    + discriminate.
  - apply G; [sampled|]. vm_compute. auto.
  - apply C; [sampled|vm_compute; reflexivity|discriminate].
  - apply De_empty. reflexivity.
  - apply C; [sampled|vm_compute; reflexivity|discriminate].
  - apply C; [sampled|vm_compute; reflexivity|discriminate].
  - apply U; [sampled|vm_compute; reflexivity].
  - apply U; [sampled|vm_compute; reflexivity].
Qed.
(** The criterion of C75_valid_iff is met by a token, and so are its hypotheses. *)
Example C75_valid_example :
  sample_ok (toy_at 999) (sample_params me_text 0 (zstr "me") true) me_text
  /\ supported (dp_alg (sample_params me_text 0 (zstr "me") true)) (Jwa 0 (lit "HS256") HS SHA256)
  /\ caller_key (zstr "secret") 6 (lit "secret")
  /\ exists r w', l8w8jwt_decode pe (toy_at 999) (Some (sample_params me_text 0 (zstr "me") true)) true true true we = Ret r w'
     /\ dr_rc r = L8W8JWT_SUCCESS /\ dr_valid r = Some L8W8JWT_VALID.
Proof.
  split; [sampled|]. split; [split; [left; reflexivity|reflexivity]|]. split; [exists None, (lit "secret" ++ [x00]); split; [reflexivity|]; split; [vm_compute; discriminate|reflexivity]|].
  vm_compute. do 2 eexists. split; [reflexivity|]. auto.
Qed.
Example C75_raw_example :
  match l8w8jwt_decode_raw pe (toy_at 1001) (Some (sample_params me_text 0 (zstr "me") true)) true true true true true false false we with
  | Ret r _ => rr_rc r = 0%Z /\ rr_valid r = Some 16%N /\ rr_signature r = None
      /\ exists q, rr_payload r = Some q /\ exists id, q = Seg (Ptr (Some id) (lit "{""sub"":""me"",""exp"":1000}" ++ repeat x00 14)) 23
  | Undef _ => False end
  /\ match l8w8jwt_decode_raw_no_validation pe (Some (sample_params (lit "e30.!.e30") 0 Null false)) true true true true true true we with
     | Ret r _ => rr_rc r = 425%Z /\ rr_valid r = None | Undef _ => False end.
Proof. vm_compute. repeat split. eexists. split; [reflexivity|]. eexists. reflexivity. Qed.
