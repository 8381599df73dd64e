(** * Property C95: the locale *)
From Verif Require Import Base BaseProofs HeapProofs Util UtilProofs Claim Base64 SpecB64
  Base64EncProofs Base64EncApi Base64DecProofs Base64Api Jsmn Env Encode Decode SpecJson SpecJwa ClaimProofs UnescapeProofs
  EncodeProofs SignProofs EncodeTotal SpecEnc JsonProofs PropEncode DecodeProofs DecodeInv JsmnProofs ParseProofs
  PropClaim ReadProofs ValidateProofs JsmnJson JsmnSize PropVerify PropValidate PropLeak PropJson DecodeTotal DecodeOk PropSafe
  PropRoundTrip PropIssued PropTime PropVerdict Examples PropEncMemory PropPrograms Walk Exact Complete PropComplete PropRules Locale.
From Coq Require Import ZifyBool ZifyNat ZifyN.
Ltac Zify.zify_post_hook ::= Z.div_mod_to_equations.
Local Opaque L8W8JWT_MAX_KEY_SIZE.

(** ** Locales *)
(** tolower takes the byte, as the build passes it, to the same value as in the "C" locale. *)
Definition same_lower (l : locale) (p : platform) (c : byte) : Prop := tolower_l l (char_val p c) = tolower (char_val p c).
(** The date checks asked for. *)
Definition date_asked (dp : dec_params) (name : bytes) : Prop :=
  (name = lit "exp" /\ dp_validate_exp dp = true) \/ (name = lit "nbf" /\ dp_validate_nbf dp = true)
  \/ (name = lit "iat" /\ dp_validate_iat dp = true).
(** The first claim that starts with the name of a date asked for is an integer numeral; the bytes of the first that
    starts with typ, and those of the type expected, have the lower case they have in the "C" locale. *)
Definition unaffected (l : locale) (p : platform) (dp : dec_params) (kvs : list (bytes * bytes)) : Prop :=
  (forall name v, date_asked dp name -> lookup_prefix name kvs = Some v -> integer_text v)
  /\ (forall b m v, dp_validate_typ dp = Ptr b m -> lookup_prefix (lit "typ") kvs = Some v ->
        Forall (same_lower l p) m /\ Forall (same_lower l p) v).

(** ** Lemmas *)
Lemma bind_same {A B} (m m' : U A) (k k' : A -> U B) : m = m' -> (forall a, k a = k' a) -> ubind m k = ubind m' k'.
Proof. intros -> H. destruct m'; [apply H|reflexivity]. Qed.
Lemma digit_is c : digit c -> is_digit c = true.
Proof. intros H. apply EncodeProofs.digit_facts in H as (_ & H & _). unfold is_digit. lia. Qed.
Lemma digit_not_space c : is_digit c = true \/ c = x2d \/ c = x2b \/ c = x00 -> is_space c = false.
Proof. intros [H|[->|[->| ->]]]; [|reflexivity..]. unfold is_digit in H. unfold is_space. lia. Qed.
Lemma int_digits i : json_int i -> i <> [] /\ Forall digit i.
Proof.
  intros [|c s D _ F]; (split; [discriminate|]); constructor; auto. vm_compute. tauto.
Qed.
Lemma strtoll_integer l v r : conforms l -> integer_text v -> strtoll_l l (v ++ x00 :: r) = strtoll (v ++ x00 :: r).
Proof.
  intros (_ & _ & Cs & Cn) (sg & i & Hs & Hi & ->). apply int_digits in Hi as [Ne F].
  assert (F' : Forall (fun c => is_digit c = true) i) by (eapply Forall_impl; [|exact F]; intros c; apply digit_is).
  assert (Hs' : sg = [] \/ sg = [x2d]) by (destruct Hs as [<-|[<-|[]]]; auto).
  unfold strtoll_l. rewrite <- app_assoc, (Cn sg i r Hs' Ne F'). destruct i as [|c i]; [contradiction|].
  inversion F' as [|? ? Hc _]; subst.
  assert (Sc : lo_space l c = false) by (apply Cs; auto). assert (Kc : is_space c = false) by (apply digit_not_space; auto).
  destruct Hs' as [->| ->]; cbn [app strtoll_std strtoll].
  - rewrite Sc, Kc. reflexivity.
  - rewrite (Cs x2d) by auto. rewrite (digit_not_space x2d) by auto. reflexivity.
Qed.
Lemma lower_nul l p : conforms l -> same_lower l p x00.
Proof.
  intros (Cl & _). unfold same_lower. assert (E : char_val p x00 = 0%Z) by (unfold char_val; destruct (p_char_signed p); reflexivity).
  rewrite E. unfold tolower_l, tolower. cbn [Z.ltb Z.compare Z.eqb]. rewrite (Cl (n2b (Z.to_N 0))); [reflexivity|vm_compute; reflexivity|vm_compute; intuition].
Qed.
Lemma char_val_zero p c : char_val p c = 0%Z -> c = x00.
Proof.
  unfold char_val, b2z. intros H. apply b2n_inj. change (b2n x00) with 0%N.
  destruct (p_char_signed p && (127 <? b2n c)%N) eqn:E; pose proof (b2n_lt c); lia.
Qed.
Lemma strncmpic_same l p : conforms l -> forall v r m n ret, Forall (same_lower l p) v -> Forall (same_lower l p) m ->
  strncmpic_loop_l l p (v ++ x00 :: r) m n ret = strncmpic_loop p (v ++ x00 :: r) m n ret.
Proof.
  intros C v. induction v as [|a v IH]; intros r m n ret Fv Fm.
  - cbn [app strncmpic_loop_l strncmpic_loop]. destruct m as [|b m]; [reflexivity|]. inversion Fm as [|? ? Hb _]; subst.
    destruct (is_nul x00 && is_nul b) eqn:E1; [reflexivity|]. destruct (n =? 0)%N; [reflexivity|].
    rewrite (lower_nul l p C), Hb.
    assert (E0 : tolower (char_val p x00) = OK 0%Z) by (unfold char_val; destruct (p_char_signed p); reflexivity). rewrite E0. cbn [ubind].
    destruct (tolower (char_val p b)) as [y|u] eqn:Ey; [|reflexivity]. cbn [ubind]. cbv zeta.
    assert (Ny : (0 - y =? 0)%Z = false).
    { apply Z.eqb_neq. intros Z0. assert (y = 0)%Z by lia. subst y.
      assert (Nb : b <> x00) by (intros ->; discriminate E1). unfold tolower in Ey.
      destruct (char_val p b <? -1)%Z; [discriminate|]. destruct ((65 <=? char_val p b)%Z && (char_val p b <=? 90)%Z) eqn:E2; injection Ey as Ey; [lia|].
      apply Nb, (char_val_zero p), Ey. }
    rewrite Ny. reflexivity.
  - inversion Fv as [|? ? Ha Fv']; subst. cbn [app strncmpic_loop_l strncmpic_loop]. destruct m as [|b m]; [reflexivity|].
    inversion Fm as [|? ? Hb Fm']; subst. rewrite Ha, Hb.
    destruct (is_nul a && is_nul b); [reflexivity|]. destruct (n =? 0)%N; [reflexivity|].
    apply bind_same; [reflexivity|]. intros x. apply bind_same; [reflexivity|]. intros y. cbv zeta.
    destruct (negb (x - y =? 0)%Z); [reflexivity|]. apply IH; assumption.
Qed.
Lemma time_same l b cs kvs name now f : conforms l -> told cs kvs -> no_nul (lit name) -> String.length name = 3%nat ->
  (forall v, lookup_prefix (lit name) kvs = Some v -> integer_text v) ->
  time_check_l l (CArr b cs) (N.of_nat (length cs)) name now f = time_check (CArr b cs) (N.of_nat (length cs)) name now f.
Proof.
  intros C T Hn Hl H. unfold time_check_l, time_check. pose proof (get_claim_told b cs kvs name T Hn Hl) as G. unfold lookup_prefix in H.
  destruct (value_of (prefixb (lit name)) kvs) as [v|]; [|rewrite G; reflexivity].
  destruct G as (c & k & G & (_ & _ & (vb & vr & Ev) & _) & _). rewrite G. cbn [ubind]. rewrite Ev. cbn [deref].
  apply bind_same; [reflexivity|]. intros n. cbn [ubind]. rewrite (strtoll_integer l v vr C (H v eq_refl)). reflexivity.
Qed.
Lemma validate_same_l l p e dp b cs kvs res : conforms l -> told cs kvs -> unaffected l p dp kvs ->
  validate_claims_l l p e dp (CArr b cs) (N.of_nat (length cs)) res = l8w8jwt_validate_claims p e dp (CArr b cs) (N.of_nat (length cs)) res.
Proof.
  intros C T (Hd & Ht). unfold validate_claims_l, l8w8jwt_validate_claims. cbv zeta.
  assert (Fd : forall on name now f fl r, (on = true -> date_asked dp (lit name)) -> no_nul (lit name) -> String.length name = 3%nat ->
    flag_if on (time_check_l l (CArr b cs) (N.of_nat (length cs)) name now f) fl r = flag_if on (time_check (CArr b cs) (N.of_nat (length cs)) name now f) fl r).
  { intros on name now f fl r Ha Hn Hl. unfold flag_if. destruct on; [|reflexivity]. rewrite (time_same l b cs kvs name now f C T Hn Hl); [reflexivity|].
    intros v Hv. apply (Hd (lit name) v (Ha eq_refl) Hv). }
  assert (Nn : forall s, forallb (fun c => negb (is_nul c)) (lit s) = true -> no_nul (lit s)).
  { intros s Hs Hin. rewrite forallb_forall in Hs. specialize (Hs _ Hin). discriminate. }
  do 4 (apply bind_same; [reflexivity|intros ?]).
  apply bind_same; [apply Fd; [intros H; left; auto|apply Nn; reflexivity|reflexivity]|intros ?].
  apply bind_same; [apply Fd; [intros H; right; left; auto|apply Nn; reflexivity|reflexivity]|intros ?].
  apply bind_same; [apply Fd; [intros H; right; right; auto|apply Nn; reflexivity|reflexivity]|intros ?].
  destruct (dp_validate_typ dp) as [|tb m] eqn:Et; [reflexivity|]. unfold flag_if. cbn [is_null negb].
  apply bind_same; [|reflexivity]. unfold typ_check_l, typ_check.
  pose proof (get_claim_told b cs kvs "typ"%string T (Nn "typ"%string eq_refl) eq_refl) as G. unfold lookup_prefix in Ht.
  destruct (value_of (prefixb (lit "typ")) kvs) as [v|] eqn:Ev0; [|rewrite G; reflexivity].
  destruct G as (c & k & G & (_ & _ & (vb & vr & Ev) & _) & _). rewrite G. cbn [ubind]. rewrite Ev. cbn [l8w8jwt_strncmpic_l l8w8jwt_strncmpic].
  destruct (Ht tb m v eq_refl eq_refl) as [Fm Fv].
  apply bind_same; [|reflexivity]. apply strncmpic_same; assumption.
Qed.
Lemma mbind_at {A B} (m : M A) (k : A -> M B) w a w1 : m w = Ret a w1 -> mbind m k w = k a w1.
Proof. unfold mbind. intros ->. reflexivity. Qed.
(** The stretch of decode_l between the claims buffer and the exit does what that of decode does if validation does. *)
Lemma body_by_validation l p e dp w r w' claims w1 :
  l8w8jwt_decode p e (Some dp) true true true w = Ret r w' -> l8w8jwt_validate_decoding_params p (Some dp) = L8W8JWT_SUCCESS ->
  cb_init claim w = Ret (Some claims) w1 ->
  (forall id cs n res, dr_rc r = L8W8JWT_SUCCESS -> dr_claims r = Some (CArr id cs, n) ->
     validate_claims_l l p e dp (CArr id cs) n res = l8w8jwt_validate_claims p e dp (CArr id cs) n res) ->
  decode_body_l l p e dp claims w1 = decode_body p e dp claims w1.
Proof.
  intros H Hv Ec V. unfold l8w8jwt_decode in H. cbn [andb negb] in H. rewrite Hv in H. change (negb (L8W8JWT_SUCCESS =? L8W8JWT_SUCCESS)%Z) with false in H. cbv iota in H.
  rewrite (mbind_at _ _ _ _ _ Ec) in H. clear Ec. cbv iota beta in H.
  minvas H as st w2 H1. minvas H as u1 w3 H2. minvas H as u2 w4 H3. minvas H as u3 w5 H4. minvas H as u4 w6 H5. cbn [orb] in H5.
    assert (Er : r = DecRes (ds_rc st) (Some (if (ds_rc st =? L8W8JWT_SUCCESS)%Z then ds_res st else NOT_VALID))
                 (if (ds_rc st =? L8W8JWT_SUCCESS)%Z && true && true then Some (CArr (Some (cb_id (ds_claims st))) (cb_elems (ds_claims st)), cb_len (ds_claims st)) else None))
      by (unfold mret in H; congruence).
    clear H2 H3 H4 H5 H. subst r. cbn [dr_rc dr_claims] in V. unfold decode_body in H1. unfold decode_body_l, decode_body. unfold mbind in H1 |- *.
    destruct (l8w8jwt_decode_segments p dp w1) as [[r1 sg] wa|u]; [|reflexivity]. destruct (negb (r1 =? L8W8JWT_SUCCESS)%Z); [reflexivity|].
    destruct (l8w8jwt_verify_signature p e dp L8W8JWT_VALID (s_ptr (sg_signature sg)) (s_len (sg_signature sg)) wa) as [[r2 rs] wb|u]; [|reflexivity].
    destruct (negb (r2 =? L8W8JWT_SUCCESS)%Z); [reflexivity|].
    destruct (l8w8jwt_parse_claims p e claims (s_ptr (sg_header sg)) (s_len (sg_header sg)) wb) as [[r3 c3] wc|u]; [|reflexivity].
    destruct (negb (r3 =? L8W8JWT_SUCCESS)%Z); [reflexivity|].
    destruct (l8w8jwt_parse_claims p e c3 (s_ptr (sg_payload sg)) (s_len (sg_payload sg)) wc) as [[r4 c4] wd|u]; [|reflexivity].
    destruct (negb (r4 =? L8W8JWT_SUCCESS)%Z); [reflexivity|].
    unfold lift in H1 |- *. destruct (l8w8jwt_validate_claims p e dp (CArr (Some (cb_id c4)) (cb_elems c4)) (cb_len c4) rs) as [v|u] eqn:Ev; [|discriminate].
    unfold mret in H1. injection H1 as <- <-. cbn [ds_rc ds_claims] in V. rewrite (V _ _ _ rs eq_refl eq_refl), Ev. reflexivity.
Qed.
(** decode_l does what decode does if validation does. *)
Lemma decode_by_validation l p e dp w r w' :
  l8w8jwt_decode p e (Some dp) true true true w = Ret r w' ->
  (forall id cs n res, dr_rc r = L8W8JWT_SUCCESS -> dr_claims r = Some (CArr id cs, n) ->
     validate_claims_l l p e dp (CArr id cs) n res = l8w8jwt_validate_claims p e dp (CArr id cs) n res) ->
  l8w8jwt_decode_l l p e (Some dp) true true true w = Ret r w'.
Proof.
  intros H V. pose proof (fun c w1 Hv Ec => body_by_validation l p e dp w r w' c w1 H Hv Ec V) as B. rewrite <- H. clear H V.
  unfold l8w8jwt_decode_l, l8w8jwt_decode. cbn [andb negb] in *.
  destruct (Z.eqb_spec (l8w8jwt_validate_decoding_params p (Some dp)) L8W8JWT_SUCCESS) as [Hv|Hv]; cbn [negb]; cbv iota; [|reflexivity].
  destruct (cb_init claim w) as [[claims|] w1|u] eqn:Ec; [|unfold mbind; rewrite Ec; reflexivity|unfold mbind; rewrite Ec; reflexivity].
  rewrite !(mbind_at _ _ _ _ _ Ec). unfold mbind. rewrite (B _ _ Hv eq_refl). reflexivity.
Qed.
(** decode_raw_l does, too. *)
Lemma raw_by_validation l p e dp w r w' vn hn hl pn pl sn sl :
  l8w8jwt_decode p e (Some dp) true true true w = Ret r w' ->
  (forall id cs n res, dr_rc r = L8W8JWT_SUCCESS -> dr_claims r = Some (CArr id cs, n) ->
     validate_claims_l l p e dp (CArr id cs) n res = l8w8jwt_validate_claims p e dp (CArr id cs) n res) ->
  l8w8jwt_decode_raw_l l p e (Some dp) vn hn hl pn pl sn sl w = l8w8jwt_decode_raw p e (Some dp) vn hn hl pn pl sn sl w.
Proof.
  intros H V. pose proof (fun c w1 Hv Ec => body_by_validation l p e dp w r w' c w1 H Hv Ec V) as B. clear H V.
  change (decode_body_l l p e dp) with (decode_raw_body_l l p e dp) in B. change (decode_body p e dp) with (decode_raw_body p e dp) in B.
  unfold l8w8jwt_decode_raw_l, l8w8jwt_decode_raw. destruct (_ || _); [reflexivity|]. cbv zeta.
  destruct (Z.eqb_spec (l8w8jwt_validate_decoding_params p (Some dp)) L8W8JWT_SUCCESS) as [Hv|Hv]; cbn [negb]; cbv iota; [|reflexivity].
  destruct (cb_init claim w) as [[claims|] w1|u] eqn:Ec; [|unfold mbind; rewrite Ec; reflexivity|unfold mbind; rewrite Ec; reflexivity].
  rewrite !(mbind_at _ _ _ _ _ Ec). unfold mbind. rewrite (B _ _ Hv eq_refl). reflexivity.
Qed.

(** ** The "C" locale *)
Definition c_locale : locale := Locale ascii_lower is_space (fun _ => None).
Lemma tolower_c z : (z < 256)%Z -> tolower_l c_locale z = tolower z.
Proof.
  intros H. unfold tolower_l, tolower. destruct (Z.ltb_spec z (-1)); [reflexivity|]. destruct (Z.eqb_spec z (-1)) as [->|N]; [reflexivity|].
  cbn [c_locale lo_lower]. unfold ascii_lower. rewrite b2n_n2b by lia.
  destruct ((65 <=? Z.to_N z)%N && (Z.to_N z <=? 90)%N) eqn:E; destruct ((65 <=? z)%Z && (z <=? 90)%Z) eqn:E'; try lia; f_equal; unfold b2z; rewrite b2n_n2b by lia; lia.
Qed.
Lemma c_same p c : same_lower c_locale p c.
Proof. apply tolower_c. unfold char_val, b2z. pose proof (b2n_lt c). destruct (_ && _); lia. Qed.
Lemma loop_c p a : forall b n r, strncmpic_loop_l c_locale p a b n r = strncmpic_loop p a b n r.
Proof.
  induction a as [|x a IH]; intros b n r; [reflexivity|]. cbn [strncmpic_loop_l strncmpic_loop]. destruct b as [|y b]; [reflexivity|].
  rewrite (c_same p x), (c_same p y). destruct (is_nul x && is_nul y); [reflexivity|]. destruct (n =? 0)%N; [reflexivity|].
  apply bind_same; [reflexivity|]. intros u. apply bind_same; [reflexivity|]. intros v. cbv zeta. destruct (negb _); [reflexivity|apply IH].
Qed.
Lemma strtoll_c m : strtoll_l c_locale m = strtoll m.
Proof. unfold strtoll_l. cbn [c_locale lo_number lo_space]. induction m as [|c m IH]; [reflexivity|]. cbn [strtoll_std strtoll]. rewrite IH. reflexivity. Qed.
Lemma mbind_same {A B} (m m' : M A) (k k' : A -> M B) w : m w = m' w -> (forall a w, k a w = k' a w) -> mbind m k w = mbind m' k' w.
Proof. unfold mbind. intros -> H. destruct (m' w); [apply H|reflexivity]. Qed.
(** decode_l and decode agree wherever validation does. *)
Lemma body_everywhere l p e dp claims w :
  (forall cs n res, validate_claims_l l p e dp cs n res = l8w8jwt_validate_claims p e dp cs n res) ->
  decode_body_l l p e dp claims w = decode_body p e dp claims w.
Proof.
  intros V. unfold decode_body_l, decode_body. apply mbind_same; [reflexivity|]. intros [r1 sg] w2. destruct (negb _); [reflexivity|].
  apply mbind_same; [reflexivity|]. intros [r2 rs] w3. destruct (negb _); [reflexivity|].
  apply mbind_same; [reflexivity|]. intros [r3 c3] w4. destruct (negb _); [reflexivity|].
  apply mbind_same; [reflexivity|]. intros [r4 c4] w5. destruct (negb _); [reflexivity|].
  apply mbind_same; [|reflexivity]. rewrite V. reflexivity.
Qed.
Lemma decode_everywhere l p e dp vn cn ln w :
  (forall cs n res, validate_claims_l l p e dp cs n res = l8w8jwt_validate_claims p e dp cs n res) ->
  l8w8jwt_decode_l l p e (Some dp) vn cn ln w = l8w8jwt_decode p e (Some dp) vn cn ln w.
Proof.
  intros V. unfold l8w8jwt_decode_l, l8w8jwt_decode. destruct (cn && negb ln); [reflexivity|]. cbv zeta. destruct (negb _); [reflexivity|].
  destruct (negb vn); [reflexivity|]. apply mbind_same; [reflexivity|]. intros [claims|] w1; [|reflexivity].
  apply mbind_same; [apply body_everywhere, V|reflexivity].
Qed.
Lemma raw_everywhere l p e dp vn hn hl pn pl sn sl w :
  (forall cs n res, validate_claims_l l p e dp cs n res = l8w8jwt_validate_claims p e dp cs n res) ->
  l8w8jwt_decode_raw_l l p e (Some dp) vn hn hl pn pl sn sl w = l8w8jwt_decode_raw p e (Some dp) vn hn hl pn pl sn sl w.
Proof.
  intros V. unfold l8w8jwt_decode_raw_l, l8w8jwt_decode_raw. destruct (_ || _); [reflexivity|]. cbv zeta. destruct (negb _); [reflexivity|].
  apply mbind_same; [reflexivity|]. intros o w1. apply mbind_same; [|reflexivity]. destruct o as [claims|]; [|reflexivity].
  apply mbind_same; [apply (body_everywhere l p e dp claims w1 V)|reflexivity].
Qed.

(** ** Theorems *)
(** In the "C" locale this is the model of the other files. *)
Theorem C95_c_locale :
  conforms c_locale
  /\ (forall p e params vn cn ln w, l8w8jwt_decode_l c_locale p e params vn cn ln w = l8w8jwt_decode p e params vn cn ln w)
  /\ forall p e params vn hn hl pn pl sn sl w,
       l8w8jwt_decode_raw_l c_locale p e params vn hn hl pn pl sn sl w = l8w8jwt_decode_raw p e params vn hn hl pn pl sn sl w.
Proof.
  assert (V : forall p e dp cs n res, validate_claims_l c_locale p e dp cs n res = l8w8jwt_validate_claims p e dp cs n res).
  { intros p e dp cs n res.
    unfold validate_claims_l, l8w8jwt_validate_claims. cbv zeta. do 4 (apply bind_same; [reflexivity|intros ?]).
    assert (T : forall name now f, time_check_l c_locale cs n name now f = time_check cs n name now f).
    { intros name now f. unfold time_check_l, time_check. apply bind_same; [reflexivity|]. intros [c|]; [|reflexivity].
      apply bind_same; [reflexivity|]. intros x. apply bind_same; [reflexivity|]. intros m. rewrite strtoll_c. reflexivity. }
    do 3 (apply bind_same; [rewrite T; reflexivity|intros ?]).
    unfold flag_if. destruct (negb (is_null (dp_validate_typ dp))); [|reflexivity]. apply bind_same; [|reflexivity].
    unfold typ_check_l, typ_check. apply bind_same; [reflexivity|]. intros [c|]; [|reflexivity]. apply bind_same; [|reflexivity].
    unfold l8w8jwt_strncmpic_l, l8w8jwt_strncmpic. destruct (c_value c); [reflexivity|]. destruct (dp_validate_typ dp); [reflexivity|]. apply loop_c. }
  split.
  - split; [|split; [|split]].
    + intros c _ H. unfold c_locale, lo_lower, ascii_lower. destruct (_ && _) eqn:E; [lia|reflexivity].
    + intros c H. exact H.
    + apply digit_not_space.
    + reflexivity.
  - split.
    + intros p e [dp|] vn cn ln w; [|reflexivity]. apply decode_everywhere, V.
    + intros p e [dp|] vn hn hl pn pl sn sl w; [|reflexivity]. apply raw_everywhere, V.
Qed.
Print Assumptions C95_c_locale.

(** If neither the type nor a date is asked about, the locale, whatever it does, has no part in decoding. *)
Theorem C95_not_asked :
  forall l p e dp,
    dp_validate_typ dp = Null -> dp_validate_exp dp = false -> dp_validate_nbf dp = false -> dp_validate_iat dp = false ->
    (forall vn cn ln w, l8w8jwt_decode_l l p e (Some dp) vn cn ln w = l8w8jwt_decode p e (Some dp) vn cn ln w)
    /\ forall vn hn hl pn pl sn sl w,
         l8w8jwt_decode_raw_l l p e (Some dp) vn hn hl pn pl sn sl w = l8w8jwt_decode_raw p e (Some dp) vn hn hl pn pl sn sl w.
Proof.
  intros l p e dp H1 H2 H3 H4.
  assert (V : forall cs n res, validate_claims_l l p e dp cs n res = l8w8jwt_validate_claims p e dp cs n res).
  { intros cs n res. unfold validate_claims_l, l8w8jwt_validate_claims. rewrite H1, H2, H3, H4. reflexivity. }
  split; intros; [apply decode_everywhere|apply raw_everywhere]; exact V.
Qed.
Print Assumptions C95_not_asked.

(** Otherwise a call gives the same result in every locale if the dates asked about are integers and the types have the
    same lower case; calls that fail do so in every locale. *)
Theorem C95_same_verdict_partial :
  forall l p e dp w r w', conforms l ->
    l8w8jwt_decode p e (Some dp) true true true w = Ret r w' ->
    (dr_rc r = L8W8JWT_SUCCESS -> exists kvs, handed_out r kvs /\ unaffected l p dp kvs) ->
    l8w8jwt_decode_l l p e (Some dp) true true true w = Ret r w'.
Proof.
  intros l p e dp w r w' C H U. apply decode_by_validation; [exact H|]. intros id cs n res Hrc Hcl.
  destruct (U Hrc) as (kvs & (b & cs' & E & T) & Ha). rewrite E in Hcl. injection Hcl as -> -> <-.
  assert (L : length kvs = length cs) by (clear - T; induction T; cbn [length]; congruence). rewrite L.
  eapply validate_same_l; eauto.
Qed.
Print Assumptions C95_same_verdict_partial.
(** l8w8jwt_decode_raw, which reads the same claims but hands out none, does the same in both locales then. *)
Theorem C95_same_raw_verdict_partial :
  forall l p e dp w r w', conforms l ->
    l8w8jwt_decode p e (Some dp) true true true w = Ret r w' ->
    (dr_rc r = L8W8JWT_SUCCESS -> exists kvs, handed_out r kvs /\ unaffected l p dp kvs) ->
    forall vn hn hl pn pl sn sl,
      l8w8jwt_decode_raw_l l p e (Some dp) vn hn hl pn pl sn sl w = l8w8jwt_decode_raw p e (Some dp) vn hn hl pn pl sn sl w.
Proof.
  intros l p e dp w r w' C H U vn hn hl pn pl sn sl. eapply raw_by_validation; [exact H|]. intros id cs n res Hrc Hcl.
  destruct (U Hrc) as (kvs & (b & cs' & E & T) & Ha). rewrite E in Hcl. injection Hcl as -> -> <-.
  assert (L : length kvs = length cs) by (clear - T; induction T; cbn [length]; congruence). rewrite L.
  eapply validate_same_l; eauto.
Qed.
Print Assumptions C95_same_raw_verdict_partial.

(** ** It does depend on the locale *)
(** ISO 8859-9 for Turkish: the lower case of I is the dotless i, xfd, and that of the dotted capital, xdd, is i. *)
Definition turkish : locale :=
  Locale (fun c => if Byte.eqb c x49 then xfd else if Byte.eqb c xdd then x69
                   else if ((192 <=? b2n c) && (b2n c <=? 222) && negb (b2n c =? 215))%N then n2b (b2n c + 32) else ascii_lower c)
    is_space (fun _ => None).
(** ISO 8859-1, the no-break space being white space. *)
Definition latin1 : locale :=
  Locale (fun c => if ((192 <=? b2n c) && (b2n c <=? 222) && negb (b2n c =? 215))%N then n2b (b2n c + 32) else ascii_lower c)
    (fun c => is_space c || Byte.eqb c xa0) (fun _ => None).
Lemma turkish_conforms : conforms turkish.
Proof.
  split; [|split; [|split]].
  - intros c H1 H2. unfold turkish, lo_lower. destruct (Byte.eqb c x49) eqn:E1; [apply byte_eqb_eq in E1; subst c; vm_compute in H2; destruct H2; split; discriminate|].
    destruct (Byte.eqb c xdd) eqn:E2; [apply byte_eqb_eq in E2; subst c; vm_compute in H1; discriminate|].
    unfold ascii_lower. repeat (match goal with |- context [if ?b then _ else _] => let E := fresh in destruct b eqn:E; [exfalso; lia|] end). reflexivity.
  - intros c H. exact H.
  - apply digit_not_space.
  - reflexivity.
Qed.
Lemma latin1_conforms : conforms latin1.
Proof.
  split; [|split; [|split]].
  - intros c H1 H2. unfold latin1, lo_lower. unfold ascii_lower. repeat (match goal with |- context [if ?b then _ else _] => let E := fresh in destruct b eqn:E; [exfalso; lia|] end). reflexivity.
  - intros c H. unfold latin1, lo_space. rewrite H. reflexivity.
  - intros c H. unfold latin1, lo_space. rewrite (digit_not_space c H). destruct (Byte.eqb c xa0) eqn:E; [|reflexivity]. apply byte_eqb_eq in E. subst c.
    vm_compute in H. decompose [or] H; discriminate.
  - reflexivity.
Qed.
Definition invite_header : string := "{""alg"":""HS256"",""typ"":""invite""}"%string.
Definition invite_params : dec_params :=
  let tok := signed invite_header alice_payload in
  DecParams (Ptr None (tok ++ [x00])) (N.of_nat (length tok)) 0 Null 0 Null 0 Null 0 Null 0
    false false false 0 0 0 (zstr "secret") 6 (zstr "INVITE") 7.
Definition spaced_payload : string := String.append "{""sub"":""alice"",""exp"":"""%string (String.String (Ascii.ascii_of_N 160) "2000""}"%string).
Definition flags_of (m : res dec_res) : option (Z * option N) := match m with Ret r _ => Some (dr_rc r, dr_valid r) | Undef _ => None end.
Definition raw_flags_of (m : res raw_res) : option (Z * option N) := match m with Ret r _ => Some (rr_rc r, rr_valid r) | Undef _ => None end.
(** A type expected as INVITE: a token with type invite passes in the "C" locale and is flagged in the Turkish one. An
    expiry date, written as a string with a no-break space in front: out of date in the "C" locale, in time in one where
    that is white space. *)
Theorem C95_locale_refuted :
  (exists l p e dp w, conforms l
     /\ flags_of (l8w8jwt_decode p e (Some dp) true true true w) = Some (L8W8JWT_SUCCESS, Some L8W8JWT_VALID)
     /\ flags_of (l8w8jwt_decode_l l p e (Some dp) true true true w) = Some (L8W8JWT_SUCCESS, Some L8W8JWT_TYP_FAILURE)
     /\ raw_flags_of (l8w8jwt_decode_raw_l l p e (Some dp) true true true true true true true w) = Some (L8W8JWT_SUCCESS, Some L8W8JWT_TYP_FAILURE))
  /\ (exists l p e dp w, conforms l
     /\ flags_of (l8w8jwt_decode p e (Some dp) true true true w) = Some (L8W8JWT_SUCCESS, Some L8W8JWT_EXP_FAILURE)
     /\ flags_of (l8w8jwt_decode_l l p e (Some dp) true true true w) = Some (L8W8JWT_SUCCESS, Some L8W8JWT_VALID)
     /\ raw_flags_of (l8w8jwt_decode_raw_l l p e (Some dp) true true true true true true true w) = Some (L8W8JWT_SUCCESS, Some L8W8JWT_VALID)).
Proof.
  split.
  - exists turkish, pe, toy_num, invite_params, we. split; [apply turkish_conforms|]. split; [|split]; vm_compute; reflexivity.
  - exists latin1, pe, toy_num, (verdict_params (signed plain_header spaced_payload)), we. split; [apply latin1_conforms|]. split; [|split]; vm_compute; reflexivity.
Qed.
Print Assumptions C95_locale_refuted.

(** ** A case: an ordinary token, type and expiry checked, in both of these locales. *)
Example C95_case :
  forall l, In l [turkish; latin1] ->
  let dp := verdict_params (signed plain_header alice_payload) in
  conforms l /\ exists r w' kvs, l8w8jwt_decode pe toy_num (Some dp) true true true we = Ret r w' /\ dr_valid r = Some L8W8JWT_VALID
    /\ handed_out r kvs /\ unaffected l pe dp kvs.
Proof.
  intros l Hl dp. split; [destruct Hl as [<-|[<-|[]]]; [apply turkish_conforms|apply latin1_conforms]|].
  do 2 eexists. exists [(lit "alg", lit "HS256"); (lit "typ", lit "JWT"); (lit "sub", lit "alice"); (lit "exp", lit "2000")].
  split; [vm_compute; reflexivity|]. split; [reflexivity|]. split; [told_pairs|]. split.
  - intros name v [(-> & _)|[(_ & C)|(_ & C)]]; [|discriminate C|discriminate C]. intros E. cbn in E. injection E as <-.
    exists [], (lit "2000"). split; [left; reflexivity|]. split; [|reflexivity]. apply JI_pos; [vm_compute; tauto|discriminate|]. repeat constructor; vm_compute; tauto.
  - intros b m v Et Ev. cbn in Et. injection Et as _ <-. cbn in Ev. injection Ev as <-.
    destruct Hl as [<-|[<-|[]]]; split; repeat constructor.
Qed.
