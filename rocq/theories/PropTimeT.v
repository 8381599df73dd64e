(** * Properties C97 and C98: the type of the clock, and a clock that cannot be read *)
From Verif Require Import Base BaseProofs HeapProofs Util UtilProofs Claim Base64 SpecB64
  Base64EncProofs Base64EncApi Base64DecProofs Base64Api Jsmn Env Encode Decode SpecJson SpecJwa ClaimProofs UnescapeProofs
  EncodeProofs SignProofs EncodeTotal SpecEnc JsonProofs PropEncode DecodeProofs DecodeInv JsmnProofs ParseProofs
  PropClaim ReadProofs ValidateProofs JsmnJson JsmnSize PropVerify PropValidate PropLeak PropJson DecodeTotal DecodeOk PropSafe
  PropRoundTrip PropIssued PropTime PropVerdict Examples PropEncMemory PropPrograms Walk Exact Complete PropComplete PropRules
  EncComplete PropEncComplete PropUnclosed Tests Locale PropLocale TimeT.
From Coq Require Import ZifyBool ZifyNat ZifyN.
Ltac Zify.zify_post_hook ::= Z.div_mod_to_equations.
Local Opaque L8W8JWT_MAX_KEY_SIZE.

(** ** What is asked of the clock *)
(** The type can hold the present time with the tolerances of the checks asked for subtracted or added. *)
Definition clock_holds (t : time_type) (e : env) (dp : dec_params) : Prop :=
  forall c, time_requested dp c = true -> (time_min t <= limit e dp c <= time_max t)%Z /\ (I64_MIN <= limit e dp c <= I64_MAX)%Z.
(** The first claim that starts with the name of a date asked for is a decimal number not below zero. *)
Definition dates_unsigned (dp : dec_params) (kvs : list (bytes * bytes)) : Prop :=
  forall c v, time_requested dp c = true -> lookup_prefix (time_name c) kvs = Some v ->
    exists z, ValidateProofs.decimal v z /\ (0 <= z)%Z.

(** ** Lemmas *)
Lemma arith_same t z : (time_min t <= z <= time_max t)%Z -> (I64_MIN <= z <= I64_MAX)%Z -> time_arith t z = i64 z.
Proof.
  intros H1 H2. unfold i64. replace ((I64_MIN <=? z)%Z && (z <=? I64_MAX)%Z) with true by lia.
  destruct t; cbn [time_arith]; [replace (_ && _) with true by lia; reflexivity|replace (_ && _) with true by lia; reflexivity| |];
    cbn [time_min time_max] in H1; f_equal; apply Z.mod_small; lia.
Qed.
Lemma arith_int64 z : time_arith Int64 z = i64 z.
Proof. reflexivity. Qed.
Lemma bodies_everywhere t p e dp claims w :
  (forall cs n res, validate_claims_t t p e dp cs n res = l8w8jwt_validate_claims p e dp cs n res) ->
  decode_body_t t p e dp claims w = decode_body p e dp claims w.
Proof.
  intros V. unfold decode_body_t, decode_body. apply mbind_same; [reflexivity|]. intros [r1 sg] w2. destruct (negb _); [reflexivity|].
  apply mbind_same; [reflexivity|]. intros [r2 rs] w3. destruct (negb _); [reflexivity|].
  apply mbind_same; [reflexivity|]. intros [r3 c3] w4. destruct (negb _); [reflexivity|].
  apply mbind_same; [reflexivity|]. intros [r4 c4] w5. destruct (negb _); [reflexivity|].
  apply mbind_same; [|reflexivity]. rewrite V. reflexivity.
Qed.
Lemma decode_t_everywhere t p e dp vn cn ln w :
  (forall cs n res, validate_claims_t t p e dp cs n res = l8w8jwt_validate_claims p e dp cs n res) ->
  l8w8jwt_decode_t t p e (Some dp) vn cn ln w = l8w8jwt_decode p e (Some dp) vn cn ln w.
Proof.
  intros V. unfold l8w8jwt_decode_t, l8w8jwt_decode. destruct (cn && negb ln); [reflexivity|]. cbv zeta. destruct (negb _); [reflexivity|].
  destruct (negb vn); [reflexivity|]. apply mbind_same; [reflexivity|]. intros [claims|] w1; [|reflexivity].
  apply mbind_same; [apply bodies_everywhere, V|reflexivity].
Qed.
Lemma raw_t_everywhere t p e dp vn hn hl pn pl sn sl w :
  (forall cs n res, validate_claims_t t p e dp cs n res = l8w8jwt_validate_claims p e dp cs n res) ->
  l8w8jwt_decode_raw_t t p e (Some dp) vn hn hl pn pl sn sl w = l8w8jwt_decode_raw p e (Some dp) vn hn hl pn pl sn sl w.
Proof.
  intros V. unfold l8w8jwt_decode_raw_t, l8w8jwt_decode_raw. destruct (_ || _); [reflexivity|]. cbv zeta. destruct (negb _); [reflexivity|].
  apply mbind_same; [reflexivity|]. intros o w1. apply mbind_same; [|reflexivity]. destruct o as [claims|]; [|reflexivity].
  apply mbind_same; [apply (bodies_everywhere t p e dp claims w1 V)|reflexivity].
Qed.
(** What a call that succeeds has validated; and what becomes of it with another type. *)
Lemma validated p e dp w r w' : l8w8jwt_decode p e (Some dp) true true true w = Ret r w' -> dr_rc r = L8W8JWT_SUCCESS ->
  exists id cs n rs v, dr_claims r = Some (CArr (Some id) cs, n)
    /\ l8w8jwt_validate_claims p e dp (CArr (Some id) cs) n rs = OK v
    /\ (forall t u, validate_claims_t t p e dp (CArr (Some id) cs) n rs = KO u -> l8w8jwt_decode_t t p e (Some dp) true true true w = Undef u)
    /\ forall t, validate_claims_t t p e dp (CArr (Some id) cs) n rs = l8w8jwt_validate_claims p e dp (CArr (Some id) cs) n rs ->
         l8w8jwt_decode_t t p e (Some dp) true true true w = Ret r w'
         /\ forall vn hn hl pn pl sn sl,
              l8w8jwt_decode_raw_t t p e (Some dp) vn hn hl pn pl sn sl w = l8w8jwt_decode_raw p e (Some dp) vn hn hl pn pl sn sl w.
Proof.
  intros H Hrc. pose proof H as H0. unfold l8w8jwt_decode in H. cbn [andb negb] in H.
  destruct (Z.eqb_spec (l8w8jwt_validate_decoding_params p (Some dp)) L8W8JWT_SUCCESS) as [Hv|Hv]; cbn [negb] in H; cbv iota in H.
  2:{ exfalso. apply Hv. rewrite <- Hrc. unfold mret in H. assert (E : r = DecRes (l8w8jwt_validate_decoding_params p (Some dp)) None None) by congruence. rewrite E. reflexivity. }
  destruct (cb_init claim w) as [[claims|] w1|u] eqn:Ec; [|unfold mbind in H; rewrite Ec in H; destruct (free_claims_buffer p None w1); [|discriminate]; unfold mret in H; injection H as <- _; discriminate Hrc|unfold mbind in H; rewrite Ec in H; discriminate].
  rewrite (mbind_at _ _ _ _ _ Ec) in H. cbv iota beta in H.
  minvas H as st w2 H1. minvas H as u1 w3 H2. minvas H as u2 w4 H3. minvas H as u3 w5 H4. minvas H as u4 w6 H5. cbn [orb] in H5.
  assert (Er : r = DecRes (ds_rc st) (Some (if (ds_rc st =? L8W8JWT_SUCCESS)%Z then ds_res st else NOT_VALID))
               (if (ds_rc st =? L8W8JWT_SUCCESS)%Z && true && true then Some (CArr (Some (cb_id (ds_claims st))) (cb_elems (ds_claims st)), cb_len (ds_claims st)) else None))
    by (unfold mret in H; congruence).
  clear H2 H3 H4 H5 H. assert (Ecl : dr_claims r = Some (CArr (Some (cb_id (ds_claims st))) (cb_elems (ds_claims st)), cb_len (ds_claims st)))
    by (rewrite Er in Hrc |- *; cbn [dr_rc dr_claims] in Hrc |- *; rewrite Hrc; reflexivity).
  assert (Hst : ds_rc st = L8W8JWT_SUCCESS) by (rewrite Er in Hrc; exact Hrc). clear Er Hrc. rename Hst into Hrc.
  (* the stretch between the buffer and the exit *)
  assert (G : exists rs v, l8w8jwt_validate_claims p e dp (CArr (Some (cb_id (ds_claims st))) (cb_elems (ds_claims st))) (cb_len (ds_claims st)) rs = OK v
    /\ forall t, (forall u, validate_claims_t t p e dp (CArr (Some (cb_id (ds_claims st))) (cb_elems (ds_claims st))) (cb_len (ds_claims st)) rs = KO u ->
                    decode_body_t t p e dp claims w1 = Undef u)
              /\ (validate_claims_t t p e dp (CArr (Some (cb_id (ds_claims st))) (cb_elems (ds_claims st))) (cb_len (ds_claims st)) rs = OK v ->
                    decode_body_t t p e dp claims w1 = decode_body p e dp claims w1)).
  { clear Ecl H0. unfold decode_body in H1. unfold decode_body_t, decode_body. unfold mbind in H1 |- *.
    destruct (l8w8jwt_decode_segments p dp w1) as [[r1 sg] wa|u]; [|discriminate]. destruct (negb (r1 =? L8W8JWT_SUCCESS)%Z) eqn:E1.
    { exfalso. unfold mret in H1. injection H1 as <- _. cbn in Hrc. subst r1. discriminate E1. }
    destruct (l8w8jwt_verify_signature p e dp L8W8JWT_VALID (s_ptr (sg_signature sg)) (s_len (sg_signature sg)) wa) as [[r2 rs] wb|u]; [|discriminate].
    destruct (negb (r2 =? L8W8JWT_SUCCESS)%Z) eqn:E2. { exfalso. unfold mret in H1. injection H1 as <- _. cbn in Hrc. subst r2. discriminate E2. }
    destruct (l8w8jwt_parse_claims p e claims (s_ptr (sg_header sg)) (s_len (sg_header sg)) wb) as [[r3 c3] wc|u]; [|discriminate].
    destruct (negb (r3 =? L8W8JWT_SUCCESS)%Z) eqn:E3. { exfalso. unfold mret in H1. injection H1 as <- _. discriminate Hrc. }
    destruct (l8w8jwt_parse_claims p e c3 (s_ptr (sg_payload sg)) (s_len (sg_payload sg)) wc) as [[r4 c4] wd|u]; [|discriminate].
    destruct (negb (r4 =? L8W8JWT_SUCCESS)%Z) eqn:E4. { exfalso. unfold mret in H1. injection H1 as <- _. discriminate Hrc. }
    unfold lift in H1 |- *. destruct (l8w8jwt_validate_claims p e dp (CArr (Some (cb_id c4)) (cb_elems c4)) (cb_len c4) rs) as [v|u] eqn:Ev; [|discriminate].
    unfold mret in H1. injection H1 as <- <-. cbn [ds_claims]. exists rs, v. split; [exact Ev|]. intros t. split; [intros u Eu; rewrite Eu; reflexivity|intros Eu; rewrite Eu; reflexivity]. }
  destruct G as (rs & v & Ev & G). exists (cb_id (ds_claims st)), (cb_elems (ds_claims st)), (cb_len (ds_claims st)), rs, v.
  split; [exact Ecl|]. split; [exact Ev|]. split.
  - intros t u Eu. destruct (G t) as [G1 _]. unfold l8w8jwt_decode_t. cbn [andb negb]. rewrite Hv. change (negb (L8W8JWT_SUCCESS =? L8W8JWT_SUCCESS)%Z) with false. cbv iota.
    rewrite (mbind_at _ _ _ _ _ Ec). cbv iota beta. unfold mbind. rewrite (G1 u Eu). reflexivity.
  - intros t Et. destruct (G t) as [_ G2]. rewrite Ev in Et. specialize (G2 Et). split.
    + rewrite <- H0. unfold l8w8jwt_decode_t, l8w8jwt_decode. cbn [andb negb]. rewrite Hv. change (negb (L8W8JWT_SUCCESS =? L8W8JWT_SUCCESS)%Z) with false. cbv iota.
      rewrite !(mbind_at _ _ _ _ _ Ec). unfold mbind. rewrite G2. reflexivity.
    + intros vn hn hl pn pl sn sl. change (decode_body_t t p e dp claims w1) with (decode_raw_body_t t p e dp claims w1) in G2.
      change (decode_body p e dp claims w1) with (decode_raw_body p e dp claims w1) in G2.
      unfold l8w8jwt_decode_raw_t, l8w8jwt_decode_raw. destruct (_ || _); [reflexivity|]. cbv zeta. rewrite Hv. change (negb (L8W8JWT_SUCCESS =? L8W8JWT_SUCCESS)%Z) with false. cbv iota.
      rewrite !(mbind_at _ _ _ _ _ Ec). unfold mbind. rewrite G2. reflexivity.
Qed.

(** ** Theorems *)
(** With 64 bits and a sign this is the model of the other files. *)
Theorem C97_int64 :
  (forall p e params vn cn ln w, l8w8jwt_decode_t Int64 p e params vn cn ln w = l8w8jwt_decode p e params vn cn ln w)
  /\ forall p e params vn hn hl pn pl sn sl w,
       l8w8jwt_decode_raw_t Int64 p e params vn hn hl pn pl sn sl w = l8w8jwt_decode_raw p e params vn hn hl pn pl sn sl w.
Proof.
  split; [intros p e [dp|] vn cn ln w; [|reflexivity]; apply decode_t_everywhere; reflexivity|].
  intros p e [dp|] vn hn hl pn pl sn sl w; [|reflexivity]. apply raw_t_everywhere. reflexivity.
Qed.
Print Assumptions C97_int64.

(** Any other type makes no difference, for any call, if it can hold the times compared; unless it is unsigned and as wide
    as the dates are. *)
Theorem C97_same :
  forall t p e dp, t <> UInt64 -> clock_holds t e dp ->
    (forall vn cn ln w, l8w8jwt_decode_t t p e (Some dp) vn cn ln w = l8w8jwt_decode p e (Some dp) vn cn ln w)
    /\ forall vn hn hl pn pl sn sl w,
         l8w8jwt_decode_raw_t t p e (Some dp) vn hn hl pn pl sn sl w = l8w8jwt_decode_raw p e (Some dp) vn hn hl pn pl sn sl w.
Proof.
  intros t p e dp Nt Hc.
  assert (V : forall cs n res, validate_claims_t t p e dp cs n res = l8w8jwt_validate_claims p e dp cs n res).
  { intros cs n res. unfold validate_claims_t, l8w8jwt_validate_claims. cbv zeta. do 4 (apply bind_same; [reflexivity|intros ?]).
    assert (T : forall on name now f fl r, (on = true -> (time_min t <= now <= time_max t)%Z /\ (I64_MIN <= now <= I64_MAX)%Z) ->
      flag_if on (time_check_t t cs n name now f) fl r = flag_if on (time_check cs n name now f) fl r).
    { intros on name now f fl r Hon. unfold flag_if. destruct on; [|reflexivity]. destruct (Hon eq_refl) as [H1 H2].
      apply bind_same; [|reflexivity]. unfold time_check_t, time_check. apply bind_same; [reflexivity|]. intros [c|]; [|reflexivity].
      apply bind_same; [exact (arith_same t now H1 H2)|]. intros x. apply bind_same; [reflexivity|]. intros m. apply bind_same; [reflexivity|]. intros v.
      destruct t; [reflexivity|reflexivity|reflexivity|contradiction]. }
    apply bind_same; [apply T; exact (Hc Exp)|intros ?]. apply bind_same; [apply T; exact (Hc Nbf)|intros ?].
    apply bind_same; [apply T; exact (Hc Iat)|intros ?]. reflexivity. }
  split; intros; [apply decode_t_everywhere|apply raw_t_everywhere]; exact V.
Qed.
Print Assumptions C97_same.

(** Nor does that one if the dates in the token are not below zero. *)
Theorem C97_same_unsigned_partial :
  forall p e dp w r w', clock_holds UInt64 e dp ->
    l8w8jwt_decode p e (Some dp) true true true w = Ret r w' -> dr_rc r = L8W8JWT_SUCCESS ->
    (exists kvs, handed_out r kvs /\ dates_unsigned dp kvs) ->
    l8w8jwt_decode_t UInt64 p e (Some dp) true true true w = Ret r w'
    /\ forall vn hn hl pn pl sn sl,
         l8w8jwt_decode_raw_t UInt64 p e (Some dp) vn hn hl pn pl sn sl w = l8w8jwt_decode_raw p e (Some dp) vn hn hl pn pl sn sl w.
Proof.
  intros p e dp w r w' Hc H Hrc (kvs & (b & cs & E & T) & Hd).
  destruct (validated p e dp w r w' H Hrc) as (id & cs' & n & rs & v & E' & Ev & _ & G). rewrite E in E'. injection E' as -> -> <-.
  apply G. clear G Ev. assert (L : length kvs = length cs') by (clear - T; induction T; cbn [length]; congruence). rewrite L.
  unfold validate_claims_t, l8w8jwt_validate_claims. cbv zeta. do 4 (apply bind_same; [reflexivity|intros ?]).
  assert (K : forall c name now f fl x, lit name = time_name c -> no_nul (lit name) -> String.length name = 3%nat -> now = limit e dp c ->
    flag_if (time_requested dp c) (time_check_t UInt64 (CArr (Some id) cs') (N.of_nat (length cs')) name now f) fl x
    = flag_if (time_requested dp c) (time_check (CArr (Some id) cs') (N.of_nat (length cs')) name now f) fl x).
  { intros c name now f fl x Hn Nn Ln ->. unfold flag_if. destruct (time_requested dp c) eqn:Hon; [|reflexivity]. destruct (Hc c Hon) as [H1 H2].
    apply bind_same; [|reflexivity]. unfold time_check_t, time_check. pose proof (get_claim_told (Some id) cs' kvs name T Nn Ln) as Gc.
    destruct (value_of (prefixb (lit name)) kvs) as [y|] eqn:Ey; [|rewrite Gc; reflexivity].
    destruct Gc as (cl & k & Gc & (_ & _ & (vb & vr & Evl) & _) & _). rewrite Gc. cbn [ubind]. rewrite Evl. cbn [deref].
    apply bind_same; [exact (arith_same UInt64 _ H1 H2)|]. intros q. cbn [ubind].
    destruct (Hd c y Hon) as (z & Hz & Pz); [unfold lookup_prefix; rewrite <- Hn; exact Ey|].
    rewrite (strtoll_decimal _ _ vr Hz). cbn [ubind]. do 2 f_equal. cbn [time_other]. apply Z.mod_small. unfold clamp64, I64_MIN, I64_MAX. lia. }
  assert (Nn : forall s, forallb (fun c => negb (is_nul c)) (lit s) = true -> no_nul (lit s)).
  { intros s Hs Hin. rewrite forallb_forall in Hs. specialize (Hs _ Hin). discriminate. }
  apply bind_same; [apply (K Exp); [reflexivity|apply Nn; reflexivity|reflexivity|reflexivity]|intros ?].
  apply bind_same; [apply (K Nbf); [reflexivity|apply Nn; reflexivity|reflexivity|reflexivity]|intros ?].
  apply bind_same; [apply (K Iat); [reflexivity|apply Nn; reflexivity|reflexivity|reflexivity]|intros ?]. reflexivity.
Qed.
Print Assumptions C97_same_unsigned_partial.

(** In the last seconds of a clock of 32 bits (in 2038), as many as the tolerance for nbf has, decoding any token with such a
    claim is undefined. *)
Theorem C97_last_seconds :
  forall p e dp w r w' kvs v, (255 <= e_time e <= time_max Int32)%Z -> (dp_exp_tolerance dp <= 255)%N ->
    dp_validate_nbf dp = true -> (time_max Int32 < e_time e + Z.of_N (dp_nbf_tolerance dp))%Z ->
    l8w8jwt_decode p e (Some dp) true true true w = Ret r w' -> dr_rc r = L8W8JWT_SUCCESS ->
    handed_out r kvs -> lookup_prefix (lit "nbf") kvs = Some v ->
    l8w8jwt_decode_t Int32 p e (Some dp) true true true w = Undef SignedOverflow.
Proof.
  intros p e dp w r w' kvs v Ht Hx Hn Ho H Hrc (b & cs & E & T) Hv.
  destruct (validated p e dp w r w' H Hrc) as (id & cs' & n & rs & y & E' & Ev & G & _). rewrite E in E'. injection E' as -> -> <-.
  apply G. clear G. assert (L : length kvs = length cs') by (clear - T; induction T; cbn [length]; congruence). rewrite L in *. clear L.
  assert (B : (- 2 ^ 31 = -2147483648 /\ 2 ^ 31 - 1 = 2147483647)%Z) by (split; reflexivity).
  assert (Nn : no_nul (lit "nbf")) by (intros [C|[C|[C|[]]]]; discriminate C).
  pose proof (get_claim_told (Some id) cs' kvs "nbf"%string T Nn eq_refl) as Gc. unfold lookup_prefix in Hv.
  change (value_of (prefixb (lit "nbf")) kvs = Some v) in Hv. rewrite Hv in Gc. destruct Gc as (cl & k & Gc & _).
  unfold validate_claims_t, l8w8jwt_validate_claims in *. cbv zeta in *.
  do 4 (match type of Ev with ubind ?m _ = OK _ => destruct m; [|discriminate Ev] end; cbn [ubind] in Ev |- *).
  assert (Ex : time_check_t Int32 (CArr (Some id) cs') (N.of_nat (length cs')) "exp" (e_time e - Z.of_N (dp_exp_tolerance dp))%Z (fun now v => (v <? now)%Z)
             = time_check (CArr (Some id) cs') (N.of_nat (length cs')) "exp" (e_time e - Z.of_N (dp_exp_tolerance dp))%Z (fun now v => (v <? now)%Z)).
  { unfold time_check_t, time_check. apply bind_same; [reflexivity|]. intros [c|]; [|reflexivity]. apply bind_same; [|reflexivity].
    apply arith_same; unfold time_min, time_max, I64_MIN, I64_MAX in *; lia. }
  rewrite Ex. match type of Ev with ubind ?m _ = OK _ => destruct m; [|discriminate Ev] end. cbn [ubind].
  rewrite Hn. unfold flag_if at 1. unfold time_check_t at 1. rewrite Gc. cbn [ubind].
  assert (Ea : time_arith Int32 (e_time e + Z.of_N (dp_nbf_tolerance dp))%Z = KO SignedOverflow).
  { cbn [time_arith]. replace (_ && _) with false by (unfold time_min, time_max in *; lia). reflexivity. }
  rewrite Ea. reflexivity.
Qed.
Print Assumptions C97_last_seconds.

(** ** The type does matter *)
(** One token in time, with a tolerance of 60 seconds, and the verdicts in the last minute of a signed clock of 32 bits, and
    in the first one of an unsigned clock; and a token that expired before 1970, for ever valid with an unsigned one. *)
Definition minute_params (pl : string) (exp nbf : bool) : dec_params := time_params pl exp nbf 60.
Arguments minute_params pl%string_scope exp nbf.
Definition verdict_at (t : time_type) (now : Z) (dp : dec_params) : option (Z * option N) :=
  flags_of (l8w8jwt_decode_t t pe (with_clock toy_num now) (Some dp) true true true we).
Theorem C97_type_refuted :
  (verdict_at Int64 2147483600 (minute_params "{""nbf"":1000}" false true) = Some (L8W8JWT_SUCCESS, Some L8W8JWT_VALID)
   /\ l8w8jwt_decode_t Int32 pe (with_clock toy_num 2147483600) (Some (minute_params "{""nbf"":1000}" false true)) true true true we = Undef SignedOverflow)
  /\ (verdict_at Int64 30 (minute_params "{""exp"":2000}" true false) = Some (L8W8JWT_SUCCESS, Some L8W8JWT_VALID)
      /\ verdict_at UInt32 30 (minute_params "{""exp"":2000}" true false) = Some (L8W8JWT_SUCCESS, Some L8W8JWT_EXP_FAILURE))
  /\ (verdict_at Int64 1000000 (minute_params "{""exp"":-1}" true false) = Some (L8W8JWT_SUCCESS, Some L8W8JWT_EXP_FAILURE)
      /\ verdict_at UInt64 1000000 (minute_params "{""exp"":-1}" true false) = Some (L8W8JWT_SUCCESS, Some L8W8JWT_VALID)).
Proof. split; [|split]; split; vm_compute; reflexivity. Qed.
Print Assumptions C97_type_refuted.

(** Each hypothesis is met: a clock of 32 bits in 2026, a tolerance of a minute, all three dates checked; and a token read in
    the last minute. *)
Lemma a_date s : In s [lit "2000000000"; lit "1000"] -> exists z, ValidateProofs.decimal s z /\ (0 <= z)%Z.
Proof.
  intros Hs. exists (Z.of_N (dec_value s)). split; [|lia]. apply D_pos. destruct Hs as [<-|[<-|[]]]; (split; [discriminate|]); cbn; repeat apply Forall_cons; try apply Forall_nil; vm_compute; tauto.
Qed.
Ltac ran m := let x := eval vm_compute in m in match x with Ret ?r ?w => exists r, w end.
Example C97_case :
  let dp := minute_params "{""exp"":2000000000,""nbf"":1000}" true true in
  let e := with_clock toy_num 1790000000 in
  (forall t, clock_holds t e dp)
  /\ (forall t, verdict_at t 1790000000 dp = Some (L8W8JWT_SUCCESS, Some L8W8JWT_VALID))
  /\ (exists r w' kvs, l8w8jwt_decode pe e (Some dp) true true true we = Ret r w' /\ dr_rc r = L8W8JWT_SUCCESS
        /\ handed_out r kvs /\ dates_unsigned dp kvs)
  /\ exists r w' kvs, l8w8jwt_decode pe (with_clock toy_num 2147483600) (Some dp) true true true we = Ret r w' /\ dr_rc r = L8W8JWT_SUCCESS
       /\ handed_out r kvs /\ lookup_prefix (lit "nbf") kvs = Some (lit "1000").
Proof.
  intros dp e. split; [|split; [|split]].
  - intros t c Hc. destruct c; cbn in Hc; [| |discriminate Hc]; destruct t; vm_compute; split; split; discriminate.
  - intros t. destruct t; vm_compute; reflexivity.
  - ran (l8w8jwt_decode pe e (Some dp) true true true we). exists [(lit "alg", lit "HS256"); (lit "typ", lit "JWT"); (lit "exp", lit "2000000000"); (lit "nbf", lit "1000")].
    split; [vm_compute; reflexivity|]. split; [reflexivity|]. split; [told_pairs|].
    intros c v Hc Hl. apply a_date. destruct c; cbn in Hc; [left|right; left|discriminate Hc]; vm_compute in Hl; injection Hl as <-; reflexivity.
  - ran (l8w8jwt_decode pe (with_clock toy_num 2147483600) (Some dp) true true true we). exists [(lit "alg", lit "HS256"); (lit "typ", lit "JWT"); (lit "exp", lit "2000000000"); (lit "nbf", lit "1000")].
    split; [vm_compute; reflexivity|]. split; [reflexivity|]. split; [told_pairs|reflexivity].
Qed.

(** ** C98: a clock that cannot be read *)
(** time returns -1 then (ISO C 7.27.2.4), which the library takes for a time. *)
Definition unread (e : env) : Prop := e_time e = (-1)%Z.
(** Whatever the expiry date of a token, it is not flagged. *)
Theorem C98_never_expired :
  forall p e dp r v, unread e -> accepted p e dp r v -> dp_validate_exp dp = true -> (dp_exp_tolerance dp <= 255)%N ->
    exists kvs, handed_out r kvs
    /\ forall t z, lookup_prefix (lit "exp") kvs = Some t -> ValidateProofs.decimal t z -> (0 <= z)%Z -> N.testbit v 4 = false.
Proof.
  intros p e dp r v Hu A Hx Ht. unfold unread in Hu.
  destruct (C25_expiry_partial p e dp r v A Hx) as (kvs & Ho & Hf & _); [rewrite Hu; unfold ordinary_time, I64_MIN, I64_MAX; lia|].
  exists kvs. split; [exact Ho|]. intros t z Hl Hz Pz. unfold time_flag_right in Hf. rewrite Hl in Hf. specialize (Hf z Hz). cbn [out_of_time limit] in Hf.
  destruct (N.testbit v 4); [|reflexivity]. pose proof (proj1 Hf eq_refl). lia.
Qed.
Print Assumptions C98_never_expired.
(** Dates from which on a token is good are taken to lie ahead. *)
Theorem C98_not_yet :
  forall p e dp r v, unread e -> accepted p e dp r v -> (dp_nbf_tolerance dp <= 255)%N -> (dp_iat_tolerance dp <= 255)%N ->
    exists kvs, handed_out r kvs
    /\ forall c t z, c = Nbf \/ c = Iat -> time_requested dp c = true -> lookup_prefix (time_name c) kvs = Some t ->
         ValidateProofs.decimal t z -> (255 <= z)%Z -> N.testbit v (time_bit c) = true.
Proof.
  intros p e dp r v Hu A Hn Hi. unfold unread in Hu. destruct (C26_not_before_issued_at_partial p e dp r v A) as (kvs & Ho & G).
  exists kvs. split; [exact Ho|]. intros c t z Hc Hq Hl Hz Pz.
  assert (Lm : (limit e dp c = -1 + Z.of_N (match c with Nbf => dp_nbf_tolerance dp | _ => dp_iat_tolerance dp end))%Z)
    by (destruct Hc as [->| ->]; cbn [limit]; rewrite Hu; reflexivity).
  destruct (G c Hc Hq) as [Hf _]; [rewrite Lm; unfold ordinary_time, I64_MIN, I64_MAX; destruct c; lia|].
  unfold time_flag_right in Hf. rewrite Hl in Hf. apply (Hf z Hz). destruct Hc as [->| ->]; cbn [out_of_time]; rewrite Lm; lia.
Qed.
Print Assumptions C98_not_yet.
(** So a check of the expiry date alone passes, for a token that expired in 1970. *)
Theorem C98_unread_refuted :
  exists p e dp r v, unread e /\ accepted p e dp r v /\ dp_validate_exp dp = true /\ v = L8W8JWT_VALID
    /\ handed_out r [(lit "alg", lit "HS256"); (lit "typ", lit "JWT"); (lit "exp", lit "1")].
Proof.
  assert (X : exists p e dp r v, accepted p e dp r v /\ unread e /\ (dp_validate_exp dp = true /\ v = L8W8JWT_VALID
    /\ handed_out r [(lit "alg", lit "HS256"); (lit "typ", lit "JWT"); (lit "exp", lit "1")])).
  { accept (-1)%Z (time_params "{""exp"":1}" true false 0). split; [reflexivity|]. split; [reflexivity|]. split; [reflexivity|told_pairs]. }
  destruct X as (p & e & dp & r & v & A & B & C). exists p, e, dp, r, v. auto.
Qed.
Print Assumptions C98_unread_refuted.
Example C98_case :
  exists p e dp r v, accepted p e dp r v /\ (unread e /\ dp_validate_nbf dp = true /\ dp_validate_exp dp = true /\ v = L8W8JWT_NBF_FAILURE
    /\ handed_out r [(lit "alg", lit "HS256"); (lit "typ", lit "JWT"); (lit "exp", lit "5000"); (lit "nbf", lit "1000")]).
Proof.
  accept (-1)%Z (time_params "{""exp"":5000,""nbf"":1000}" true true 60).
  split; [reflexivity|]. split; [reflexivity|]. split; [reflexivity|]. split; [reflexivity|told_pairs].
Qed.
