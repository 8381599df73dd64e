(** * Property C84: the key influences the signature and its verification, nothing else *)
From Verif Require Import Base BaseProofs HeapProofs Util UtilProofs Claim Base64 SpecB64
  Base64EncProofs Base64EncApi Base64DecProofs Base64Api Jsmn Env Encode Decode SpecJson SpecJwa ClaimProofs UnescapeProofs
  EncodeProofs SignProofs EncodeTotal SpecEnc JsonProofs PropEncode DecodeProofs DecodeInv JsmnProofs ParseProofs
  PropClaim ReadProofs ValidateProofs JsmnJson JsmnSize PropVerify PropValidate PropTime PropLeak PropJson DecodeTotal DecodeOk
  OverRead PropSafe PropRoundTrip PropOverRead SimProofs PropHistory LocalProofs.
From Coq Require Import ZifyBool ZifyNat ZifyN.
Ltac Zify.zify_post_hook ::= Z.div_mod_to_equations.
Local Opaque L8W8JWT_MAX_KEY_SIZE.

(** ** Notions *)
(** The same JSON tokenizer and number checker (and the same leftovers in its token array); keys, hashes,
    signatures and clock may be others. *)
Definition same_reader (e e' : env) : Prop :=
  e_jsmn e = e_jsmn e' /\ e_tok_junk e = e_tok_junk e' /\ e_checknum e = e_checknum e'.
(** The same text is decoded. *)
Definition same_jwt (dp dp' : dec_params) : Prop :=
  dp_jwt dp = dp_jwt dp' /\ dp_jwt_length dp = dp_jwt_length dp'.
(** The same token is asked for: everything but key, password and the answers' places is the same. *)
Definition same_request (ep ep' : enc_params) : Prop :=
  ep_alg ep = ep_alg ep' /\ ep_iss ep = ep_iss ep' /\ ep_iss_length ep = ep_iss_length ep'
  /\ ep_sub ep = ep_sub ep' /\ ep_sub_length ep = ep_sub_length ep'
  /\ ep_aud ep = ep_aud ep' /\ ep_aud_length ep = ep_aud_length ep'
  /\ ep_jti ep = ep_jti ep' /\ ep_jti_length ep = ep_jti_length ep'
  /\ ep_exp ep = ep_exp ep' /\ ep_nbf ep = ep_nbf ep' /\ ep_iat ep = ep_iat ep'
  /\ ep_header_claims ep = ep_header_claims ep' /\ ep_header_claims_count ep = ep_header_claims_count ep'
  /\ ep_payload_claims ep = ep_payload_claims ep' /\ ep_payload_claims_count ep = ep_payload_claims_count ep'.

(** ** Reading the claims *)
Section Reader.
Variables (p : platform) (e e' : env).
Hypothesis (Hr : same_reader e e').
Lemma claim_type_reader json a r i v : claim_type e json a r i v = claim_type e' json a r i v.
Proof. destruct Hr as (_ & _ & H). unfold claim_type. rewrite H. reflexivity. Qed.
Lemma loop_reader fuel mem a r i c w : claims_loop fuel p e mem a r i c w = claims_loop fuel p e' mem a r i c w.
Proof.
  revert i c w. induction fuel as [|fuel IH]; intros i c w; [reflexivity|]. cbn [claims_loop].
  destruct (negb _); [reflexivity|]. apply bind_cong; [reflexivity|]. intros key w1 _. cbv zeta.
  apply bind_cong; [reflexivity|]. intros value w2 _. destruct (_ || _); [reflexivity|].
  apply bind_cong; [rewrite claim_type_reader; reflexivity|]. intros [[ty j]|] w3 _; [|reflexivity].
  apply bind_cong; [reflexivity|]. intros km w4 _. apply bind_cong; [reflexivity|]. intros vm w5 _.
  apply bind_cong; [reflexivity|]. intros [ur [d|]] w6 _; [|reflexivity].
  apply bind_cong; [reflexivity|]. intros c1 w7 _. apply IH.
Qed.
Lemma parse_reader c q n w : l8w8jwt_parse_claims p e c q n w = l8w8jwt_parse_claims p e' c q n w.
Proof.
  destruct Hr as (H1 & H2 & _).
  unfold l8w8jwt_parse_claims. apply bind_cong; [reflexivity|]. intros mem w1 _. apply bind_cong; [reflexivity|]. intros js w2 _.
  destruct (_ <? _)%Z; [reflexivity|]. cbv zeta. rewrite H1, H2.
  destruct (_ =? 0)%Z; [reflexivity|]. destruct (_ <? 0)%Z; [reflexivity|].
  apply bind_cong; [reflexivity|]. intros [blk|] w3 _; [|reflexivity]. destruct (e_jsmn e' js (Some _)) as [r2 toks].
  destruct (r2 <? 0)%Z; [reflexivity|]. apply bind_cong; [reflexivity|]. intros t0 w4 _.
  apply bind_cong; [destruct (negb _); [reflexivity|apply loop_reader]|]. reflexivity.
Qed.
End Reader.

(** What is read does not depend on the buffer it is put into. *)
Definition into (c x : chillbuff claim) : chillbuff claim := CB (cb_id c) (cb_elems c ++ cb_elems x).
Lemma into_push c x y : into c (CB (cb_id x) (cb_elems x ++ y)) = CB (cb_id (into c x)) (cb_elems (into c x) ++ y).
Proof. unfold into. cbn. rewrite app_assoc. reflexivity. Qed.
Definition puts (c : chillbuff claim) (m m' : M (Z * chillbuff claim)) : Prop :=
  forall w rc y w1, m w = Ret (rc, y) w1 -> exists x, m' w = Ret (rc, x) w1 /\ y = into c x.
Lemma puts_bind {A} c (m : M A) k k' : (forall a, puts c (k a) (k' a)) -> puts c (mbind m k) (mbind m k').
Proof. intros H w rc y w1 E. minvas E as a w2 E1. unfold mbind. rewrite E1. apply H. exact E. Qed.
Lemma puts_ret c rc x : puts c (mret (rc, into c x)) (mret (rc, x)).
Proof. intros w rc1 y w1 E. injection E as <- <- <-. exists x. split; reflexivity. Qed.
Lemma puts_ub c u m : puts c (mub u) m.
Proof. intros w rc y w1 E. discriminate E. Qed.
Lemma puts_then c m m' (g : M unit) : puts c m m' ->
  puts c ('(rc, b) <- m ;; _ <- g ;; mret (rc, b)) ('(rc, b) <- m' ;; _ <- g ;; mret (rc, b)).
Proof.
  intros H w rc y w1 E. minvas E as [rc1 y1] w2 E1. apply H in E1 as (x & E1 & ->). minvas E as u w3 E2.
  injection E as <- <- <-. exists x. split; [|reflexivity]. unfold mbind. rewrite E1, E2. reflexivity.
Qed.
Lemma loop_into p e json a r fuel : forall i c x,
  puts c (claims_loop fuel p e json a r i (into c x)) (claims_loop fuel p e json a r i x).
Proof.
  induction fuel as [|f IH]; intros i c x; [apply puts_ub|]. cbn [claims_loop].
  destruct (negb _); [apply puts_ret|]. apply puts_bind. intros k. cbv zeta. apply puts_bind. intros v.
  destruct (_ || _); [apply puts_ret|]. apply puts_bind. intros [[ty i']|]; [|apply puts_ret].
  apply puts_bind. intros km. apply puts_bind. intros vm. apply puts_bind. intros [ur [d|]]; [|apply puts_ret].
  intros w rc y w1 E. unfold mbind in *. rewrite cb_push_eq in *. destruct (w_grow w (w_pushes w)).
  - rewrite <- into_push in E. apply IH. exact E.
  - apply IH. exact E.
Qed.
Lemma parse_into p e c x q n w rc y w' :
  l8w8jwt_parse_claims p e (into c x) q n w = Ret (rc, y) w' ->
  exists x', l8w8jwt_parse_claims p e x q n w = Ret (rc, x') w' /\ y = into c x'.
Proof.
  revert w rc y w'. change (puts c (l8w8jwt_parse_claims p e (into c x) q n) (l8w8jwt_parse_claims p e x q n)).
  unfold l8w8jwt_parse_claims. apply puts_bind. intros mem. apply puts_bind. intros js.
  destruct (_ <? _)%Z; [apply puts_ub|]. cbv zeta. destruct (_ =? 0)%Z; [apply puts_ret|]. destruct (_ <? 0)%Z; [apply puts_ret|].
  apply puts_bind. intros [blk|]; [|apply puts_ret]. destruct (e_jsmn e js (Some _)) as [r2 toks].
  destruct (r2 <? 0)%Z; [apply puts_ret|]. apply puts_bind. intros t0. apply puts_then.
  destruct (negb _); [apply puts_ret|apply loop_into].
Qed.

(** Two runs over the same text, in different heaps with enough memory, read the same claims. *)
Lemma parse_flow p e e' i l i' l' o o' m n w rc b w1 w' rc' b' w1' :
  same_reader e e' -> wf w -> wf w' -> grows w -> grows w' -> allocs w -> allocs w' ->
  l8w8jwt_parse_claims p e (CB i l) (Ptr o m) n w = Ret (rc, b) w1 ->
  l8w8jwt_parse_claims p e' (CB i' l') (Ptr o' m) n w' = Ret (rc', b') w1' ->
  exists new new', b = CB i (l ++ new) /\ b' = CB i' (l' ++ new') /\ Forall2 same_claim new new'.
Proof.
  intros Hr Hw Hw' Hg Hg' Ha Ha' H H'. rewrite (parse_reader p e e' Hr) in H.
  replace (CB i l) with (into (CB i l) (CB (w_next w) [])) in H by (unfold into; cbn; rewrite app_nil_r; reflexivity).
  replace (CB i' l') with (into (CB i' l') (CB (w_next w') [])) in H' by (unfold into; cbn; rewrite app_nil_r; reflexivity).
  apply parse_into in H as (x & H & ->). apply parse_into in H' as (x' & H' & ->).
  assert (S : wsim (w_next w) (w_next w') (w_pushes w) (w_pushes w') w w').
  { apply start_sim; auto. split; intros k; [rewrite Ha, Ha'|rewrite Hg, Hg']; reflexivity. }
  change (l8w8jwt_parse_claims p e' (CB (w_next w) []) (Ptr None m) n w = Ret (rc, x) w1) in H.
  change (l8w8jwt_parse_claims p e' (CB (w_next w') []) (Ptr None m) n w' = Ret (rc', x') w1') in H'.
  pose proof (parse_claims_sim (w_next w) (w_next w') (w_pushes w) (w_pushes w') p e' (CB (w_next w) []) (CB (w_next w') []) (Ptr None m) (Ptr None m) n) as K.
  assert (K1 : lsim (w_next w) (w_next w') (CB (w_next w) []) (CB (w_next w') [])).
  { split; [exists 0%nat; cbn; lia|constructor]. }
  specialize (K K1 (conj I eq_refl) w w' S). rewrite H, H' in K. destruct K as [[_ [_ K]] _]. cbn [snd] in K.
  exists (cb_elems x), (cb_elems x'). split; [reflexivity|]. split; [reflexivity|].
  clear - K. induction K; constructor; [eapply csim_claim; eassumption|assumption].
Qed.

(** ** Checking the claims *)
Lemma same_count l l' : Forall2 same_claim l l' -> length l = length l'.
Proof. intros H. induction H; cbn; congruence. Qed.
Lemma same_deref q q' : same_object q q' -> deref q = deref q'.
Proof. destruct q, q'; cbn; try contradiction; [reflexivity|intros ->; reflexivity]. Qed.
Lemma get_each_same key kl cs : forall cs' n, Forall2 same_claim cs cs' ->
  usim (opt same_claim) (get_each cs n key kl) (get_each cs' n key kl).
Proof.
  induction cs as [|c cs IH]; intros cs' n H; inversion H as [|? c' ? t' Hc Ht]; subst; cbn [get_each].
  - destruct (n =? 0)%N; reflexivity || exact I.
  - destruct (n =? 0)%N; [exact I|]. rewrite (same_deref _ _ (proj1 Hc)).
    apply usim_same. intros m. apply usim_same. intros r. destruct (r =? 0)%Z; [exact Hc|apply IH; exact Ht].
Qed.
Lemma get_claim_same i i' cs cs' n k kl : Forall2 same_claim cs cs' ->
  usim (opt same_claim) (l8w8jwt_get_claim (CArr i cs) n k kl) (l8w8jwt_get_claim (CArr i' cs') n k kl).
Proof.
  intros H. unfold l8w8jwt_get_claim. destruct k; [exact I|]. destruct (_ || _); [exact I|]. apply get_each_same. exact H.
Qed.
Lemma string_check_same i i' cs cs' n name x xl : Forall2 same_claim cs cs' ->
  string_check (CArr i cs) n name x xl = string_check (CArr i' cs') n name x xl.
Proof.
  intros H. apply usim_eq. unfold string_check. eapply usim_bind; [apply get_claim_same; exact H|].
  intros [c|] [c'|] Hc; cbn in Hc; try contradiction; apply usim_same; intros l; [|reflexivity].
  destruct Hc as (_ & _ & K3 & K4 & _). rewrite K4, (same_deref _ _ K3). apply usim_refl.
Qed.
Lemma time_check_same i i' cs cs' n name now f : Forall2 same_claim cs cs' ->
  time_check (CArr i cs) n name now f = time_check (CArr i' cs') n name now f.
Proof.
  intros H. apply usim_eq. unfold time_check. eapply usim_bind; [apply get_claim_same; exact H|].
  intros [c|] [c'|] Hc; cbn in Hc; try contradiction; [|reflexivity].
  destruct Hc as (_ & _ & K3 & _). rewrite (same_deref _ _ K3). apply usim_refl.
Qed.
Lemma typ_check_same p i i' cs cs' n x xl : Forall2 same_claim cs cs' ->
  typ_check p (CArr i cs) n x xl = typ_check p (CArr i' cs') n x xl.
Proof.
  intros H. apply usim_eq. unfold typ_check. eapply usim_bind; [apply get_claim_same; exact H|].
  intros [c|] [c'|] Hc; cbn in Hc; try contradiction; [|reflexivity].
  destruct Hc as (_ & _ & K3 & _). unfold l8w8jwt_strncmpic.
  destruct (c_value c), (c_value c'); cbn in K3; try contradiction; [|rewrite K3]; apply usim_refl.
Qed.
Lemma validate_same p e dp i i' cs cs' n res : Forall2 same_claim cs cs' ->
  l8w8jwt_validate_claims p e dp (CArr i cs) n res = l8w8jwt_validate_claims p e dp (CArr i' cs') n res.
Proof.
  intros H. unfold l8w8jwt_validate_claims. cbv zeta.
  rewrite !(fun a b c d => string_check_same i i' cs cs' a b c d H).
  rewrite !(fun a b c d => time_check_same i i' cs cs' a b c d H).
  rewrite (fun a b c => typ_check_same p i i' cs cs' a b c H). reflexivity.
Qed.

(** Each flag follows its own request, and for the three time checks the clock. *)
Lemma validate_flag_flow p e e' dp dp' cs n res res' v v' k :
  l8w8jwt_validate_claims p e dp cs n res = OK v -> l8w8jwt_validate_claims p e' dp' cs n res' = OK v' ->
  request_for dp k = request_for dp' k -> (In k [4; 5; 6]%N -> e_time e = e_time e') ->
  N.testbit res k = N.testbit res' k -> N.testbit v k = N.testbit v' k.
Proof.
  intros V W Hr Ht Hres.
  apply validate_claims_inv in V
    as (f1 & f2 & f3 & f4 & f5 & f6 & f7 & f8 & -> & V1 & V2 & V3 & V4 & V5 & V6 & V7 & V8).
  apply validate_claims_inv in W
    as (g1 & g2 & g3 & g4 & g5 & g6 & g7 & g8 & -> & W1 & W2 & W3 & W4 & W5 & W6 & W7 & W8).
  rewrite !lor_flags_testbit, Hres.
  assert (S : forall q n0 q' n' (X : ptr -> N -> U bool) f g, text_request q n0 = text_request q' n' ->
    (if is_null q then f = false else X q n0 = OK f) -> (if is_null q' then g = false else X q' n' = OK g) -> f = g).
  { intros q n0 q' n' X f g E A B. destruct q, q'; cbn in *; try discriminate; [congruence|].
    inversion E; subst. congruence. }
  assert (T : forall (b b' : bool) t t' (X : N -> U bool) f g,
    (if b then Time t else NoRequest) = (if b' then Time t' else NoRequest) ->
    (if b then X t = OK f else f = false) -> (if b' then X t' = OK g else g = false) -> f = g).
  { intros b b' t t' X f g E A B. destruct b, b'; try discriminate; [|congruence]. inversion E; subst. congruence. }
  destruct (N.eqb_spec k 1) as [->|K1]; [cbn [request_for] in Hr; cbn [N.eqb Pos.eqb];
    rewrite (S _ _ _ _ (fun q m => string_check cs n "sub" q m) f1 g1 Hr V1 W1), !andb_false_r; reflexivity|].
  destruct (N.eqb_spec k 2) as [->|K2]; [cbn [request_for] in Hr; cbn [N.eqb Pos.eqb];
    rewrite (S _ _ _ _ (fun q m => string_check cs n "aud" q m) f2 g2 Hr V2 W2), !andb_false_r; reflexivity|].
  destruct (N.eqb_spec k 0) as [->|K0]; [cbn [request_for] in Hr; cbn [N.eqb Pos.eqb];
    rewrite (S _ _ _ _ (fun q m => string_check cs n "iss" q m) f3 g3 Hr V3 W3), !andb_false_r; reflexivity|].
  destruct (N.eqb_spec k 3) as [->|K3]; [cbn [request_for] in Hr; cbn [N.eqb Pos.eqb];
    rewrite (S _ _ _ _ (fun q m => string_check cs n "jti" q m) f4 g4 Hr V4 W4), !andb_false_r; reflexivity|].
  destruct (N.eqb_spec k 4) as [->|K4]; [rewrite <- Ht in * by (cbn; auto); cbn [request_for] in Hr; cbn [N.eqb Pos.eqb];
    rewrite (T _ _ _ _ (fun m => time_check cs n "exp" (e_time e - Z.of_N m)%Z (fun now v => (v <? now)%Z)) f5 g5 Hr V5 W5),
      !andb_false_r; reflexivity|].
  destruct (N.eqb_spec k 5) as [->|K5]; [rewrite <- Ht in * by (cbn; auto); cbn [request_for] in Hr; cbn [N.eqb Pos.eqb];
    rewrite (T _ _ _ _ (fun m => time_check cs n "nbf" (e_time e + Z.of_N m)%Z (fun now v => (now <? v)%Z)) f6 g6 Hr V6 W6),
      !andb_false_r; reflexivity|].
  destruct (N.eqb_spec k 6) as [->|K6]; [rewrite <- Ht in * by (cbn; auto); cbn [request_for] in Hr; cbn [N.eqb Pos.eqb];
    rewrite (T _ _ _ _ (fun m => time_check cs n "iat" (e_time e + Z.of_N m)%Z (fun now v => (now <? v)%Z)) f7 g7 Hr V7 W7),
      !andb_false_r; reflexivity|].
  destruct (N.eqb_spec k 8) as [->|K8]; [cbn [request_for] in Hr; cbn [N.eqb Pos.eqb];
    rewrite (S _ _ _ _ (fun q m => typ_check p cs n q m) f8 g8 Hr V8 W8), !andb_false_r; reflexivity|].
  rewrite !andb_false_r. reflexivity.
Qed.

(** ** The successful path *)
Definition unsigned (dp : dec_params) : dec_params :=
  DecParams (dp_jwt dp) (dp_jwt_length dp) (-1) Null 0 Null 0 Null 0 Null 0 false false false 0 0 0 Null 0 Null 0.
Lemma segments_unsigned p dp sg : segments_ok p dp sg -> segments_ok p (unsigned dp) sg.
Proof.
  intros (b & jwt & E & H). exists b, jwt. split; [exact E|]. destruct H as [H|[_ H]]; [left; exact H|right].
  split; [reflexivity|exact H].
Qed.
Lemma parts_same p dp dp' sg sg' : same_jwt dp dp' -> segments_ok p dp sg -> segments_ok p dp' sg' ->
  seg_bytes (Some (sg_header sg)) = seg_bytes (Some (sg_header sg'))
  /\ seg_bytes (Some (sg_payload sg)) = seg_bytes (Some (sg_payload sg'))
  /\ seg_bytes (Some (sg_signature sg)) = seg_bytes (Some (sg_signature sg')).
Proof.
  intros [E1 E2] H H'. apply segments_unsigned in H, H'. unfold unsigned in *. rewrite <- E1, <- E2 in H'.
  exact (segments_ok_fun _ _ _ _ H H').
Qed.
Lemma segments_heap p dp sg : segments_ok p dp sg ->
  (exists o m, s_ptr (sg_header sg) = Ptr o m) /\ (exists o m, s_ptr (sg_payload sg) = Ptr o m).
Proof.
  intros (b & jwt & E & [(h & pl & rest & n & _ & _ & _ & (i & o & t & _ & ->) & (i2 & o2 & t2 & _ & ->) & _)
    |(_ & h & s & rest & n & _ & _ & _ & _ & _ & _ & _ & (i & o & t & _ & ->) & (i2 & o2 & t2 & _ & ->) & _)]);
    cbn [s_ptr]; (split; do 2 eexists; reflexivity).
Qed.
Lemma seg_same s s' o m : seg_bytes (Some s) = seg_bytes (Some s') -> s_ptr s = Ptr o m -> (exists o' m', s_ptr s' = Ptr o' m') ->
  exists o', s_ptr s' = Ptr o' m /\ s_len s' = s_len s.
Proof. destruct s as [q n], s' as [q' n']. cbn. intros H -> (o' & m' & ->). injection H as -> ->. eauto. Qed.

Lemma bit7 res p e dp q n w w' : wf w -> l8w8jwt_verify_signature p e dp 0 q n w = Ret (0%Z, res) w' ->
  forall k, k <> 7%N -> N.testbit res k = false.
Proof.
  intros Hw H k Hk. apply verify_signature_inv in H as (_ & [(_ & _ & ->)|(b & sig & v & _ & _ & _ & _ & E)]); [apply N.bits_0| |exact Hw].
  destruct v as [x|f]; cbn [verdict_result] in E; [injection E as _ ->; apply N.bits_0|].
  assert (R : res = if f then (2 ^ 7)%N else 0%N) by (injection E as E; rewrite E; destruct f; reflexivity).
  rewrite R. destruct f; [|apply N.bits_0]. rewrite N.pow2_bits_eqb. apply N.eqb_neq. auto.
Qed.

(** Where verification is skipped for one parameter set it is skipped for the other. *)
Lemma sig_skipped p dp dp' sg sg' : segments_ok p dp sg ->
  seg_bytes (Some (sg_signature sg)) = seg_bytes (Some (sg_signature sg')) -> dp_alg dp = dp_alg dp' ->
  dp_alg dp = (-1)%Z \/ s_ptr (sg_signature sg) = Null \/ s_len (sg_signature sg) = 0%N ->
  dp_alg dp' <> (-1)%Z -> s_len (sg_signature sg') <> 0%N -> False.
Proof.
  intros O P Ea D D1 D3. destruct (sg_signature sg) as [q n] eqn:E, (sg_signature sg') as [q' n']. cbn [s_ptr s_len] in *.
  assert (n = n') by (destruct q, q'; cbn in P; congruence). subst n'.
  destruct D as [D|[->|D]]; [congruence| |congruence].
  destruct O as (? & ? & _ & [(? & ? & ? & ? & _ & _ & _ & _ & _ & (? & ? & ? & _ & C))|(C & _)]); [|congruence].
  rewrite E in C. discriminate C.
Qed.

Lemma steps_flow p e e' dp dp' i i' w st w1 w' st' w1' :
  same_reader e e' -> same_jwt dp dp' -> wf w -> wf w' -> grows w -> grows w' -> allocs w -> allocs w' ->
  decode_steps p e dp (CB i []) w st w1 -> decode_steps p e' dp' (CB i' []) w' st' w1' ->
  Forall2 same_claim (cb_elems (ds_claims st)) (cb_elems (ds_claims st'))
  /\ (seg_bytes (Some (sg_header (ds_segs st))) = seg_bytes (Some (sg_header (ds_segs st')))
      /\ seg_bytes (Some (sg_payload (ds_segs st))) = seg_bytes (Some (sg_payload (ds_segs st')))
      /\ seg_bytes (Some (sg_signature (ds_segs st))) = seg_bytes (Some (sg_signature (ds_segs st'))))
  /\ (forall k, k <> 7%N -> request_for dp k = request_for dp' k -> (In k [4; 5; 6]%N -> e_time e = e_time e') ->
        N.testbit (ds_res st) k = N.testbit (ds_res st') k)
  /\ (dp_alg dp = dp_alg dp' -> dp_verification_key dp = dp_verification_key dp' ->
      dp_verification_key_length dp = dp_verification_key_length dp' -> (exists t, e' = at_time e t) ->
        N.testbit (ds_res st) 7 = N.testbit (ds_res st') 7).
Proof.
  intros Hr Ht Hw Hw' Hg Hg' Ha Ha' H H'.
  destruct H as (sg & v1 & res1 & v2 & c1 & v3 & c2 & res2 & H1 & H2 & H3 & H4 & H5 & ->).
  destruct H' as (sg' & v1' & res1' & v2' & c1' & v3' & c2' & res2' & H1' & H2' & H3' & H4' & H5' & ->).
  cbn [ds_claims ds_segs ds_res].
  destruct (decode_segments_inv _ _ _ _ _ _ Hw H1) as (A1 & _ & O1). specialize (O1 eq_refl).
  destruct (decode_segments_inv _ _ _ _ _ _ Hw' H1') as (A1' & _ & O1'). specialize (O1' eq_refl).
  pose proof (parts_same _ _ _ _ _ Ht O1 O1') as P. pose proof P as (P1 & P2 & P3).
  destruct (segments_heap _ _ _ O1) as ((o1 & m1 & Q1) & (o2 & m2 & Q2)). destruct (segments_heap _ _ _ O1') as (Q1' & Q2').
  destruct (seg_same _ _ _ _ P1 Q1 Q1') as (o1' & R1 & L1). destruct (seg_same _ _ _ _ P2 Q2 Q2') as (o2' & R2 & L2). clear Q1' Q2'.
  assert (W1 : wf v1) by (eapply adds_wf; eauto). assert (W1' : wf v1') by (eapply adds_wf; eauto).
  pose proof (adds_later _ _ _ A1) as T1. pose proof (adds_later _ _ _ A1') as T1'.
  pose proof H2 as V2. apply verify_signature_inv in V2 as (U2 & V2); [|exact W1]. pose proof H2' as V2'. apply verify_signature_inv in V2' as (U2' & V2'); [|exact W1'].
  assert (W2 : wf v2) by (eapply wf_quiet; eauto). assert (W2' : wf v2') by (eapply wf_quiet; eauto).
  assert (T2 : later w v2) by (eapply later_trans; [exact T1|apply quiet_later; exact U2]).
  assert (T2' : later w' v2') by (eapply later_trans; [exact T1'|apply quiet_later; exact U2']).
  assert (al : forall a b, later a b -> allocs a -> allocs b) by (intros a b (E & _) X k; rewrite E; apply X).
  rewrite Q1 in H3. rewrite R1, L1 in H3'. rewrite Q2 in H4. rewrite R2, L2 in H4'.
  destruct (parse_flow p e e' i [] i' [] o1 o1' m1 (s_len (sg_header sg)) v2 L8W8JWT_SUCCESS c1 v3 v2' L8W8JWT_SUCCESS c1' v3' Hr W2 W2'
     (grows_later _ _ T2 Hg) (grows_later _ _ T2' Hg') (al _ _ T2 Ha) (al _ _ T2' Ha') H3 H3') as (n1 & n1' & E1 & E1' & F1).
  destruct (parse_claims_inv _ _ _ _ _ _ _ _ _ W2 H3) as (? & ? & ? & ? & _ & _ & (_ & _ & _ & A3) & _).
  destruct (parse_claims_inv _ _ _ _ _ _ _ _ _ W2' H3') as (? & ? & ? & ? & _ & _ & (_ & _ & _ & A3') & _).
  assert (T3 : later w v3) by (eapply later_trans; [exact T2|eapply adds_later; exact A3]).
  assert (T3' : later w' v3') by (eapply later_trans; [exact T2'|eapply adds_later; exact A3']).
  rewrite E1 in H4. rewrite E1' in H4'.
  destruct (parse_flow p e e' i ([] ++ n1) i' ([] ++ n1') o2 o2' m2 (s_len (sg_payload sg)) v3 L8W8JWT_SUCCESS c2 w1 v3' L8W8JWT_SUCCESS c2' w1' Hr
     (adds_wf _ _ _ A3 W2) (adds_wf _ _ _ A3' W2')
     (grows_later _ _ T3 Hg) (grows_later _ _ T3' Hg') (al _ _ T3 Ha) (al _ _ T3' Ha') H4 H4') as (n2 & n2' & E2 & E2' & F2).
  assert (F : Forall2 same_claim (cb_elems c2) (cb_elems c2')).
  { rewrite E2, E2'. cbn [cb_elems app]. apply Forall2_app; assumption. }
  assert (N : cb_len c2 = cb_len c2') by (unfold cb_len; rewrite (same_count _ _ F); reflexivity).
  rewrite (validate_same _ _ _ _ (Some (cb_id c2')) _ _ _ _ F), N in H5.
  split; [exact F|]. split; [exact P|]. split.
  - intros k Hk Rk Tk. eapply validate_flag_flow; [exact H5|exact H5'|exact Rk|exact Tk|].
    rewrite (bit7 _ _ _ _ _ _ _ _ W1 H2 k Hk), (bit7 _ _ _ _ _ _ _ _ W1' H2' k Hk). reflexivity.
  - intros Ea Ek El (t & Et). eapply validate_flag_flow; [exact H5|exact H5'|reflexivity|cbn; intuition discriminate|]. f_equal.
    assert (B : forall sig n, verify_body p e dp sig n = verify_body p e' dp' sig n).
    { intros sig n. destruct Ht as [Ht1 Ht2]. subst e'. destruct dp, dp'. cbn in *. subst. reflexivity. }
    destruct V2 as [(D & _ & ->)|(b & sig & v & D1 & D2 & D3 & D4 & D5)], V2' as [(D' & _ & ->)|(b' & sig' & v' & D1' & D2' & D3' & D4' & D5')].
    + reflexivity.
    + exfalso. apply (sig_skipped p dp dp' sg sg' O1 P3 Ea D D1' D3').
    + exfalso. apply (sig_skipped p dp' dp sg' sg O1' (eq_sym P3) (eq_sym Ea) D' D1 D3).
    + rewrite D2 in H2. destruct (sg_signature sg) as [q n], (sg_signature sg') as [q' n']. cbn [s_ptr s_len] in *. subst q q'.
      cbn in P3. injection P3 as -> ->. rewrite B in D4. rewrite D4 in D4'. injection D4' as <-. congruence.
Qed.

(** ** The token text *)
Lemma encode_parts p e ep w r w' : (6 <= p_size_bits p)%N -> wf w -> grows w -> allocs w ->
  l8w8jwt_encode p e (Some ep) w = Ret r w' -> er_rc r = L8W8JWT_SUCCESS ->
  exists sb w1 id sig, write_header_and_payload p (CB (w_next w) []) ep (w_ok w) = Ret (L8W8JWT_SUCCESS, sb) w1
    /\ enc_signed e ep (cb_elems sb) sig /\ er_out r = Some (Ptr (Some id) (cb_elems sb ++ lit "." ++ b64url sig ++ [x00]))
    /\ er_len r = Some (N.of_nat (length (cb_elems sb ++ lit "." ++ b64url sig))).
Proof.
  intros Hp Hw Hg Ha H Hrc. unfold l8w8jwt_encode in H.
  destruct (Z.eqb_spec (l8w8jwt_validate_encoding_params (Some ep)) L8W8JWT_SUCCESS) as [Ev|Ev]; cbn [negb] in H.
  2:{ exfalso. apply Ev. rewrite <- Hrc. unfold mret in H. injection H as <- _. reflexivity. }
  minvas H as o w1 Hi. rewrite cb_init_eq, Ha in Hi. injection Hi as <- <-.
  minvas H as [res sb'] w2 Hb. minvas H as u w3 Hf. injection H as <- _. clear Hf.
  unfold encode_body in Hb. minvas Hb as [r1 sb1] w4 H1. pose proof H1 as H1'.
  apply whp_inv in H1' as (Q1 & _ & Hs1); [|exact Hp|apply wf_ok; exact Hw].
  assert (G4 : grows w4).
  { eapply grows_later; [apply quiet_later, Q1|]. eapply grows_later; [apply later_ok|exact Hg]. }
  destruct (Z.eqb_spec r1 L8W8JWT_SUCCESS) as [->|Hr1]; cbn [negb] in Hb.
  2:{ exfalso. injection Hb as <- _ _. apply Hr1. exact Hrc. }
  assert (Hnm : (ep_alg ep =? -1)%Z = false).
  { destruct (Hs1 eq_refl) as (ht & pt & (h & t & Hh & _) & _). apply header_prefix_inv in Hh as (j & Hj & _).
    apply supported_range in Hj. lia. }
  rewrite Hnm in Hb. cbn [negb] in Hb. minvas Hb as [r2 sb2] w5 H2.
  apply ws_inv in H2 as (Q2 & _ & Hs2); [|exact Hp|eapply wf_quiet; [exact Q1|apply wf_ok; exact Hw]].
  destruct (Z.eqb_spec r2 L8W8JWT_SUCCESS) as [->|Hr2]; cbn [negb] in Hb.
  2:{ exfalso. injection Hb as <- _ _. apply Hr2. exact Hrc. }
  destruct (Hs2 eq_refl) as (sig & Hsig & _ & Hg2). specialize (Hg2 G4).
  minvas Hb as res2 w6 H3. injection Hb as <- _ _.
  apply write_token_inv in H3 as [(-> & _ & _)|(-> & _ & _)]; [discriminate Hrc|].
  exists sb1, w4, (w_next w5), sig. split; [exact H1|]. split; [exact Hsig|]. cbn [er_out er_len]. unfold cb_len. rewrite Hg2.
  split; [rewrite <- !app_assoc; reflexivity|reflexivity].
Qed.
Lemma text_flow p ep ep' w w' sb sb' w1 w1' :
  same_request ep ep' -> wf w -> wf w' -> grows w -> grows w' -> allocs w -> allocs w' ->
  write_header_and_payload p (CB (w_next w) []) ep (w_ok w) = Ret (L8W8JWT_SUCCESS, sb) w1 ->
  write_header_and_payload p (CB (w_next w') []) ep' (w_ok w') = Ret (L8W8JWT_SUCCESS, sb') w1' ->
  cb_elems sb = cb_elems sb'.
Proof.
  intros Hs Hw Hw' Hg Hg' Ha Ha' H H'.
  assert (E : forall b, write_header_and_payload p b ep' = write_header_and_payload p b ep).
  { intros b. destruct ep, ep'. destruct Hs as (S1 & S2 & S3 & S4 & S5 & S6 & S7 & S8 & S9 & S10 & S11 & S12 & S13 & S14 & S15 & S16).
    cbn in *. subst. reflexivity. }
  rewrite E in H'.
  assert (S : wsim (w_next w) (w_next w') (w_pushes w) (w_pushes w') w w').
  { apply start_sim; auto. split; intros k; [rewrite Ha, Ha'|rewrite Hg, Hg']; reflexivity. }
  pose proof (msim_cb_init (w_next w) (w_next w') (w_pushes w) (w_pushes w') (A := byte) w w' S) as K.
  rewrite !cb_init_eq, Ha, Ha' in K. destruct K as [(K1 & _) K2].
  pose proof (write_header_and_payload_sim (w_next w) (w_next w') (w_pushes w) (w_pushes w') p
    (CB (w_next w) []) (CB (w_next w') []) ep (conj K1 eq_refl) _ _ K2) as K.
  rewrite H, H' in K. destruct K as [[_ [_ K]] _]. exact K.
Qed.

(** ** C84 *)
(** Decoding the same text with any two algorithms, keys and sets of requests, in any two heaps, with any
    two crypto backends and clocks: two successful calls hand out the same claims, and every flag but the
    signature's is the same if the two callers asked the same for it (and the clocks agree, for exp, nbf,
    iat). *)
Theorem C84_decode :
  forall p e e' dp dp' vn cn ln vn' cn' ln' w r w1 w' r' w1',
    same_reader e e' -> same_jwt dp dp' -> wf w -> wf w' ->
    l8w8jwt_decode p e (Some dp) vn cn ln w = Ret r w1 -> l8w8jwt_decode p e' (Some dp') vn' cn' ln' w' = Ret r' w1' ->
    appended w w1 -> allocated w w1 -> appended w' w1' -> allocated w' w1' ->
    dr_rc r = L8W8JWT_SUCCESS -> dr_rc r' = L8W8JWT_SUCCESS ->
    (forall x x', dr_claims r = Some x -> dr_claims r' = Some x' -> same_claims x x')
    /\ exists v v', dr_valid r = Some v /\ dr_valid r' = Some v'
       /\ (forall k, k <> 7%N -> request_for dp k = request_for dp' k -> (In k [4; 5; 6]%N -> e_time e = e_time e') ->
             N.testbit v k = N.testbit v' k)
       /\ (same_token dp dp' -> (exists t, e' = at_time e t) -> N.testbit v 7 = N.testbit v' 7).
Proof.
  intros p e e' dp dp' vn cn ln vn' cn' ln' w r w1 w' r' w1' Hr Ht Hw Hw' H H' Hg Ha Hg' Ha' E E'.
  as_unlimited (local_decode p e (Some dp) vn cn ln) H Hg Ha.
  as_unlimited (local_decode p e' (Some dp') vn' cn' ln') H' Hg' Ha'.
  apply decode_success in H as (d & st & w2 & P1 & _ & _ & _ & _ & D & V & C); [|exact E]. injection P1 as <-.
  apply decode_success in H' as (d' & st' & w2' & P1 & _ & _ & _ & _ & D' & V' & C'); [|exact E']. injection P1 as <-.
  destruct (steps_flow p e e' dp dp' _ _ _ _ _ _ _ _ Hr Ht (wf_ok _ Hw) (wf_ok _ Hw') Hg Hg' Ha Ha' D D') as (F & _ & B & S).
  split.
  - intros x x' X X'. rewrite C in X. rewrite C' in X'.
    destruct (cn && ln); [|discriminate X]. destruct (cn' && ln'); [|discriminate X']. injection X as <-. injection X' as <-.
    split; [cbn [snd]; unfold cb_len; rewrite (same_count _ _ F); reflexivity|exact F].
  - exists (ds_res st), (ds_res st'). split; [exact V|]. split; [exact V'|]. split; [exact B|].
    intros (_ & _ & T1 & T2 & T3). apply S; assumption.
Qed.
Print Assumptions C84_decode.
(** The same for l8w8jwt_decode_raw: the same bytes of header, payload and signature, the same flags. *)
Theorem C84_decode_raw :
  forall p e e' dp dp' vn hn hl pn pl sn sl vn' hn' hl' pn' pl' sn' sl' w r w1 w' r' w1',
    same_reader e e' -> same_jwt dp dp' -> wf w -> wf w' ->
    l8w8jwt_decode_raw p e (Some dp) vn hn hl pn pl sn sl w = Ret r w1 ->
    l8w8jwt_decode_raw p e' (Some dp') vn' hn' hl' pn' pl' sn' sl' w' = Ret r' w1' ->
    appended w w1 -> allocated w w1 -> appended w' w1' -> allocated w' w1' ->
    rr_rc r = L8W8JWT_SUCCESS -> rr_rc r' = L8W8JWT_SUCCESS ->
    (forall s s', rr_header r = Some s -> rr_header r' = Some s' -> seg_bytes (Some s) = seg_bytes (Some s'))
    /\ (forall s s', rr_payload r = Some s -> rr_payload r' = Some s' -> seg_bytes (Some s) = seg_bytes (Some s'))
    /\ (forall s s', rr_signature r = Some s -> rr_signature r' = Some s' -> seg_bytes (Some s) = seg_bytes (Some s'))
    /\ exists v v', rr_valid r = Some v /\ rr_valid r' = Some v'
       /\ (forall k, k <> 7%N -> request_for dp k = request_for dp' k -> (In k [4; 5; 6]%N -> e_time e = e_time e') ->
             N.testbit v k = N.testbit v' k)
       /\ (same_token dp dp' -> (exists t, e' = at_time e t) -> N.testbit v 7 = N.testbit v' 7).
Proof.
  intros p e e' dp dp' vn hn hl pn pl sn sl vn' hn' hl' pn' pl' sn' sl' w r w1 w' r' w1' Hr Ht Hw Hw' H H' Hg Ha Hg' Ha' E E'.
  as_unlimited (local_decode_raw p e (Some dp) vn hn hl pn pl sn sl) H Hg Ha.
  as_unlimited (local_decode_raw p e' (Some dp') vn' hn' hl' pn' pl' sn' sl') H' Hg' Ha'.
  apply decode_raw_success in H as (d & st & w2 & P1 & _ & _ & _ & D & V & C1 & C2 & C3); [|exact E]. injection P1 as <-.
  apply decode_raw_success in H' as (d' & st' & w2' & P1 & _ & _ & _ & D' & V' & C1' & C2' & C3'); [|exact E']. injection P1 as <-.
  destruct (steps_flow p e e' dp dp' _ _ _ _ _ _ _ _ Hr Ht (wf_ok _ Hw) (wf_ok _ Hw') Hg Hg' Ha Ha' D D') as (_ & (F1 & F2 & F3) & B & S).
  rewrite C1, C2, C3, C1', C2', C3'.
  split; [intros s s'; destruct hn, hn'; try discriminate; intros X X'; injection X as <-; injection X' as <-; exact F1|].
  split; [intros s s'; destruct pn, pn'; try discriminate; intros X X'; injection X as <-; injection X' as <-; exact F2|].
  split; [intros s s'; destruct sn, sn'; try discriminate; intros X X'; injection X as <-; injection X' as <-; exact F3|].
  exists (ds_res st), (ds_res st'). split; [exact V|]. split; [exact V'|]. split; [exact B|].
  intros (_ & _ & T1 & T2 & T3). apply S; assumption.
Qed.
Print Assumptions C84_decode_raw.

(** Encoding the same request under any two keys, with any two backends, in any two heaps: the tokens are
    the same text up to the last dot, and differ in the signature of that text alone. *)
Theorem C84_encode :
  forall p e e' ep ep' w r w1 w' r' w1',
    (6 <= p_size_bits p)%N -> same_request ep ep' -> wf w -> wf w' ->
    l8w8jwt_encode p e (Some ep) w = Ret r w1 -> l8w8jwt_encode p e' (Some ep') w' = Ret r' w1' ->
    appended w w1 -> allocated w w1 -> appended w' w1' -> allocated w' w1' ->
    er_rc r = L8W8JWT_SUCCESS -> er_rc r' = L8W8JWT_SUCCESS ->
    exists msg sig sig' id id',
      er_out r = Some (Ptr (Some id) (msg ++ lit "." ++ b64url sig ++ [x00]))
      /\ er_out r' = Some (Ptr (Some id') (msg ++ lit "." ++ b64url sig' ++ [x00]))
      /\ er_len r = Some (N.of_nat (length (msg ++ lit "." ++ b64url sig)))
      /\ er_len r' = Some (N.of_nat (length (msg ++ lit "." ++ b64url sig')))
      /\ enc_signed e ep msg sig /\ enc_signed e' ep' msg sig'.
Proof.
  intros p e e' ep ep' w r w1 w' r' w1' Hp Hs Hw Hw' H H' Hg Ha Hg' Ha' E E'.
  as_unlimited (local_encode p e (Some ep)) H Hg Ha. as_unlimited (local_encode p e' (Some ep')) H' Hg' Ha'.
  destruct (encode_parts _ _ _ _ _ _ Hp Hw Hg Ha H E) as (sb & w2 & id & sig & A1 & A2 & A3 & A4).
  destruct (encode_parts _ _ _ _ _ _ Hp Hw' Hg' Ha' H' E') as (sb' & w2' & id' & sig' & B1 & B2 & B3 & B4).
  pose proof (text_flow _ _ _ _ _ _ _ _ _ Hs Hw Hw' Hg Hg' Ha Ha' A1 B1) as T. rewrite <- T in B2, B3, B4.
  exists (cb_elems sb), sig, sig', id, id'. auto 8.
Qed.
Print Assumptions C84_encode.

(** Non-vacuous. The same token decoded with the right key, with a wrong key, as another algorithm (the
    toy backend's RSA accepts everything) and without verification, asking for sub: the number of claims
    and the sub flag (2) do not change, the signature flag (128) does. The same request signed with two keys. *)
Definition flow_params (alg : Z) (key : string) (sub : string) : dec_params :=
  let d := dp_plain (signed plain_header "{""sub"":""alice""}") alg (zstr key) (N.of_nat (String.length key)) in
  DecParams (dp_jwt d) (dp_jwt_length d) alg Null 0 (zstr sub) (N.of_nat (String.length sub)) Null 0 Null 0
    false false false 0 0 0 (zstr key) (N.of_nat (String.length key)) Null 0.
Arguments flow_params alg%Z_scope (key sub)%string_scope.
Definition flow_of (dp : dec_params) := verdict_of (l8w8jwt_decode pe toy (Some dp) true true true we).
Definition token_text (ep : enc_params) : option bytes :=
  match l8w8jwt_encode pe toy (Some ep) we with
  | Ret (EncRes _ (Some (Ptr _ m)) (Some n)) _ => Some (firstn (N.to_nat n) m)
  | _ => None
  end.
Example C84_example :
  same_reader toy toy_ec /\ same_jwt (flow_params 0 "secret" "alice") (flow_params 0 "wrong" "bob")
  /\ flow_of (flow_params 0 "secret" "alice") = Some (0%Z, Some 0%N, Some 3%N)
  /\ flow_of (flow_params 0 "wrong" "alice") = Some (0%Z, Some 128%N, Some 3%N)
  /\ flow_of (flow_params 0 "secret" "bob") = Some (0%Z, Some 2%N, Some 3%N)
  /\ flow_of (flow_params 0 "wrong" "bob") = Some (0%Z, Some 130%N, Some 3%N)
  /\ flow_of (flow_params 3 "secret" "bob") = Some (0%Z, Some 2%N, Some 3%N)
  /\ flow_of (flow_params (-1) "secret" "bob") = Some (0%Z, Some 2%N, Some 3%N)
  /\ same_request (ep_with (zstr "me") 2 (zstr "secret") 6 0) (ep_with (zstr "me") 2 (zstr "other") 5 0)
  /\ (exists t t', token_text (ep_with (zstr "me") 2 (zstr "secret") 6 0) = Some t
        /\ token_text (ep_with (zstr "me") 2 (zstr "other") 5 0) = Some t' /\ t <> t').
Proof.
  split; [repeat split; reflexivity|]. split; [split; reflexivity|].
  do 6 (split; [vm_compute; reflexivity|]). split; [repeat split; reflexivity|].
  do 2 eexists. split; [vm_compute; reflexivity|]. split; [vm_compute; reflexivity|]. discriminate.
Qed.
