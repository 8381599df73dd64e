(** * Properties C18 and C50: valid tokens are accepted, and what encode writes decode reads back *)
From Verif Require Import Base BaseProofs HeapProofs Util UtilProofs Claim Base64 SpecB64
  Base64EncProofs Base64EncApi Base64DecProofs Base64Api Jsmn Env Encode Decode SpecJson SpecJwa ClaimProofs UnescapeProofs
  EncodeProofs SignProofs EncodeTotal SpecEnc JsonProofs PropEncode DecodeProofs DecodeInv JsmnProofs ParseProofs
  PropClaim ReadProofs ValidateProofs JsmnJson JsmnSize PropVerify PropValidate PropLeak PropJson DecodeTotal DecodeOk PropSafe LocalProofs.
From Coq Require Import ZifyBool ZifyNat ZifyN.
Ltac Zify.zify_post_hook ::= Z.div_mod_to_equations.
Local Opaque L8W8JWT_MAX_KEY_SIZE.

(** ** Notions *)
(** The caller's key bytes can be used at all: a certificate can be parsed, the public key can be
    loaded for ECDSA, Ed25519 is compiled in. *)
Definition key_usable (p : platform) (e : env) (jw : jwa) (k : bytes) : Prop :=
  (certificate k -> e_x509_parse e (pem_text k) <> None)
  /\ match j_family jw with
     | ES _ _ _ => forall pk, public_key_of e k pk -> e_ecdsa_from_keypair e pk = true
     | ED => p_eddsa p = true
     | _ => True
     end.
(** No claim validation is asked for. *)
Definition asks_nothing (dp : dec_params) : Prop :=
  dp_validate_sub dp = Null /\ dp_validate_aud dp = Null /\ dp_validate_iss dp = Null /\ dp_validate_jti dp = Null
  /\ dp_validate_exp dp = false /\ dp_validate_nbf dp = false /\ dp_validate_iat dp = false /\ dp_validate_typ dp = Null.

Lemma url_b64_decodes t o tail : url_decodes t o tail -> b64_decodes t o tail.
Proof.
  intros H. destruct (H we we_wf eq_refl) as (id & w' & E). pose proof (b64_decode_inv _ _ _ _ _ _ we_wf E) as [_ [(C & _)|(_ & o' & tail' & Hd & Ho & Hn & _)]].
  - exfalso. apply C. reflexivity.
  - rewrite Nat2N.id, firstn_all in Hd. cbn [b_out b_len] in Ho, Hn.
    assert (En : length o = length o') by (assert (N.of_nat (length o) = N.of_nat (length o')) by congruence; lia).
    assert (Eo : o ++ tail = o' ++ tail') by congruence. apply app_eq_length in Eo as [-> ->]; auto.
Qed.
Lemma public_key_fun e k a b : public_key_of e k a -> public_key_of e k b -> a = b.
Proof. intros [(C & E)|(C & E)] [(C' & E')|(C' & E')]; try contradiction; congruence. Qed.
Lemma unhex_last hx kb : unhex hx = Some kb -> is_nul (last hx x01) = false.
Proof.
  assert (G : forall n s kb, (length s <= n)%nat -> unhex s = Some kb -> is_nul (last s x01) = false).
  { induction n as [|n IH]; intros s kb0 Hl H; [destruct s; [reflexivity|simpl in Hl; lia]|].
    destruct s as [|a [|b t]]; [reflexivity|discriminate|]. cbn [unhex] in H.
    destruct (hexdig a) eqn:A; [|discriminate]. destruct (hexdig b) eqn:B; [|discriminate].
    destruct (unhex t) eqn:T; [|discriminate]. destruct t as [|c t].
    - cbn [last]. destruct b; try reflexivity. vm_compute in B. discriminate.
    - change (last (a :: b :: c :: t) x01) with (last (c :: t) x01). eapply IH; [|exact T]. simpl in Hl |- *. lia. }
  eapply G; eauto.
Qed.
Lemma hex_key k hx kb : k = hx \/ k = hx ++ [x00] -> unhex hx = Some kb -> hmac_key k = hx.
Proof.
  intros [-> | ->] H; unfold hmac_key.
  - rewrite (unhex_last _ _ H). reflexivity.
  - rewrite last_last. change (is_nul x00) with true. cbv iota. apply removelast_last.
Qed.

Lemma verified_usable p e jw k msg sig : key_usable p e jw k -> verified_by e jw k msg sig -> ~ key_unusable p e jw k msg.
Proof.
  intros (Hc & Hf) Hv [(C & E)|H]; [exact (Hc C E)|]. unfold verified_by in Hv. destruct (j_family jw) as [| | |curve bits width|].
  - exact H.
  - destruct Hv as (key & d & Hk & (d0 & Hd & _) & _). destruct H as [H|H]; [exact (H _ Hk)|congruence].
  - destruct Hv as (key & d & Hk & (d0 & Hd & _) & _). destruct H as [H|H]; [exact (H _ Hk)|congruence].
  - destruct Hv as (key & d & r & s & Hk & (d0 & Hd & _) & _).
    destruct H as [H|[H|(pk & Hp & H)]]; [exact (H _ Hk)|congruence|]. rewrite (Hf _ Hp) in H. discriminate.
  - destruct Hv as (hx & kb & Hk & Hl & Hu & _). destruct H as [H|H]; [congruence|]. apply H. rewrite (hex_key _ _ _ Hk Hu). exact Hl.
Qed.
Lemma verified_verifiable e jw k msg sig st : verified_by e jw k msg sig -> verifiable e jw k (sig ++ st).
Proof.
  unfold verified_by, verifiable. rewrite app_length. destruct (j_family jw) as [| | |curve bits width|]; intros Hv.
  - destruct Hv as (mac & _ & ->). rewrite fit_length. lia.
  - exact I.
  - destruct Hv as (key & d & Hk & _ & Hr & Hl & _). intros pk Hp. rewrite (public_key_fun _ _ _ _ Hp Hk). split; [exact Hr|lia].
  - destruct Hv as (key & d & r & s & Hk & _ & Hr & _). intros pk Hp. rewrite (public_key_fun _ _ _ _ Hp Hk). exact Hr.
  - destruct Hv as (hx & kb & _ & _ & _ & Hl & _). lia.
Qed.
Lemma verified_length e jw k msg sig : verified_by e jw k msg sig -> right_length e jw k sig.
Proof.
  unfold verified_by, right_length. destruct (j_family jw) as [| | |curve bits width|]; intros Hv.
  - destruct Hv as (mac & _ & ->). rewrite fit_length. lia.
  - exact I.
  - destruct Hv as (key & d & Hk & _ & Hr & Hl & _). intros pk Hp. rewrite (public_key_fun _ _ _ _ Hp Hk). exact Hl.
  - destruct Hv as (key & d & r & s & _ & _ & _ & -> & El & _). rewrite app_length. apply Nat.even_spec. exists (length r). lia.
  - destruct Hv as (hx & kb & _ & _ & _ & Hl & _). exact Hl.
Qed.
Lemma read_whole e jw k msg sig tail : verified_by e jw k msg sig -> signature_read e jw k sig tail sig.
Proof.
  intros Hv. pose proof (verified_length _ _ _ _ _ Hv) as Hl. unfold right_length in Hl. unfold signature_read.
  unfold verified_by in Hv. destruct (j_family jw) as [| | |curve bits width|].
  - rewrite <- Hl, Nat2N.id, firstn_app_exact. reflexivity.
  - reflexivity.
  - destruct Hv as (key & d & Hk & _). exists key. split; [exact Hk|]. rewrite <- (Hl _ Hk), Nat2N.id, firstn_app_exact. reflexivity.
  - apply Nat.even_spec in Hl as (m & Em). replace (2 * (length sig / 2))%nat with (length sig) by lia. symmetry. apply firstn_all.
  - rewrite <- Hl, firstn_app_exact. reflexivity.
Qed.
Lemma verified_hex e jw k msg sig : verified_by e jw k msg sig -> hex_if_ed jw k.
Proof.
  intros Hv Ef. unfold verified_by in Hv. rewrite Ef in Hv. destruct Hv as (hx & kb & Hk & _ & Hu & _). eauto.
Qed.

(** The first member whose name starts with typ, if any, has a value that tolower understands. *)
Definition named_typ (m : member) : Prop := exists rest, kept_body (m_key m) (lit "typ" ++ rest).
Definition typ_first_ok (p : platform) (ms : list member) : Prop :=
  forall ms1 m ms2, ms = ms1 ++ m :: ms2 -> named_typ m -> Forall (fun x => ~ named_typ x) ms1 -> Forall (plain p) (m_value m).
Lemma named_typ_prefix m : named_typ m -> prefixb (lit "typ") (unesc (m_key m)) = true.
Proof. intros (rest & H). apply kept_unesc in H. rewrite H. apply prefixb_spec. eauto. Qed.
Lemma typ_first_found p e dp ms : Forall member_ok ms -> typ_first_ok p ms -> typ_found p dp (map kv_of (map (entry_of e) ms)).
Proof.
  intros Hok Hf. right. intros v Hv.
  assert (G : forall ms0 ms, Forall (fun x => ~ named_typ x) ms0 -> Forall member_ok ms -> typ_first_ok p (ms0 ++ ms) ->
    value_of (prefixb (lit "typ")) (map kv_of (map (entry_of e) ms)) = Some v -> Forall (plain p) v).
  { clear. intros ms0 ms. revert ms0. induction ms as [|m ms IH]; intros ms0 H0 Hok Hf Hv; [discriminate|].
    inversion Hok as [|? ? [(d & Kb) _] Hok']; subst. cbn [map value_of] in Hv. unfold entry_of at 1 in Hv. cbn [kv_of] in Hv.
    destruct (prefixb (lit "typ") (unesc (m_key m))) eqn:E.
    - assert (Ev : v = claim_value_of (mtype e m) (vtext (m_kind m) (m_value m))) by congruence. rewrite Ev.
      apply claim_value_plain, vtext_plain, (Hf ms0 m ms eq_refl); [|exact H0].
      apply prefixb_spec in E as (rest & E). exists rest. rewrite <- E. exact (json_body_kept _ _ Kb).
    - apply (IH (ms0 ++ [m])); [|exact Hok'|rewrite <- app_assoc; exact Hf|exact Hv].
      apply Forall_app. split; [exact H0|]. constructor; [|constructor]. intros C. apply named_typ_prefix in C. congruence. }
  exact (G [] ms (Forall_nil _) Hok Hf Hv).
Qed.

(** ** C50 *)
(** The signature verifies under the caller's algorithm and key, or the caller asked (with the id -1)
    not to look at it. *)
Definition signature_passes (p : platform) (e : env) (dp : dec_params) (msg sig : bytes) : Prop :=
  dp_alg dp = (-1)%Z
  \/ exists jw k, supported (dp_alg dp) jw /\ caller_key (dp_verification_key dp) (dp_verification_key_length dp) k
       /\ key_usable p e jw k /\ verified_by e jw k msg sig.
(** Every token whose signature verifies, whose header and payload are base64url texts of JSON objects
    that fit (see C31), is accepted: decode succeeds without a signature flag, and hands out the
    members of header and payload. Missing: texts that do not fit, and failures of the allocator. *)
Lemma no_third a x b y : forall h h0, no_nul a -> no_dot b -> no_dot h -> no_dot h0 -> h ++ x2e :: a ++ x2e :: x <> h0 ++ x2e :: b ++ x00 :: y.
Proof.
  assert (A : forall a b, no_nul a -> no_dot b -> a ++ x2e :: x <> b ++ x00 :: y).
  { clear. induction a as [|c a IH]; intros [|d b] Ha Hb E; cbn [app] in E; try discriminate E.
    - injection E as E _. apply Hb. left. congruence.
    - injection E as E _. apply Ha. left. congruence.
    - injection E as _ E. apply (IH b); auto; intros K; [apply Ha|apply Hb]; right; exact K. }
  intros h h0 Ha Hb. revert h0. induction h as [|c h IH]; intros [|d h0] N1 N2 E; cbn [app] in E.
  - injection E as E. exact (A _ _ Ha Hb E).
  - injection E as E _. apply N2. left. congruence.
  - injection E as E _. apply N1. left. congruence.
  - injection E as _ E. apply (IH h0); auto; intros K; [apply N1|apply N2]; right; exact K.
Qed.
Lemma passes_looked_at p e dp msg sig st : signature_passes p e dp msg sig -> sig_looked_at p e dp msg (sig ++ st).
Proof.
  intros [H|(jw & k & Hjw & Hck & Hu & Hv)]; [left; exact H|right]. exists jw, k. split; [exact Hjw|]. split; [exact Hck|].
  split; [exact (verified_verifiable _ _ _ _ _ _ Hv)|exact (verified_usable _ _ _ _ _ _ Hu Hv)].
Qed.
Theorem C50_valid_tokens_accepted_partial :
  forall p e dp h pl s hj ht pj pt sig st hms pms w,
    wf w -> allocs w -> grows w -> uses_jsmn e -> checknum_right e -> (32 <= p_size_bits p)%N ->
    c_text p dp (h ++ lit "." ++ pl ++ lit "." ++ s) -> no_dot h -> no_dot pl ->
    (Z.of_nat (length (h ++ lit "." ++ pl ++ lit "." ++ s)) <= INT_MAX)%Z ->
    url_decodes h hj ht -> url_decodes pl pj pt -> url_decodes s sig st ->
    object_text hj hms -> object_text pj pms -> fits hj hms -> fits pj pms ->
    key_ok (dp_verification_key dp) (dp_verification_key_length dp) ->
    signature_passes p e dp (h ++ lit "." ++ pl) sig ->
    requests_ok p e dp -> (dp_validate_typ dp = Null \/ typ_first_ok p (hms ++ pms)) ->
    exists r w' v b cs, l8w8jwt_decode p e (Some dp) true true true w = Ret r w'
      /\ dr_rc r = L8W8JWT_SUCCESS
      /\ dr_valid r = Some v /\ N.testbit v 7 = false /\ (asks_nothing dp -> v = 0%N)
      /\ dr_claims r = Some (CArr b cs, N.of_nat (length cs))
      /\ Forall2 (represents kept_body) cs (hms ++ pms)
      /\ (Forall simple_member (hms ++ pms) -> Forall2 (represents json_body) cs (hms ++ pms)).
Proof.
  intros p e dp h pl s hj ht pj pt sig st hms pms w Hwf Ha Hg Hj Hc Hp Ht N1 N2 Hlen D1 D2 D3 O1 O2 F1 F2 Hk Hv Hrq Hty.
  pose proof (url_b64_decodes _ _ _ D1) as B1. pose proof (url_b64_decodes _ _ _ D2) as B2. pose proof (url_b64_decodes _ _ _ D3) as B3.
  destruct (object_reads e hj hms ht Hj Hc O1 F1) as [R1 M1]. destruct (object_reads e pj pms pt Hj Hc O2 F2) as [R2 M2].
  assert (Hfo : typ_found p dp (map kv_of (map (entry_of e) hms ++ map (entry_of e) pms))).
  { rewrite <- map_app. destruct Hty as [Hty|Hty]; [left; exact Hty|]. apply typ_first_found; [apply Forall_app; auto|exact Hty]. }
  pose proof (b64_decodes_shorter _ _ _ B1) as L1. pose proof (b64_decodes_shorter _ _ _ B2) as L2.
  rewrite !app_length in Hlen. change (length (lit ".")) with 1%nat in Hlen.
  destruct (decode_ok p e dp h pl s hj ht pj pt sig st _ _ true true w Hwf Ha Hj Hp eq_refl Ht N1 N2 B1 B2 B3
    ltac:(lia) ltac:(lia) R1 R2 Hk (passes_looked_at _ _ _ _ _ _ Hv) Hrq Hg Hfo)
    as (r & w' & H & Hrc).
  assert (Uniq : forall b' jwt h' pl' rest', dp_jwt dp = Ptr b' jwt -> three_parts jwt h' pl' rest' ->
    h' = h /\ pl' = pl /\ exists rest, rest' = s ++ x00 :: rest).
  { intros b' jwt h' pl' rest' Ej T. destruct Ht as ((b & rest & Ej') & Hz & _).
    assert (jwt = (h ++ lit "." ++ pl ++ lit "." ++ s) ++ x00 :: rest) by congruence. subst jwt.
    assert (T' : three_parts ((h ++ lit "." ++ pl ++ lit "." ++ s) ++ x00 :: rest) h pl (s ++ x00 :: rest)).
    { split; [rewrite <- !app_assoc; reflexivity|]. assert (no_nul h) by (intros K; apply Hz; rewrite !in_app_iff; auto).
      assert (no_nul pl) by (intros K; apply Hz; rewrite !in_app_iff; auto). auto. }
    destruct (three_parts_fun _ _ _ _ _ _ _ T T') as (-> & -> & ->). eauto. }
  (* claims *)
  destruct (C31_members_partial p e dp w r w' Hwf (grows_appended _ _ Hg) Hj Hp Hc H Hrc) as (h' & pl' & hj' & pj' & ht' & pt' & TP & D1' & D2' & Hcl).
  assert (h' = h /\ pl' = pl) as (-> & ->).
  { destruct TP as [jwt h0 pl0 rest (b' & Ej) T|jwt h0 s0 rest n (b' & Ej) _ E0 Nd _ Ns _ _].
    - destruct (Uniq _ _ _ _ _ Ej T) as (-> & -> & _). auto.
    - exfalso. destruct Ht as ((b & rest' & Ej') & Hz & _). rewrite Ej' in Ej. injection Ej as _ Ej. rewrite E0 in Ej.
      rewrite <- !app_assoc in Ej. change (lit ".") with [x2e] in Ej. cbn [app] in Ej.
      rewrite <- app_assoc in Ej. refine (no_third pl (s ++ x00 :: rest') s0 rest h h0 _ Ns N1 Nd _); [intros K; apply Hz; rewrite !in_app_iff; auto|].
      exact Ej. }
  destruct (url_decodes_fun _ _ _ _ _ D1' D1) as [_ ->]. destruct (url_decodes_fun _ _ _ _ _ D2' D2) as [_ ->].
  destruct (Hcl hms pms O1 O2) as (b & cs & Ecs & Hkept & Hsimple).
  (* flags *)
  destruct (decode_reads _ _ _ _ _ _ _ _ Hwf Hj Hp H Hrc)
    as (sg & hb & hm & pb & pm & eh & ep & id & cs' & sub & res1 & v & _ & _ & _ & _ & _ & _ & _ & _ & _ & Hres & Hval & Hvr & _).
  assert (Hb7 : N.testbit v 7 = false).
  { destruct Hv as [Em|(jw & k & Hjw & Hck & Hu & Hv)].
    { destruct (N.testbit v 7) eqn:E7; [exfalso|reflexivity].
      destruct (proj1 (proj1 C28_only_requested_flags p e dp true true w r w' v Hwf H Hrc Hvr) _ E7) as [K|[_ K]]; [apply K; reflexivity|contradiction]. }
    destruct (decode_signature p e dp true true w r w' v jw k Hwf H Hrc Hvr Hjw Hck (verified_hex _ _ _ _ _ Hv))
      as (jwt & h' & pl' & rest' & third & sig' & tail' & (b' & Ej) & T & (n & En & Hn & Eth) & Hd & Hbit).
    destruct (Uniq _ _ _ _ _ Ej T) as (-> & -> & rest & ->).
    assert (third = s) as ->.
    { destruct Ht as (_ & _ & Hl & Hs). rewrite !app_length in Hl, Hs. change (length (lit ".")) with 1%nat in Hl, Hs.
      rewrite to_size_small in En by lia. rewrite Eth.
      replace (N.to_nat n) with (length s) by lia. apply firstn_app_exact. }
    destruct (b64_decodes_fun _ _ _ _ _ Hd B3) as [-> ->].
    apply Hbit. exists sig. split; [eapply read_whole; eauto|exact Hv]. }
  exists r, w', v, b, cs. repeat (split; [assumption|]). split; [|repeat (split; [assumption|]); assumption].
  intros (Q1 & Q2 & Q3 & Q4 & Q5 & Q6 & Q7 & Q8). unfold l8w8jwt_validate_claims in Hval.
  rewrite Q1, Q2, Q3, Q4, Q5, Q6, Q7, Q8 in Hval. cbn [is_null negb flag_if ubind] in Hval.
  assert (v = res1) by congruence. subst v. destruct Hres as [->| ->]; [reflexivity|discriminate Hb7].
Qed.
Print Assumptions C50_valid_tokens_accepted_partial.

(** ** C18: notions *)
(** What decode returns for the string [s] given to encode: the same bytes, except that control
    characters without a short escape (and DEL) come back as the six characters of a \u escape. *)
Inductive comes_back : bytes -> bytes -> Prop :=
| CB_nil : comes_back [] []
| CB_same c s s' : survives c -> comes_back s s' -> comes_back (c :: s) (c :: s')
| CB_unicode c h1 h2 h3 h4 s s' : ~ survives c -> code_unit h1 h2 h3 h4 = Some (b2n c) -> comes_back s s' ->
    comes_back (c :: s) (lit "\u" ++ [h1; h2; h3; h4] ++ s').
(** A string claim of the given name and value. *)
Definition string_back (name v : bytes) (d : claim) : Prop :=
  c_type d = L8W8JWT_CLAIM_TYPE_STRING /\ exists v', decoded d name v' /\ comes_back v v'.
(** The claims alg, typ and so on that every header starts with. *)
Definition fixed_pairs (j : jwa) : list (bytes * bytes) :=
  [(lit "alg", j_name j); (lit "typ", lit "JWT")]
  ++ match j_family j with
     | ES SECP256K1 _ _ => [(lit "kty", lit "EC"); (lit "crv", lit "secp256k1")]
     | ED => [(lit "kty", lit "EC"); (lit "crv", lit "Ed25519")]
     | _ => []
     end.
Definition fixed_back (j : jwa) (ds : list claim) : Prop :=
  Forall2 (fun q d => decoded d (fst q) (snd q) /\ c_type d = L8W8JWT_CLAIM_TYPE_STRING) (fixed_pairs j) ds.
(** iat, nbf, exp: absent if zero, else the decimal digits of the (unsigned) number, an integer claim. *)
Definition time_back (name : bytes) (t : Z) (ds : list claim) : Prop :=
  (t = 0%Z /\ ds = [])
  \/ (t <> 0%Z /\ exists d x, ds = [d] /\ decoded d name x /\ digits x /\ dec_value x = Z.to_N (t mod 2 ^ 64)
                   /\ c_type d = L8W8JWT_CLAIM_TYPE_INTEGER).
(** sub, iss, aud, jti: absent if NULL. *)
Definition opt_back (name : bytes) (q : ptr) (n : N) (ds : list claim) : Prop :=
  (q = Null /\ ds = []) \/ exists v d, given q n v /\ ds = [d] /\ string_back name v d.
Definition registered_back (ep : enc_params) (ds : list claim) : Prop :=
  exists iat nbf exp sub iss aud jti,
    ds = iat ++ nbf ++ exp ++ sub ++ iss ++ aud ++ jti
    /\ time_back (lit "iat") (ep_iat ep) iat /\ time_back (lit "nbf") (ep_nbf ep) nbf
    /\ time_back (lit "exp") (ep_exp ep) exp
    /\ opt_back (lit "sub") (ep_sub ep) (ep_sub_length ep) sub
    /\ opt_back (lit "iss") (ep_iss ep) (ep_iss_length ep) iss
    /\ opt_back (lit "aud") (ep_aud ep) (ep_aud_length ep) aud
    /\ opt_back (lit "jti") (ep_jti ep) (ep_jti_length ep) jti.
(** An additional claim [c] comes back as [d]: a string claim as above; the literal text of any other
    value without the whitespace around it, typed by the JSON value it is. *)
Definition claim_back (c d : claim) : Prop :=
  exists k v k' v', given (c_key c) (c_key_length c) k /\ given (c_value c) (c_value_length c) v
    /\ decoded d k' v' /\ comes_back k k'
    /\ (c_type c = L8W8JWT_CLAIM_TYPE_STRING -> c_type d = L8W8JWT_CLAIM_TYPE_STRING /\ comes_back v v')
    /\ (c_type c <> L8W8JWT_CLAIM_TYPE_STRING ->
        exists m w1 w2, json_value (m_kind m) (m_value m) /\ json_ws w1 /\ json_ws w2 /\ v = w1 ++ m_value m ++ w2
          /\ value_type m (c_type d)
          /\ match m_kind m with KString => exists t, m_value m = quoted t /\ kept_body t v' | _ => v' = m_value m end).

(** The two keys belong together: [k] (with its password) is the caller's key for encode, [k'] the one
    for decode, and what the first signs the second verifies. *)
Definition matching_keys (e e' : env) (j : jwa) (k : bytes) (pw : ptr) (pwl : N) (k' : bytes) : Prop :=
  let h := j_hash j in
  let pair sk vk := e_parse_key e (pem_text k) pw pwl = Some sk /\ public_key_of e' k' vk in
  match j_family j with
  | HS => hmac_key k' = hmac_key k
  | RS => exists sk vk, pair sk vk
      /\ forall d s, e_pk_sign e sk h d = Some s -> (N.of_nat (length s) <= 4096)%N /\ e_pk_verify e' vk h d s = true
  | PS => exists sk vk, pair sk vk /\ e_pk_rsa e' vk = true
      /\ e_rsa_len e sk = e_rsa_len e' vk /\ e_bitlen e sk = (8 * e_rsa_len e sk)%N
      /\ forall d s, e_pss_sign e sk h d = Some s ->
           N.of_nat (length s) = e_rsa_len e sk /\ e_pss_verify e' vk h d s = true
  | ES _ _ _ => exists sk vk, pair sk vk /\ e_pk_ec e' vk = true
      /\ forall d r s, e_ecdsa_sign e sk d = Some (r, s) -> e_ecdsa_verify e' vk d r s = true
  | ED => exists hx kb hx' kb', (k = hx \/ k = hx ++ [x00]) /\ length hx = 128%nat /\ unhex hx = Some kb
      /\ (k' = hx' \/ k' = hx' ++ [x00]) /\ length hx' = 64%nat /\ unhex hx' = Some kb'
      /\ forall msg, e_ed_verify e' (fit 64 (e_ed_sign e msg kb)) msg kb' = true
  end.
(** The same hash functions at encode and at decode (the clock, for one, may differ). *)
Definition same_hashes (e e' : env) : Prop :=
  (forall h key msg, e_hmac e' h key msg = e_hmac e h key msg) /\ (forall h msg, e_md e' h msg = e_md e h msg).
(** The part of a claim list decode can cope with: the last claim with a key is no array or object, or
    the whole text [js] consists of at most 62 values and member names. *)
Definition last_flat (cs : list claim) : Prop :=
  forall cs' c, cs = cs' ++ [c] -> c_type c = L8W8JWT_CLAIM_TYPE_STRING
    \/ forall v k t w1 w2, given (c_value c) (c_value_length c) v -> v = w1 ++ t ++ w2 -> json_ws w1 -> json_ws w2 ->
       json_value k t -> k <> KArray /\ k <> KObject.
Definition readable (js : bytes) (cs : list claim) : Prop :=
  (forall n, json_size js n -> (n <= 62)%N) \/ last_flat cs.

(** ** C18: lemmas *)
Definition esc_unicode_ok (c : byte) : bool :=
  survivesb c || match esc c with
                 | [a; b; h1; h2; h3; h4] => Byte.eqb a x5c && Byte.eqb b x75
                     && match code_unit h1 h2 h3 h4 with Some u => (u =? b2n c)%N | None => false end
                 | _ => false
                 end.
Lemma esc_unicode c : ~ survives c -> exists h1 h2 h3 h4, esc c = lit "\u" ++ [h1; h2; h3; h4]
  /\ code_unit h1 h2 h3 h4 = Some (b2n c).
Proof.
  intros H. assert (E : esc_unicode_ok c = true) by (apply (sweep1 esc_unicode_ok); vm_compute; reflexivity).
  unfold esc_unicode_ok in E. destruct (survivesb c) eqn:S; [apply survivesb_spec in S; contradiction|]. cbn [orb] in E.
  destruct (esc c) as [|a [|b [|h1 [|h2 [|h3 [|h4 [|]]]]]]]; try discriminate.
  rewrite !andb_true_iff, !byte_eqb_eq in E. destruct E as [[-> ->] E]. exists h1, h2, h3, h4. split; [reflexivity|].
  destruct (code_unit h1 h2 h3 h4); [|discriminate]. f_equal. lia.
Qed.
Lemma comes_back_unesc s : comes_back s (unesc (escape s)).
Proof.
  induction s as [|c s IH]; [constructor|]. unfold escape in *. cbn [flat_map].
  destruct (unesc_esc c (flat_map esc s)) as [(H & ->)|(H & _ & ->)]; [constructor; auto|].
  destruct (esc_unicode c H) as (h1 & h2 & h3 & h4 & -> & Hc). rewrite <- app_assoc. apply CB_unicode; auto.
Qed.
(** In the invertible fragment strings come back unchanged. *)
Lemma comes_back_same s s' : comes_back s s' -> Forall survives s -> s' = s.
Proof.
  induction 1; intros Hs; [reflexivity| |]; inversion Hs; subst; [f_equal; auto|contradiction].
Qed.
Lemma kept_escaped s t : kept_body (escape s) t -> comes_back s t.
Proof. intros H. rewrite <- (kept_unesc _ _ H). apply comes_back_unesc. Qed.
Lemma quoted_inj a b : quoted a = quoted b -> a = b.
Proof. unfold quoted. intros H. injection H as H. apply app_inv_tail in H. exact H. Qed.

Lemma signed_verified e e' j k pw pwl k' msg sig :
  same_hashes e e' -> matching_keys e e' j k pw pwl k' -> signed_by e j k pw pwl msg sig -> verified_by e' j k' msg sig.
Proof.
  intros (Hh & Hm). unfold matching_keys, signed_by, verified_by. cbv zeta. destruct (j_family j) as [| | |curve bits width|]; intros HK HS.
  - destruct HS as (mac & E & ->). exists mac. rewrite Hh, HK. auto.
  - destruct HS as (key & d & s & Hp & (d0 & Hd & ->) & _ & _ & Hs & ->).
    destruct HK as (sk & vk & (Hp' & Hv) & HK). assert (sk = key) as -> by congruence. destruct (HK _ _ Hs) as [Hl Hok].
    exists vk, (fit (md_size (j_hash j)) d0). split; [exact Hv|]. split; [exists d0; rewrite Hm; auto|].
    rewrite firstn_all2 by lia. exact Hok.
  - destruct HS as (key & d & s & Hp & (d0 & Hd & ->) & _ & _ & _ & Hs & ->).
    destruct HK as (sk & vk & (Hp' & Hv) & Hr & Hlen & Hbits & HK). assert (sk = key) as -> by congruence. destruct (HK _ _ Hs) as [Hl Hok].
    exists vk, (fit (md_size (j_hash j)) d0). split; [exact Hv|]. split; [exists d0; rewrite Hm; auto|].
    assert (e_bitlen e key / 8 = e_rsa_len e key)%N as -> by lia.
    rewrite !(fit_exact _ s) by exact Hl. rewrite <- Hlen. auto.
  - destruct HS as (key & d & r & s & Hp & (d0 & Hd & ->) & _ & _ & _ & _ & Hs & Hlen & Hr & Hs2).
    destruct HK as (sk & vk & (Hp' & Hv) & Hec & HK). assert (sk = key) as -> by congruence.
    exists vk, (fit (md_size (j_hash j)) d0), (firstn width sig), (skipn width sig). split; [exact Hv|].
    split; [exists d0; rewrite Hm; auto|]. split; [exact Hec|]. split; [symmetry; apply firstn_skipn|].
    split; [rewrite firstn_length, skipn_length; lia|]. rewrite Hr, Hs2. eapply HK; eauto.
  - destruct HS as (hx0 & Hk0 & Hl0 & Hls & HS). destruct HK as (hx & kb & hx' & kb' & Hk & Hl & Hu & Hk' & Hl' & Hu' & HK).
    exists hx', kb'. split; [exact Hk'|]. split; [exact Hl'|]. split; [exact Hu'|]. split; [exact Hls|].
    assert (hx0 = hx) as ->.
    { assert (G : forall a b, length a = 128%nat -> length b = 128%nat -> (k = a \/ k = a ++ [x00]) -> (k = b \/ k = b ++ [x00]) -> a = b).
      { intros a b La Lb [->| ->] [E|E]; auto.
        - apply (f_equal (@length byte)) in E. rewrite app_length in E. simpl in E. lia.
        - apply (f_equal (@length byte)) in E. rewrite app_length in E. simpl in E. lia.
        - apply app_inj_tail in E as [E _]. exact E. }
      eapply G; eauto. }
    rewrite (HS _ Hu). apply HK.
Qed.

Lemma object_not_empty ms t : json_object ms t -> t <> [].
Proof. intros [ws H|ms' t' H]; discriminate. Qed.
Lemma object_text_of ms t : json_object ms t -> object_text t ms.
Proof. intros H. exists [], t, []. split; [constructor|]. split; [exact H|]. split; [constructor|]. rewrite app_nil_r. reflexivity. Qed.
Lemma digits_integer d : json_number d -> Forall digit d -> integer_text d.
Proof.
  intros [sg i f ex S1 S2 S3 S4] H. rewrite !Forall_app in H. destruct H as (H1 & H2 & H3 & H4).
  assert (f = []) as ->.
  { destruct S3; [reflexivity|]. inversion H3 as [|? ? Hd]; subst. exfalso. vm_compute in Hd. intuition discriminate. }
  assert (ex = []) as ->.
  { destruct S4 as [|ee sg' ds E1]; [reflexivity|]. inversion H4 as [|? ? Hd]; subst. exfalso. simpl in E1.
    destruct E1 as [<-|[<-|[]]]; vm_compute in Hd; intuition discriminate. }
  exists sg, i. rewrite app_nil_r. auto.
Qed.

Lemma represents_string d name v : represents kept_body d (Member name KString (quoted v)) ->
  c_type d = L8W8JWT_CLAIM_TYPE_STRING /\ exists k x, decoded d k x /\ kept_body name k /\ kept_body v x.
Proof.
  intros (k & x & Hd & Hk & (t & Et & Hx) & Ht). cbn [m_key m_kind m_value value_type] in *. apply quoted_inj in Et. subst t.
  split; [exact Ht|]. eauto.
Qed.
Lemma back_fixed j ds alg : supported alg j -> Forall2 (represents kept_body) ds (fixed_members j) -> fixed_back j ds.
Proof.
  intros [Hin _] H.
  assert (G : forall q d, unesc (fst q) = fst q -> unesc (snd q) = snd q ->
    represents kept_body d (string_member (fst q) (snd q)) -> decoded d (fst q) (snd q) /\ c_type d = L8W8JWT_CLAIM_TYPE_STRING).
  { intros q d E1 E2 R. apply represents_string in R as (Ht & k & x & Hd & Hk & Hx). apply kept_unesc in Hk, Hx. split; [congruence|exact Ht]. }
  assert (E : fixed_members j = map (fun q => string_member (fst q) (snd q)) (fixed_pairs j)).
  { unfold fixed_members, fixed_pairs. rewrite map_app. destruct (j_family j) as [| | |[] ? ?|]; reflexivity. }
  assert (U : Forall (fun q => unesc (fst q) = fst q /\ unesc (snd q) = snd q) (fixed_pairs j)).
  { simpl in Hin. decompose [or] Hin; try contradiction; subst j; repeat constructor. }
  rewrite E in H. clear E. unfold fixed_back. revert ds H. induction U as [|q l [U1 U2] _ IH]; intros ds H; cbn [map] in H.
  - inversion H. constructor.
  - inversion H as [|d m ds' ms' Hd Hr]; subst. constructor; [apply G; assumption|]. apply IH. exact Hr.
Qed.
Lemma back_time name t ms ds : unesc name = name -> asks_time name t ms -> Forall2 (represents kept_body) ds ms -> time_back name t ds.
Proof.
  intros En [(-> & ->)|(Ht & x & -> & Hn & Hdig & Hv)] H; [inversion H; left; auto|]. right. split; [exact Ht|].
  inversion H as [|d m ds' ms' Hd Hrest]; subst. inversion Hrest; subst.
  destruct Hd as (k & v & Hd & Hk & -> & Hty). cbn [m_key m_kind m_value value_type] in *. apply kept_unesc in Hk.
  exists d, x. split; [reflexivity|]. split; [congruence|]. split; [|split; [exact Hv|]].
  { split; [|exact Hdig]. intros ->. inversion Hn as [sg i fr ex _ Hi _ _ E]. apply app_eq_nil in E as [_ E].
    apply app_eq_nil in E as [-> _]. inversion Hi. }
  destruct Hty as [(_ & E)|(C & _)]; [exact E|]. exfalso. apply C, digits_integer; auto.
Qed.
Lemma back_opt name q n ms ds : unesc name = name -> written_string name q n ms -> Forall2 (represents kept_body) ds ms -> opt_back name q n ds.
Proof.
  intros En [(-> & ->)|(v & Hv & ->)] H; [inversion H; left; auto|]. right.
  inversion H as [|d m ds' ms' Hd Hrest]; subst. inversion Hrest; subst.
  apply represents_string in Hd as (Ht & k & x & Hd & Hk & Hx). apply kept_unesc in Hk. apply kept_escaped in Hx.
  exists v, d. split; [exact Hv|]. split; [reflexivity|]. split; [exact Ht|]. exists x. split; [congruence|exact Hx].
Qed.
Lemma back_registered ep ms ds : written_registered ep ms -> Forall2 (represents kept_body) ds ms -> registered_back ep ds.
Proof.
  intros (iat & nbf & exp & sub & iss & aud & jti & -> & H1 & H2 & H3 & H4 & H5 & H6 & H7) H.
  apply Forall2_app_inv_r in H as (d1 & r1 & F1 & H & ->). apply Forall2_app_inv_r in H as (d2 & r2 & F2 & H & ->).
  apply Forall2_app_inv_r in H as (d3 & r3 & F3 & H & ->). apply Forall2_app_inv_r in H as (d4 & r4 & F4 & H & ->).
  apply Forall2_app_inv_r in H as (d5 & r5 & F5 & H & ->). apply Forall2_app_inv_r in H as (d6 & d7 & F6 & F7 & ->).
  exists d1, d2, d3, d4, d5, d6, d7. split; [reflexivity|].
  repeat (split; [first [eapply back_time; [reflexivity|eassumption|eassumption]|eapply back_opt; [reflexivity|eassumption|eassumption]]|]).
  eapply back_opt; [reflexivity|eassumption|eassumption].
Qed.
Lemma back_claim c d m : asks_for c m -> written c m -> represents kept_body d m -> claim_back c d.
Proof.
  intros (k0 & v0 & Gk0 & Gv0 & _ & _ & Hraw) (k & v & Gk & Gv & Ek & Hs) R.
  assert (v0 = v) as -> by (eapply given_det; eauto).
  destruct R as (k' & v' & Hd & Hk & Hv & Hty). exists k, v, k', v'. split; [exact Gk|]. split; [exact Gv|]. split; [exact Hd|].
  split; [apply kept_escaped; rewrite <- Ek; exact Hk|]. split.
  - intros E. destruct (Hs E) as (Em & Ev). unfold value_type in Hty. rewrite Em in Hv, Hty. split; [exact Hty|].
    destruct Hv as (t & Et & Ht). rewrite Ev in Et. apply quoted_inj in Et. subst t. apply kept_escaped. exact Ht.
  - intros E. destruct (Hraw E) as (Hj & w1 & w2 & W1 & W2 & Ew). exists m, w1, w2. auto 10.
Qed.
Lemma back_claims cs : forall ds ms, Forall2 asks_for cs ms -> Forall2 written cs ms -> Forall2 (represents kept_body) ds ms ->
  Forall2 claim_back cs ds.
Proof.
  induction cs as [|c cs IH]; intros ds ms A W R; inversion A; subst; inversion W; subst; inversion R; subst; constructor.
  - eapply back_claim; eauto.
  - eapply IH; eauto.
Qed.
Lemma last_flat_fits cs ms ms0 js : Forall2 asks_for cs ms -> readable js cs ->
  (forall m, In m ms0 -> m_kind m <> KArray /\ m_kind m <> KObject) -> fits js (ms0 ++ ms).
Proof.
  intros A [R|R] H0; [left; exact R|]. right. intros ms' m E. destruct ms as [|m1 ms] using rev_ind.
  - rewrite app_nil_r in E. apply H0. rewrite E, in_app_iff. right. left. reflexivity.
  - clear IHms. rewrite app_assoc in E. apply app_inj_tail in E as [_ <-].
    apply Forall2_app_inv_r in A as (cs1 & cs2 & _ & A & ->). inversion A as [|c m cs2' ms'' Hc Hn]; subst. inversion Hn; subst.
    destruct Hc as (k & v & _ & Gv & _ & Hs & Hr). destruct (Z.eq_dec (c_type c) L8W8JWT_CLAIM_TYPE_STRING) as [Et|Et].
    + destruct (Hs Et) as (-> & _). split; discriminate.
    + destruct (Hr Et) as (Hj & w1 & w2 & W1 & W2 & Ev). destruct (R cs1 c eq_refl) as [C|R']; [contradiction|]. eapply R'; eauto.
Qed.
Lemma fixed_flat j m : In m (fixed_members j) -> m_kind m <> KArray /\ m_kind m <> KObject.
Proof.
  unfold fixed_members. rewrite in_app_iff. intros [H|H].
  - simpl in H. destruct H as [<-|[<-|[]]]; split; discriminate.
  - destruct (j_family j) as [| | |[] ? ?|]; simpl in H; try contradiction;
      destruct H as [<-|[<-|[]]]; split; discriminate.
Qed.
Lemma registered_flat ep ms m : asks_registered ep ms -> In m ms -> m_kind m <> KArray /\ m_kind m <> KObject.
Proof.
  assert (T : forall name t l, asks_time name t l -> In m l -> m_kind m <> KArray /\ m_kind m <> KObject).
  { intros name t l [(_ & ->)|(_ & d & -> & _)] []; [subst; split; discriminate|contradiction]. }
  assert (S : forall name q n l, asks_string name q n l -> In m l -> m_kind m <> KArray /\ m_kind m <> KObject).
  { intros name q n l [(_ & ->)|(v & b & _ & _ & ->)] []; [subst; split; discriminate|contradiction]. }
  intros (iat & nbf & exp & sub & iss & aud & jti & -> & H1 & H2 & H3 & H4 & H5 & H6 & H7) H. rewrite !in_app_iff in H.
  decompose [or] H; eauto.
Qed.

(** Every header starts with alg and typ: JWT. *)
Lemma fixed_typ_ok p j a b : typ_first_ok p ((fixed_members j ++ a) ++ b).
Proof.
  intros ms1 m ms2 E Hm Hn. unfold fixed_members in E. cbn [app] in E.
  destruct ms1 as [|x [|y ms1]]; cbn [app] in E.
  - assert (Em : m = string_member (lit "alg") (j_name j)) by congruence. subst m.
    apply named_typ_prefix in Hm. discriminate Hm.
  - assert (Em : m = string_member (lit "typ") (lit "JWT")) by congruence. rewrite Em.
    repeat constructor.
  - assert (Ey : y = string_member (lit "typ") (lit "JWT")) by congruence. subst y.
    inversion Hn as [|? ? _ Hn']; subst. inversion Hn' as [|? ? Hn'' _]; subst. exfalso. apply Hn''. exists [].
    change (m_key (string_member (lit "typ") (lit "JWT"))) with (lit "typ"). rewrite app_nil_r.
    repeat (constructor; [vm_compute; discriminate|discriminate|discriminate|]). constructor.
Qed.

(** ** C18 *)
(** The caller of decode has the key that matches the key [k] used by encode, for algorithm [j]. *)
Definition right_key (p' : platform) (e e' : env) (ep : enc_params) (dp : dec_params) (j : jwa) (k : bytes) : Prop :=
  exists k', caller_key (dp_verification_key dp) (dp_verification_key_length dp) k' /\ key_usable p' e' j k'
    /\ same_hashes e e' /\ matching_keys e e' j k (ep_secret_key_pw ep) (ep_secret_key_pw_length ep) k'.
(** What was encoded is what is decoded, by the same algorithm with the matching key, or without a look
    at the signature (the id -1). *)
Theorem C18_round_trip :
  forall p e ep w r w',
    (6 <= p_size_bits p)%N -> wf w -> appended w w' -> allocated w w' ->
    l8w8jwt_encode p e (Some ep) w = Ret r w' -> er_rc r = L8W8JWT_SUCCESS ->
    header_commas_ok ep -> payload_commas_ok ep ->
    let hcs := keyed_claims (ep_header_claims ep) (ep_header_claims_count ep) in
    let pcs := keyed_claims (ep_payload_claims ep) (ep_payload_claims_count ep) in
    raw_values_ok hcs -> raw_values_ok pcs ->
    exists id token ht pt j k,
      er_out r = Some (Ptr (Some id) (token ++ [x00])) /\ er_len r = Some (N.of_nat (length token))
      /\ supported (ep_alg ep) j /\ caller_key (ep_secret_key ep) (ep_secret_key_length ep) k
      /\ (exists s, token = rfc4648_unpadded true ht ++ lit "." ++ rfc4648_unpadded true pt ++ lit "." ++ s)
      /\ forall p' e' dp w1,
         wf w1 -> grows w1 -> allocs w1 -> (32 <= p_size_bits p')%N -> uses_jsmn e' -> checknum_right e' ->
         readable ht hcs -> readable pt pcs ->
         c_text p' dp token -> (Z.of_nat (length token) <= INT_MAX)%Z ->
         key_ok (dp_verification_key dp) (dp_verification_key_length dp) ->
         (dp_alg dp = (-1)%Z \/ dp_alg dp = ep_alg ep /\ right_key p' e e' ep dp j k) ->
         requests_ok p' e' dp ->
         exists r' w2 v b fs hs rs ps, l8w8jwt_decode p' e' (Some dp) true true true w1 = Ret r' w2
           /\ dr_rc r' = L8W8JWT_SUCCESS
           /\ dr_valid r' = Some v /\ N.testbit v 7 = false /\ (asks_nothing dp -> v = 0%N)
           /\ dr_claims r' = Some (CArr b (fs ++ hs ++ rs ++ ps), N.of_nat (length (fs ++ hs ++ rs ++ ps)))
           /\ fixed_back j fs /\ Forall2 claim_back hcs hs /\ registered_back ep rs /\ Forall2 claim_back pcs ps.
Proof.
  intros p e ep w r w' Hp Hwf Hg Ha H Hrc Hhc Hpc hcs pcs Hhr Hpr.
  as_unlimited (local_encode p e (Some ep)) H Hg Ha.
  apply encode_inv in H as [(Hrc' & _)|(_ & _ & id & t & Ho & Hlen & _ & _ & _ & _ & Ht)]; auto; [congruence|].
  destruct (Ht Hg) as (ht & pt & sig & Hh & Hpt & Hne & (j & k & Hj & Hk & Hs) & Et).
  destruct (header_object _ _ _ _ Hh Ha Hj Hhc Hhr) as (hadd & (A1 & W1) & O1).
  destruct (payload_object _ _ _ Hpt Ha Hpc Hpr) as (reg & padd & (A2 & W2) & (A3 & W3) & O2).
  exists id, t, ht, pt, j, k. split; [exact Ho|]. split; [exact Hlen|]. split; [exact Hj|]. split; [exact Hk|].
  split; [exists (b64url sig); exact Et|].
  intros p' e' dp w1 Hwf1 Hg1 Ha1 Hp' Huj Hcn R1 R2 Htx Hln Hko Hky Hrq.
  destruct (text_decodes ht (object_not_empty _ _ O1)) as (t1 & D1). destruct (text_decodes pt (object_not_empty _ _ O2)) as (t2 & D2).
  destruct (text_decodes sig Hne) as (t3 & D3).
  destruct (unpadded_clean ht) as [N1 _]. destruct (unpadded_clean pt) as [N2 _].
  rewrite Et in Htx, Hln. unfold b64url in *.
  assert (Hps : signature_passes p' e' dp (rfc4648_unpadded true ht ++ lit "." ++ rfc4648_unpadded true pt) sig).
  { destruct Hky as [Hky|(Halg & k' & Hck & Hus & Hsh & Hmk)]; [left; exact Hky|right]. exists j, k'. rewrite Halg.
    split; [exact Hj|]. split; [exact Hck|]. split; [exact Hus|]. exact (signed_verified _ _ _ _ _ _ _ _ _ Hsh Hmk Hs). }
  destruct (C50_valid_tokens_accepted_partial p' e' dp _ _ _ ht t1 pt t2 sig t3 (fixed_members j ++ hadd) (reg ++ padd) w1
    Hwf1 Ha1 Hg1 Huj Hcn Hp' Htx N1 N2 Hln D1 D2 D3 (object_text_of _ _ O1) (object_text_of _ _ O2)
    (last_flat_fits _ _ _ _ A1 R1 (fixed_flat j)) (last_flat_fits _ _ _ _ A3 R2 (fun m => registered_flat ep reg m A2))
    Hko Hps Hrq
    (or_intror (fixed_typ_ok p' j _ _)))
    as (r' & w2 & v & b & cs & E & Erc & Ev & Eb & En & Ec & HF & _).
  rewrite <- app_assoc in HF.
  apply Forall2_app_inv_r in HF as (fs & x1 & F1 & HF & ->). apply Forall2_app_inv_r in HF as (hs & x2 & F2 & HF & ->).
  apply Forall2_app_inv_r in HF as (rs & ps & F3 & F4 & ->).
  exists r', w2, v, b, fs, hs, rs, ps. repeat (split; [assumption|]).
  split; [eapply back_fixed; eauto|]. split; [eapply back_claims; eauto|]. split; [eapply back_registered; eauto|eapply back_claims; eauto].
Qed.
Print Assumptions C18_round_trip.

(** ** Examples *)
Definition round_trip_params : dec_params :=
  dp_plain (match l8w8jwt_encode pe toy_num (Some ep_sample) we with
            | Ret r _ => match er_out r with Some (Ptr _ t) => removelast t | _ => [] end | Undef _ => [] end) 0 (zstr "secret") 6.
Example C18_example :
  let hcs := keyed_claims (ep_header_claims ep_sample) (ep_header_claims_count ep_sample) in
  let pcs := keyed_claims (ep_payload_claims ep_sample) (ep_payload_claims_count ep_sample) in
  let dp := round_trip_params in
  header_commas_ok ep_sample /\ payload_commas_ok ep_sample /\ raw_values_ok hcs /\ raw_values_ok pcs
  /\ grows we /\ allocs we /\ uses_jsmn toy_num /\ checknum_right toy_num
  /\ readable (lit "{""alg"":""HS256"",""typ"":""JWT"",""kid"":""k1""}") hcs
  /\ readable (lit "{""iat"":1000,""exp"":2000,""sub"":""Gordon\""F"",""iss"":""Black Mesa"",""ctx"":{""a"":[1, 2]},""age"":27}") pcs
  /\ dp_alg dp = ep_alg ep_sample
  /\ (exists token, dp_jwt dp = Ptr None (token ++ [x00])
       /\ outcome (l8w8jwt_encode pe toy_num (Some ep_sample) we) = Some (L8W8JWT_SUCCESS, token ++ [x00])
       /\ c_text pe dp token)
  /\ key_ok (dp_verification_key dp) (dp_verification_key_length dp)
  /\ caller_key (dp_verification_key dp) (dp_verification_key_length dp) (lit "secret")
  /\ key_usable pe toy_num (Jwa 0 (lit "HS256") HS SHA256) (lit "secret")
  /\ same_hashes toy_num toy_num
  /\ matching_keys toy_num toy_num (Jwa 0 (lit "HS256") HS SHA256) (lit "secret") Null 0 (lit "secret")
  /\ requests_ok pe toy_num dp /\ asks_nothing dp.
Proof.
  destruct C11_example_hypotheses as (H1 & H2 & H3 & H4). cbv zeta. do 4 (split; [assumption|]).
  split; [intros k; reflexivity|]. split; [intros k; reflexivity|]. split; [intros js cap; reflexivity|].
  split; [apply toy_num_right|]. split; [left; apply small_size; vm_compute; reflexivity|]. split; [left; apply small_size; vm_compute; reflexivity|].
  split; [reflexivity|]. split.
  { set (t := match l8w8jwt_encode pe toy_num (Some ep_sample) we with
              | Ret r _ => match er_out r with Some (Ptr _ t) => removelast t | _ => [] end | Undef _ => [] end).
    exists t. split; [reflexivity|]. split; [vm_compute; reflexivity|]. split; [exists None, []; reflexivity|].
    split; [apply no_nul_b; vm_compute; reflexivity|]. split; vm_compute; reflexivity. }
  split.
  { split; [vm_compute; split; [reflexivity|discriminate]|]. exists (lit "secret"). split; [|left; vm_compute; reflexivity].
    exists None, (clit "secret"). split; [reflexivity|]. split; [vm_compute; discriminate|reflexivity]. }
  split. { exists None, (clit "secret"). split; [reflexivity|]. split; [vm_compute; discriminate|reflexivity]. }
  split. { split; [discriminate|exact I]. }
  split; [split; reflexivity|]. split; [reflexivity|].
  split; [|repeat split]. do 4 (split; [left; reflexivity|]). split; [repeat split; discriminate|left; reflexivity].
Qed.
(** What comes back, by computation: key, value and type of each claim. *)
Definition claim_texts (c : claim) : bytes * bytes * Z :=
  (match c_key c with Ptr _ m => firstn (N.to_nat (c_key_length c)) m | Null => [] end,
   match c_value c with Ptr _ m => firstn (N.to_nat (c_value_length c)) m | Null => [] end, c_type c).
Example C18_example_claims :
  match l8w8jwt_decode pe toy_num (Some round_trip_params) true true true we with
  | Ret r _ => Some (dr_rc r, dr_valid r, match dr_claims r with Some (CArr _ cs, _) => map claim_texts cs | _ => [] end)
  | Undef _ => None end
  = Some (L8W8JWT_SUCCESS, Some 0%N,
      [(lit "alg", lit "HS256", 0%Z); (lit "typ", lit "JWT", 0%Z); (lit "kid", lit "k1", 0%Z);
       (lit "iat", lit "1000", 1%Z); (lit "exp", lit "2000", 1%Z); (lit "sub", lit "Gordon""F", 0%Z);
       (lit "iss", lit "Black Mesa", 0%Z); (lit "ctx", lit "{""a"":[1, 2]}", 6%Z); (lit "age", lit "27", 1%Z)]).
Proof. vm_compute. reflexivity. Qed.

(** Matching keys exist for every family: a backend that verifies exactly what it signs. *)
Definition beq (a b : bytes) : bool := if list_eq_dec Byte.byte_eq_dec a b then true else false.
Lemma beq_refl a : beq a a = true.
Proof. unfold beq. destruct (list_eq_dec Byte.byte_eq_dec a a); [reflexivity|contradiction]. Qed.
Definition toy_pairs : env := {|
  e_seed_ok := true; e_hmac := e_hmac toy; e_md := e_md toy; e_parse_key := e_parse_key toy;
  e_parse_public_key := e_parse_public_key toy; e_x509_parse := e_x509_parse toy;
  e_can_do := e_can_do toy; e_bitlen := e_bitlen toy; 
  e_pk_sign := fun _ _ d => Some (fit 256 d); e_pk_verify := fun _ _ d s => beq (fit 256 d) s; e_pk_rsa := e_pk_rsa toy; e_rsa_len := e_rsa_len toy;
  e_pss_sign := fun _ _ d => Some (fit 256 d); e_pss_verify := fun _ _ d s => beq (fit 256 d) s; e_pk_ec := e_pk_ec toy;
  e_ecdsa_from_keypair := e_ecdsa_from_keypair toy; e_group := e_group toy;
  e_ecdsa_sign := fun _ d => Some (N.of_nat (length d), 7%N);
  e_ecdsa_verify := fun _ d r s => (r =? N.of_nat (length d))%N && (s =? 7)%N;
  e_ed_sign := fun m k => firstn 32 k ++ fit 32 m;
  e_ed_verify := fun s m k => beq s (k ++ fit 32 m); e_time := e_time toy;
  e_checknum := e_checknum toy_num; e_jsmn := e_jsmn toy; e_tok_junk := e_tok_junk toy |}.
Example C18_matching_keys :
  (forall j, In j jwa_table -> j_family j = HS \/ j_family j = RS \/ j_family j = PS \/ (exists c b n, j_family j = ES c b n) ->
     matching_keys toy_pairs toy_pairs j (lit "PEM") Null 0 (lit "PEM"))
  /\ (forall j, In j jwa_table -> j_family j = ED ->
     matching_keys toy_pairs toy_pairs j (repeat x61 128) Null 0 (repeat x61 64)).
Proof.
  assert (P : public_key_of toy_pairs (lit "PEM") 0%nat).
  { right. split; [|reflexivity]. intros (a & b & E). apply (f_equal (@length byte)) in E. rewrite !app_length in E.
    change (length (before_nul (lit "PEM"))) with 3%nat in E. change (length (lit "-----BEGIN CERTIFICATE-----")) with 27%nat in E. lia. }
  split.
  - intros j _ [E|[E|[E|(c & b & n & E)]]]; unfold matching_keys; rewrite E.
    + reflexivity.
    + exists 0%nat, 0%nat. split; [split; [reflexivity|exact P]|].
      intros d s Hs. cbn [e_pk_sign toy_pairs] in Hs. injection Hs as <-. split; [rewrite fit_length; vm_compute; discriminate|apply beq_refl].
    + exists 0%nat, 0%nat. split; [split; [reflexivity|exact P]|]. split; [reflexivity|]. split; [reflexivity|]. split; [reflexivity|].
      intros d s Hs. cbn [e_pss_sign toy_pairs] in Hs. injection Hs as <-. split; [rewrite fit_length; reflexivity|apply beq_refl].
    + exists 0%nat, 0%nat. split; [split; [reflexivity|exact P]|]. split; [reflexivity|].
      intros d r s Hs. cbn [e_ecdsa_sign toy_pairs] in Hs. injection Hs as <- <-. cbn [e_ecdsa_verify toy_pairs]. rewrite N.eqb_refl. reflexivity.
  - intros j _ E. unfold matching_keys. rewrite E. exists (repeat x61 128), (repeat xaa 64), (repeat x61 64), (repeat xaa 32).
    split; [left; reflexivity|]. split; [reflexivity|]. split; [vm_compute; reflexivity|]. split; [left; reflexivity|]. split; [reflexivity|].
    split; [vm_compute; reflexivity|]. intros msg. cbn [e_ed_sign e_ed_verify toy_pairs].
    replace (firstn 32 (repeat xaa 64)) with (repeat xaa 32) by (vm_compute; reflexivity).
    rewrite fit_exact; [apply beq_refl|]. rewrite app_length, fit_length, repeat_length. reflexivity.
Qed.
(** Non-vacuous: a token with nesting, white space and escapes meets the hypotheses of C50. *)
Example C50_example :
  let dp := dp_plain rich_token 0 (zstr "secret") 6 in
  let h := rfc4648_unpadded true (lit plain_header) in let pl := rfc4648_unpadded true (lit rich_payload) in
  let sig := fit 32 (lit "secret" ++ h ++ lit "." ++ pl) in let s := rfc4648_unpadded true sig in
  wf we /\ allocs we /\ grows we /\ uses_jsmn toy_num /\ checknum_right toy_num
  /\ c_text pe dp (h ++ lit "." ++ pl ++ lit "." ++ s) /\ no_dot h /\ no_dot pl
  /\ (exists tail, url_decodes h (lit plain_header) tail) /\ (exists tail, url_decodes pl (lit rich_payload) tail)
  /\ (exists tail, url_decodes s sig tail)
  /\ object_text (lit plain_header) plain_members /\ object_text (lit rich_payload) rich_members
  /\ fits (lit plain_header) plain_members /\ fits (lit rich_payload) rich_members
  /\ verified_by toy_num (Jwa 0 (lit "HS256") HS SHA256) (lit "secret") (h ++ lit "." ++ pl) sig
  /\ key_usable pe toy_num (Jwa 0 (lit "HS256") HS SHA256) (lit "secret") /\ requests_ok pe toy_num dp.
Proof.
  cbv zeta. split; [apply we_wf|]. split; [intros k; reflexivity|]. split; [intros k; reflexivity|].
  split; [intros js cap; reflexivity|]. split; [apply toy_num_right|]. split.
  { split; [exists None, []; unfold dp_plain, rich_token, signed; cbn [dp_jwt]; rewrite <- !app_assoc; reflexivity|].
    split; [apply no_nul_b; vm_compute; reflexivity|]. split; vm_compute; reflexivity. }
  split; [apply unpadded_clean|]. split; [apply unpadded_clean|].
  split; [apply text_decodes; discriminate|]. split; [apply text_decodes; discriminate|]. split; [apply text_decodes; discriminate|].
  split; [apply plain_object|]. split; [apply rich_object|].
  split; [left; apply small_size; vm_compute; reflexivity|]. split; [left; apply small_size; vm_compute; reflexivity|].
  split; [eexists; split; [reflexivity|vm_compute; reflexivity]|]. split; [split; [discriminate|exact I]|].
  do 4 (split; [left; reflexivity|]). split; [repeat split; discriminate|left; reflexivity].
Qed.
