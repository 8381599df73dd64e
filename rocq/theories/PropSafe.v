(** * Property C23: decoding is memory safe *)
From Verif Require Import Base BaseProofs HeapProofs Util UtilProofs Claim Base64 SpecB64
  Base64EncApi Base64DecProofs Base64Api Jsmn Env Encode Decode SpecJson SpecJwa ClaimProofs UnescapeProofs
  SignProofs EncodeTotal PropEncode DecodeProofs DecodeInv JsmnProofs ParseProofs PropClaim ReadProofs ValidateProofs
  JsmnJson JsmnSize PropVerify PropValidate PropLeak PropJson DecodeTotal.
From Coq Require Import ZifyBool ZifyNat ZifyN.
Ltac Zify.zify_post_hook ::= Z.div_mod_to_equations.
Local Opaque L8W8JWT_MAX_KEY_SIZE.

(** ** Notions *)
(** What the decoder makes of a header or payload text [t] has at most 62 tokens, or is a JSON object
    whose last member is neither an array nor an object. *)
Definition few_tokens (e : env) (t : bytes) : Prop :=
  forall o tail, url_decodes t o tail ->
    (fst (e_jsmn e o None) <= 62)%Z \/ (checknum_right e /\ exists ms, object_text o ms /\ fits o ms).
(** What the decoder makes of a header or payload text [t] is text that tolower understands (ASCII, or
    any text if char is unsigned), or at least the values of its typ members are. *)
Definition typ_readable (p : platform) (e : env) (t : bytes) : Prop :=
  forall o tail, url_decodes t o tail ->
    Forall (plain p) o
    \/ (checknum_right e /\ exists ms, object_text o ms /\ fits o ms
        /\ Forall (fun m => forall rest, kept_body (m_key m) (lit "typ" ++ rest) -> Forall (plain p) (m_value m)) ms).
(** The key has the type the algorithm needs, and the signature [sig] is long enough for it. *)
Definition fit_for (e : env) (jw : jwa) (k sig : bytes) : Prop :=
  match j_family jw with
  | HS => (md_size (j_hash jw) <= N.of_nat (length sig))%N
  | RS => True
  | PS => forall pk, public_key_of e k pk -> e_pk_rsa e pk = true /\ (e_rsa_len e pk <= N.of_nat (length sig))%N
  | ES _ _ _ => forall pk, public_key_of e k pk -> e_pk_ec e pk = true
  | ED => (64 <= length sig)%nat
  end.
(** The demands on the token text [j] (three parts, or two if no signature is asked for). *)
Definition tame_token (p : platform) (e : env) (dp : dec_params) (j : bytes) : Prop :=
  (forall h pl s, parts3 j h pl s ->
     few_tokens e h /\ few_tokens e pl
     /\ (dp_validate_typ dp = Null \/ typ_readable p e h /\ typ_readable p e pl)
     /\ forall jw k sig tail, supported (dp_alg dp) jw ->
          caller_key (dp_verification_key dp) (dp_verification_key_length dp) k ->
          url_decodes s sig tail -> fit_for e jw k sig)
  /\ (dp_alg dp = (-1)%Z -> forall h pl, parts2 j h pl -> few_tokens e h /\ few_tokens e pl
     /\ (dp_validate_typ dp = Null \/ typ_readable p e h /\ typ_readable p e pl)).

Lemma b64_decodes_shorter t o tail : b64_decodes t o tail -> (length o <= S (length t))%nat.
Proof.
  intros (_ & Hb & lf & Hd & _).
  assert (Hs : (length (syms true t) <= length t)%nat).
  { unfold syms. clear. induction t as [|c t IH]; cbn [filter length]; [lia|].
    destruct (Base64DecProofs.accepted true c); cbn [length]; lia. }
  pose proof (dec_len_bound _ _ _ _ Hb Hd) as [_ H]. unfold bad_count in Hb.
  destruct (Nat.eqb_spec (length (syms true t)) 0); [discriminate|].
  destruct (Nat.eqb_spec (length (syms true t) mod 4) 1); [discriminate|]. lia.
Qed.
Lemma few_tokens_parseable e t : uses_jsmn e -> (Z.of_nat (length t) < INT_MAX)%Z -> few_tokens e t -> parseable e t.
Proof.
  intros Hj Hl Hf o tail Hd. pose proof (b64_decodes_shorter _ _ _ Hd) as Hs. split; [lia|].
  destruct (Hf o tail (b64_decodes_url _ _ _ Hd)) as [H|(Hc & ms & Ho & Hm)]; [left; exact H|right].
  destruct (object_reads e o ms tail Hj Hc Ho Hm) as [R _]. eauto.
Qed.
(** Every byte of a claim read is a byte of the text. *)
Lemma span_In n mem t c : tok_in n t -> (n <= length mem)%nat -> In c (span mem t) -> In c (firstn n mem).
Proof.
  intros (_ & H1 & H2 & _) Hn H. unfold span in H.
  rewrite <- (firstn_skipn n mem) in H. rewrite skipn_app, firstn_app in H.
  apply in_app_iff in H as [H|H].
  - apply firstn_In_sub in H. apply skipn_In_sub in H. exact H.
  - exfalso. assert (L : length (firstn n mem) = n) by (rewrite firstn_length; lia).
    rewrite skipn_length, L in H.
    replace (Z.to_nat (t_end t - t_start t) - (n - Z.to_nat (t_start t)))%nat with 0%nat in H by lia.
    rewrite firstn_O in H. exact H.
Qed.
Lemma read_bytes e mem n toks cap r junk : (r <= Z.of_nat (length toks))%Z -> Forall (tok_in n) toks -> (n <= length mem)%nat ->
  forall fuel i fin es, (0 <= i)%Z -> read_claims fuel e mem (TokArr toks cap junk) r i = OK (fin, es) ->
  Forall (fun x => forall c, In c (snd x) -> In c (firstn n mem)) es.
Proof.
  intros Hr Ht Hn. assert (T : forall i t, (0 <= i < r)%Z -> tok_at (TokArr toks cap junk) i = OK t -> tok_in n t).
  { intros i t H E. unfold tok_at in E. destruct (_ || _); [discriminate|]. inversion E; subst t.
    rewrite Forall_forall in Ht. apply Ht. apply nth_In. cbn [ta_toks]. lia. }
  induction fuel as [|f IH]; intros i fin es H0 H; [discriminate|]. cbn [read_claims] in H.
  destruct (negb (i <? r)%Z) eqn:Ei; [inversion H; constructor|].
  apply ubind_inv in H as (key & H1 & H). apply ubind_inv in H as (value & H2 & H).
  destruct (_ || _) eqn:Eb; [inversion H; constructor|].
  apply ubind_inv in H as (ct & H3 & H). destruct ct as [[type i']|]; [|inversion H; constructor].
  apply (claim_type_next pe e mem n toks cap r junk ltac:(vm_compute; discriminate) Hn) in H3.
  apply ubind_inv in H as ([fin' es'] & H4 & H). inversion H; subst. cbn [snd].
  constructor; [|eapply IH; [|exact H4]; lia]. cbn [snd]. intros c. apply span_In; [|exact Hn].
  eapply T; [|exact H2]. lia.
Qed.
Lemma reads_bytes e mem len es : (N.to_nat len <= length mem)%nat -> reads e mem len es ->
  Forall (fun x => forall c, In c (snd x) -> In c (firstn (N.to_nat len) mem)) es.
Proof.
  intros Hl [(_ & ->)|(Hr & t0 & toks & Hp & _ & H)]; [constructor|].
  apply jsmn_tokens in Hp as [H1 H2]; [|lia]. destruct (before_nul_firstn (N.to_nat len) mem) as (_ & B2 & B3).
  pose proof (fun x y => read_bytes e mem _ (t0 :: toks) _ _ (e_tok_junk e) x H2 B3 _ 1%Z _ es y H) as G.
  specialize (G ltac:(lia) ltac:(lia)). eapply Forall_impl; [|exact G]. intros x Hx c Hc. specialize (Hx c Hc).
  replace (length (before_nul (firstn (N.to_nat len) mem))) with
    (Nat.min (length (before_nul (firstn (N.to_nat len) mem))) (N.to_nat len)) in Hx by lia.
  rewrite <- firstn_firstn in Hx. apply firstn_In_sub in Hx. exact Hx.
Qed.
Lemma unescape_char_ascii c u : unescape_char c = Some u -> (b2n u < 128)%N.
Proof. destruct c; intros H; inversion H; vm_compute; reflexivity. Qed.
Lemma unesc_plain p n : forall s, (length s <= n)%nat -> Forall (plain p) s -> Forall (plain p) (unesc s).
Proof.
  induction n as [|n IH]; intros s Hl H; [destruct s; [constructor|simpl in Hl; lia]|].
  destruct s as [|c s]; [constructor|]. cbn [length] in Hl. inversion H as [|? ? Hc Hs]; subst. cbn [unesc].
  destruct (Byte.eqb c x5c); [|constructor; [exact Hc|apply IH; auto; lia]].
  destruct s as [|c2 s]; [constructor; auto|]. cbn [length] in Hl. inversion Hs as [|? ? Hc2 Hs2]; subst.
  destruct (unescape_char c2) as [u|] eqn:E.
  - constructor; [intros _; eapply unescape_char_ascii; eauto|apply IH; auto; lia].
  - constructor; [exact Hc|]. apply IH; [cbn [length]; lia|exact Hs].
Qed.
Lemma ncpy_plain p s : Forall (plain p) s -> Forall (plain p) (ncpy s).
Proof.
  induction 1 as [|c s Hc Hs IH]; [constructor|]. cbn [ncpy]. destruct (is_nul c); [|constructor; auto].
  apply Forall_forall. intros x Hx. apply repeat_spec in Hx. subst x. intros _. vm_compute. reflexivity.
Qed.
Lemma claim_value_plain p ty s : Forall (plain p) s -> Forall (plain p) (claim_value_of ty s).
Proof.
  unfold claim_value_of. destruct (_ =? _)%Z; [apply (unesc_plain p (length s)); lia|apply ncpy_plain].
Qed.
Lemma vtext_plain p k t : Forall (plain p) t -> Forall (plain p) (vtext k t).
Proof.
  intros H. destruct k; try exact H. cbn [vtext]. rewrite Forall_forall in *. intros c Hc. apply H.
  assert (G : forall l : bytes, In c (removelast l) -> In c l).
  { induction l as [|a l IH]; [intros []|]. cbn [removelast]. destruct l; [intros []|]. intros [->|K]; [left; reflexivity|right; auto]. }
  apply G in Hc. destruct t; [destruct Hc|right; exact Hc].
Qed.
Lemma typ_readable_seg p e t : uses_jsmn e -> typ_readable p e t -> seg_typ_ok p e t.
Proof.
  intros Hj H o tail es ty k v Hd Hr Hi Hk. apply claim_value_plain.
  destruct (H o tail (b64_decodes_url _ _ _ Hd)) as [Hp|(Hc & ms & Ho & Hm & HF)].
  - apply reads_bytes in Hr; [|rewrite app_length; lia]. rewrite Nat2N.id, firstn_app_exact in Hr.
    rewrite Forall_forall in *. intros c Hc. apply Hp. exact (Hr _ Hi c Hc).
  - destruct (object_reads e o ms tail Hj Hc Ho Hm) as [R Hok]. rewrite (reads_fun _ _ _ _ _ Hr R) in Hi.
    apply in_map_iff in Hi as (m & E & Hi). unfold entry_of in E. inversion E; subst. apply vtext_plain.
    rewrite Forall_forall in HF. apply prefixb_spec in Hk as (rest & Hk). apply (HF m Hi rest).
    rewrite Forall_forall in Hok. destruct (Hok m Hi) as [(d & K) _]. rewrite <- Hk.
    exact (json_body_kept _ _ K).
Qed.
Lemma tame_parts p e dp j : uses_jsmn e -> (Z.of_nat (length j) <= INT_MAX)%Z -> tame_token p e dp j ->
  parts_parseable e dp j /\ parts_typ_ok p e dp j /\ signature_verifiable e dp j.
Proof.
  intros Hj Hl (H3 & H2). split; [split|split].
  - intros h pl s P. destruct (H3 h pl s P) as (Hh & Hp & _ & _). destruct P as (E & _).
    rewrite E, !app_length in Hl. change (length (lit ".")) with 1%nat in Hl.
    split; apply few_tokens_parseable; auto; lia.
  - intros Ea h pl P. destruct (H2 Ea h pl P) as (Hh & Hp & _). destruct P as (E & _).
    rewrite E, !app_length in Hl. change (length (lit ".")) with 1%nat in Hl.
    split; apply few_tokens_parseable; auto; lia.
  - unfold parts_typ_ok. destruct (dp_validate_typ dp) as [|b m] eqn:Et; [left; reflexivity|right]. split.
    + intros h pl s P. destruct (H3 h pl s P) as (_ & _ & [C|[Q1 Q2]] & _); [discriminate|].
      split; apply typ_readable_seg; assumption.
    + intros Ea h pl P. destruct (H2 Ea h pl P) as (_ & _ & [C|[Q1 Q2]]); [discriminate|].
      split; apply typ_readable_seg; assumption.
  - intros h pl s jw k sig tail P Hs Hk Hd. destruct (H3 h pl s P) as (_ & _ & _ & Hf).
    specialize (Hf jw k sig tail Hs Hk (b64_decodes_url _ _ _ Hd)). unfold fit_for in Hf. unfold verifiable.
    rewrite app_length. destruct (j_family jw); auto; try lia.
    intros pk Hpk. destruct (Hf pk Hpk). split; [assumption|lia].
Qed.

Lemma key_given_valid p dp : key_given (dp_verification_key dp) (dp_verification_key_length dp) ->
  l8w8jwt_validate_decoding_params p (Some dp) = L8W8JWT_SUCCESS ->
  key_ok (dp_verification_key dp) (dp_verification_key_length dp).
Proof.
  intros Hk Hv. unfold l8w8jwt_validate_decoding_params in Hv. change L8W8JWT_MAX_KEY_SIZE with 8192%N in Hv.
  destruct (is_null (dp_jwt dp) || is_null (dp_verification_key dp)) eqn:En; [discriminate Hv|]. apply orb_false_iff in En as [_ En].
  destruct (_ || _ || _) eqn:El; [discriminate Hv|]. apply key_given_ok; [exact Hk| |lia].
  intros E. rewrite E in En. discriminate En.
Qed.

(** ** C23 *)
(** [Undef] is the model's outcome for every out-of-bounds access, NULL dereference, bad free, use of
    an indeterminate value or overflow; the calls below return, whatever the token and the backend.
    Demands on the caller: [c_text] (NUL-terminated text and its length), [key_given], [requests_ok] (a
    readable string for every validation asked for; no overflow of the times). Demands on the world:
    the small-stack build gets its buffer, chillbuff_init succeeds or clears the buffer. Missing:
    tokens outside [tame_token], which can be harmful, see the next theorem. *)
Theorem C23_decode_defined_partial :
  forall p e dp j vn cn ln w,
    wf w -> uses_jsmn e -> (32 <= p_size_bits p)%N -> buffers_ok p w -> init_ok p w ->
    c_text p dp j -> (Z.of_nat (length j) <= INT_MAX)%Z ->
    key_given (dp_verification_key dp) (dp_verification_key_length dp) -> requests_ok p e dp ->
    tame_token p e dp j ->
    exists r w', l8w8jwt_decode p e (Some dp) vn cn ln w = Ret r w'.
Proof.
  intros p e dp j vn cn ln w Hwf Hj Hp Hb Hi Ht Hl Hk Hr Hs. destruct (tame_parts p e dp j Hj Hl Hs) as (H1 & H2 & H3).
  destruct (Z.eqb_spec (l8w8jwt_validate_decoding_params p (Some dp)) L8W8JWT_SUCCESS) as [Ev|Ev].
  - apply (decode_total p e dp j); auto. apply (key_given_valid p); auto.
  - unfold l8w8jwt_decode. destruct (cn && negb ln); [do 2 eexists; reflexivity|]. apply Z.eqb_neq in Ev. rewrite Ev. do 2 eexists. reflexivity.
Qed.
Print Assumptions C23_decode_defined_partial.

Theorem C23_decode_raw_defined_partial :
  forall p e dp j vn hn hl pn pl sn sl w,
    wf w -> uses_jsmn e -> (32 <= p_size_bits p)%N -> buffers_ok p w -> init_ok p w ->
    c_text p dp j -> (Z.of_nat (length j) <= INT_MAX)%Z ->
    key_given (dp_verification_key dp) (dp_verification_key_length dp) -> requests_ok p e dp ->
    tame_token p e dp j ->
    exists r w', l8w8jwt_decode_raw p e (Some dp) vn hn hl pn pl sn sl w = Ret r w'.
Proof.
  intros p e dp j vn hn hl pn pl sn sl w Hwf Hj Hp Hb Hi Ht Hl Hk Hr Hs. destruct (tame_parts p e dp j Hj Hl Hs) as (H1 & H2 & H3).
  destruct (Z.eqb_spec (l8w8jwt_validate_decoding_params p (Some dp)) L8W8JWT_SUCCESS) as [Ev|Ev].
  - apply (decode_raw_total p e dp j); auto. apply (key_given_valid p); auto.
  - unfold l8w8jwt_decode_raw. destruct (_ || _); [do 2 eexists; reflexivity|]. apply Z.eqb_neq in Ev. rewrite Ev. do 2 eexists. reflexivity.
Qed.
Print Assumptions C23_decode_raw_defined_partial.

(** Without validation every token whatsoever is handled. *)
Theorem C23_no_validation_defined :
  forall p dp j hn hl pn pl sn sl w,
    wf w -> c_text p dp j ->
    exists r w', l8w8jwt_decode_raw_no_validation p (Some dp) hn hl pn pl sn sl w = Ret r w'.
Proof. intros. eapply decode_raw_nv_total; eauto. Qed.
Print Assumptions C23_no_validation_defined.

(** ** Examples *)
Definition safe_params : dec_params :=
  dp_plain (signed plain_header "{""sub"":""me"",""n"":[1,2]}") 0 (zstr "secret") 6.
Lemma parts3_fun j h pl s h' pl' s' : parts3 j h pl s -> parts3 j h' pl' s' -> h = h' /\ pl = pl' /\ s = s'.
Proof.
  assert (C : forall a b c d, no_dot a -> no_dot c -> a ++ x2e :: b = c ++ x2e :: d -> a = c /\ b = d).
  { induction a as [|x a IH]; intros b c d H1 H2 E; destruct c as [|y c]; cbn [app] in E.
    - injection E; auto.
    - injection E as E1 _. exfalso. apply H2. left. congruence.
    - injection E as E1 _. exfalso. apply H1. left. congruence.
    - injection E as -> E. destruct (IH b c d) as [-> ->]; auto; intros K; [apply H1|apply H2]; right; exact K. }
  intros (E & N1 & N2) (E' & N1' & N2'). rewrite E in E'. change (lit ".") with [x2e] in E'. cbn [app] in E'.
  apply C in E' as [-> E']; [|assumption|assumption]. split; [reflexivity|]. apply C in E'; assumption.
Qed.
Lemma url_decodes_fun t o o' tail tail' : url_decodes t o tail -> url_decodes t o' tail' -> o ++ tail = o' ++ tail' /\ o = o'.
Proof.
  intros H1 H2. destruct (H1 we we_wf eq_refl) as (id & w' & E). destruct (H2 we we_wf eq_refl) as (id' & w'' & E').
  rewrite E in E'. injection E' as E1 E2 E3 E4. split; [exact E2|].
  apply (f_equal N.to_nat) in E3. rewrite !Nat2N.id in E3. apply app_eq_length in E2; [tauto|exact E3].
Qed.
Lemma few_tokens_text e s : s <> [] -> (fst (e_jsmn e s None) <= 62)%Z -> few_tokens e (rfc4648_unpadded true s).
Proof.
  intros Hs Hc o tail Hd. left. destruct (text_decodes s Hs) as (tl & D).
  destruct (url_decodes_fun _ _ _ _ _ Hd D) as [_ ->]. exact Hc.
Qed.
Lemma parts3_of h pl s : all_acc true h -> all_acc true pl -> parts3 (h ++ lit "." ++ pl ++ lit "." ++ s) h pl s.
Proof. intros H1 H2. split; [reflexivity|]. split; [exact (proj1 (acc_no_dot _ H1))|exact (proj1 (acc_no_dot _ H2))]. Qed.

(** The other hypotheses of the theorems, for a caller of the token text [j]. *)
Definition well_called (p : platform) (e : env) (dp : dec_params) (j : bytes) : Prop :=
  uses_jsmn e /\ (32 <= p_size_bits p)%N /\ c_text p dp j /\ (Z.of_nat (length j) <= INT_MAX)%Z
  /\ key_ok (dp_verification_key dp) (dp_verification_key_length dp) /\ requests_ok p e dp.
(** A token with the given header, payload and signature bytes. *)
Definition token_text (h pl : string) (sig : bytes) : bytes :=
  rfc4648_unpadded true (lit h) ++ lit "." ++ rfc4648_unpadded true (lit pl) ++ lit "." ++ rfc4648_unpadded true sig.
Arguments token_text h%string_scope pl%string_scope sig.
Lemma plain_called p e tok alg key klen :
  uses_jsmn e -> (32 <= p_size_bits p)%N -> (N.of_nat (length tok) < size_mod p)%N ->
  (Z.of_nat (length tok) <= INT_MAX)%Z -> no_nul tok -> key_ok key klen -> well_called p e (dp_plain tok alg key klen) tok.
Proof.
  intros Hj Hp Hl Hz Hn Hk. split; [exact Hj|]. split; [exact Hp|]. split.
  - split; [exists None, []; reflexivity|]. split; [exact Hn|]. split; [reflexivity|exact Hl].
  - split; [exact Hz|]. split; [exact Hk|].
    split; [left; reflexivity|]. split; [left; reflexivity|]. split; [left; reflexivity|]. split; [left; reflexivity|].
    split; [|left; reflexivity]. split; [discriminate|]. split; discriminate.
Qed.
Lemma no_nul_b l : forallb (fun c => negb (is_nul c)) l = true -> no_nul l.
Proof. intros H K. rewrite forallb_forall in H. specialize (H _ K). discriminate H. Qed.
Lemma secret_ok : key_ok (zstr "secret") 6.
Proof.
  split; [lia|]. exists (lit "secret"). split; [exists None, (clit "secret"); repeat split; vm_compute; discriminate|left; lia].
Qed.
Ltac called := apply plain_called; [intros js cap; reflexivity|vm_compute; discriminate|vm_compute; reflexivity|
  vm_compute; discriminate|apply no_nul_b; vm_compute; reflexivity|try apply secret_ok].

Definition sure_text : bytes := token_text plain_header "{""sub"":""me"",""n"":[1,2]}" (repeat x2a 32).
Example C23_decode_example :
  let dp := dp_plain sure_text 0 (zstr "secret") 6 in
  wf we /\ well_called pe toy dp sure_text /\ buffers_ok pe we /\ init_ok pe we /\ tame_token pe toy dp sure_text.
Proof.
  split; [apply we_wf|]. split; [called|]. split; [left; reflexivity|]. split; [left; reflexivity|]. split; [|discriminate].
  intros h pl s P.
  destruct (parts3_fun _ _ _ _ _ _ _ P (parts3_of _ _ _ (unpadded_acc true (lit plain_header)) (unpadded_acc true _))) as (-> & -> & ->).
  split; [apply few_tokens_text; vm_compute; discriminate|]. split; [apply few_tokens_text; vm_compute; discriminate|].
  split; [left; reflexivity|].
  intros jw k sig tail Hs _ Hd. destruct (text_decodes (repeat x2a 32)) as (tl & D); [discriminate|].
  destruct (url_decodes_fun _ _ _ _ _ Hd D) as [_ ->].
  rewrite (supported_unique 0 jw (Jwa 0 (lit "HS256") HS SHA256) Hs (conj (or_introl eq_refl) eq_refl)).
  vm_compute. discriminate.
Qed.

(** The typ check, with char signed: a non-ASCII text in another claim does no harm. *)
Definition named_text : bytes := token_text plain_header "{""name"":""é""}" (repeat x2a 32).
Definition named_params : dec_params :=
  DecParams (Ptr None (named_text ++ [x00])) (N.of_nat (length named_text)) 0 Null 0 Null 0 Null 0 Null 0
    false false false 0 0 0 (zstr "secret") 6 (zstr "JWT") 3.
Example C23_typ_example :
  well_called pe toy_num named_params named_text /\ dp_validate_typ named_params <> Null
  /\ tame_token pe toy_num named_params named_text.
Proof.
  split; [|split; [discriminate|split; [|discriminate]]].
  - split; [intros js cap; reflexivity|]. split; [vm_compute; discriminate|]. split.
    { split; [exists None, []; reflexivity|]. split; [apply no_nul_b; vm_compute; reflexivity|]. split; vm_compute; reflexivity. }
    split; [vm_compute; discriminate|]. split; [apply secret_ok|].
    split; [left; reflexivity|]. split; [left; reflexivity|]. split; [left; reflexivity|]. split; [left; reflexivity|].
    split; [repeat split; discriminate|]. right. exists None, (lit "JWT"), []. split; [reflexivity|].
    split; [apply no_nul_b; reflexivity|]. repeat constructor.
  - intros h pl s P.
    destruct (parts3_fun _ _ _ _ _ _ _ P (parts3_of _ _ _ (unpadded_acc true (lit plain_header)) (unpadded_acc true _))) as (-> & -> & ->).
    split; [apply few_tokens_text; vm_compute; discriminate|]. split; [apply few_tokens_text; vm_compute; discriminate|]. split.
    + right. split; intros o tail Hd.
      * destruct (text_decodes (lit plain_header)) as (tl & D); [discriminate|].
        destruct (url_decodes_fun _ _ _ _ _ Hd D) as [_ ->]. left. repeat constructor.
      * destruct (text_decodes (lit "{""name"":""é""}")) as (tl & D); [discriminate|].
        destruct (url_decodes_fun _ _ _ _ _ Hd D) as [_ ->]. right. split; [apply toy_num_right|].
        exists [Member (lit "name") KString (lit """é""")]. split.
        { exists [], (lit "{""name"":""é""}"), []. split; [constructor|]. split; [|split; [constructor|rewrite app_nil_r; reflexivity]].
          change (lit "{""name"":""é""}") with (lit "{" ++ ([] ++ quoted (lit "name") ++ [] ++ lit ":" ++ [] ++ quoted (lit "é") ++ []) ++ lit "}").
          apply JO_members. change (lit """é""") with (quoted (lit "é")).
          eapply JM_one; [js_ws|js_body|js_ws|js_ws|eapply JV_string; js_body|js_ws]. }
        split; [left; apply small_size; vm_compute; reflexivity|]. constructor; [|constructor]. intros rest K. apply kept_unesc in K. discriminate K.
    + intros jw k sig tail Hs _ Hd. destruct (text_decodes (repeat x2a 32)) as (tl & D); [discriminate|].
      destruct (url_decodes_fun _ _ _ _ _ Hd D) as [_ ->].
      rewrite (supported_unique 0 jw (Jwa 0 (lit "HS256") HS SHA256) Hs (conj (or_introl eq_refl) eq_refl)).
      vm_compute. discriminate.
Qed.

(** ** Why the demands are there *)
(** Backends in which no key is an RSA key, or none an EC key. *)
Definition toy_keys (rsa ec : bool) : env := {|
  e_seed_ok := true; e_hmac := e_hmac toy; e_md := e_md toy; e_parse_key := e_parse_key toy;
  e_parse_public_key := e_parse_public_key toy; e_x509_parse := e_x509_parse toy;
  e_can_do := e_can_do toy; e_bitlen := e_bitlen toy; e_pk_sign := e_pk_sign toy;
  e_pk_verify := e_pk_verify toy; e_pk_rsa := fun _ => rsa; e_rsa_len := e_rsa_len toy;
  e_pss_sign := e_pss_sign toy; e_pss_verify := e_pss_verify toy; e_pk_ec := fun _ => ec;
  e_ecdsa_from_keypair := e_ecdsa_from_keypair toy; e_group := e_group toy;
  e_ecdsa_sign := e_ecdsa_sign toy; e_ecdsa_verify := e_ecdsa_verify toy;
  e_ed_sign := e_ed_sign toy; e_ed_verify := e_ed_verify toy; e_time := e_time toy;
  e_checknum := e_checknum toy; e_jsmn := e_jsmn toy; e_tok_junk := e_tok_junk toy |}.
Definition no_memory : world :=
  World (fun _ => false) (fun _ => true) (fun _ _ => xff) 1 0 (fun _ => false).

Definition typ_text : bytes := token_text "{""typ"":""é""}" "{}" (repeat x2a 32).
Definition typ_params : dec_params :=
  DecParams (Ptr None (typ_text ++ [x00])) (N.of_nat (length typ_text)) 0 Null 0 Null 0 Null 0 Null 0
    false false false 0 0 0 (zstr "secret") 6 (zstr "JWT") 3.
Definition long_key : bytes := repeat x61 (N.to_nat 8192).

(** Each case meets the demands on the caller and the world, except the one named. *)
Theorem C23_decode_defined_refuted :
  (* more than 64 tokens, and the last member is an array *)
  (exists p e dp j w, wf w /\ allocs w /\ well_called p e dp j /\ init_ok p w /\ buffers_ok p w
     /\ l8w8jwt_decode p e (Some dp) true true true w = Undef OOBRead)
  (* a signature shorter than the hash (HS256), the modulus (PS256) or 64 bytes (EdDSA) *)
  /\ (forall alg, In alg [0; 6; 13]%Z -> exists p e dp j w, dp_alg dp = alg /\ wf w /\ allocs w /\ well_called p e dp j
     /\ init_ok p w /\ buffers_ok p w /\ l8w8jwt_decode p e (Some dp) true true true w = Undef OOBRead)
  (* a public key of another type than the algorithm's (PS256, ES256) *)
  /\ (forall alg, In alg [6; 9]%Z -> exists p e dp j w, dp_alg dp = alg /\ wf w /\ allocs w /\ well_called p e dp j
     /\ init_ok p w /\ buffers_ok p w /\ l8w8jwt_decode p e (Some dp) true true true w = Undef NullDeref)
  (* small-stack build without memory *)
  /\ (exists p e dp j w, wf w /\ well_called p e dp j /\ init_ok p w
     /\ l8w8jwt_decode p e (Some dp) true true true w = Undef NullDeref)
  (* chillbuff_init without memory, in a version that leaves the buffer untouched *)
  /\ (exists p e dp j w, wf w /\ well_called p e dp j /\ buffers_ok p w
     /\ l8w8jwt_decode p e (Some dp) true true true w = Undef UninitUse)
  (* a key of the maximal length 8192, without a NUL *)
  /\ (exists p e dp j w k, wf w /\ allocs w /\ c_text p dp j /\ caller_key (dp_verification_key dp) 8192 k
     /\ dp_verification_key_length dp = 8192%N /\ requests_ok p e dp
     /\ l8w8jwt_decode p e (Some dp) true true true w = Undef OOBRead)
  (* a non-ASCII typ in the token, typ validation asked for, and char signed *)
  /\ (exists p e dp j w, wf w /\ allocs w /\ c_text p dp j /\ dp_validate_typ dp = zstr "JWT"
     /\ key_ok (dp_verification_key dp) (dp_verification_key_length dp)
     /\ l8w8jwt_decode p e (Some dp) true true true w = Undef BadCtype).
Proof.
  split; [|split; [|split; [|split; [|split; [|split]]]]].
  - exists pe, toy, (many_params "]}"), (signed "{}" (String.append "{""a"":[" (String.append zeros "]}"))), we.
    split; [apply we_wf|]. split; [intros k; reflexivity|]. split; [called|]. split; [left; reflexivity|].
    split; [left; reflexivity|]. vm_compute. reflexivity.
  - assert (G : forall alg key klen sig e, uses_jsmn e -> key_ok key klen ->
      l8w8jwt_decode pe e (Some (dp_plain (token_text plain_header "{}" sig) alg key klen)) true true true we = Undef OOBRead ->
      forallb (fun c => negb (is_nul c)) (token_text plain_header "{}" sig) = true ->
      (N.of_nat (length (token_text plain_header "{}" sig)) < size_mod pe)%N ->
      (Z.of_nat (length (token_text plain_header "{}" sig)) <= INT_MAX)%Z ->
      exists p e dp j w, dp_alg dp = alg /\ wf w /\ allocs w /\ well_called p e dp j
        /\ init_ok p w /\ buffers_ok p w /\ l8w8jwt_decode p e (Some dp) true true true w = Undef OOBRead).
    { intros alg key klen sig e Hj Hk E Hn Hs Hz. exists pe, e, (dp_plain (token_text plain_header "{}" sig) alg key klen), (token_text plain_header "{}" sig), we.
      split; [reflexivity|]. split; [apply we_wf|]. split; [intros k; reflexivity|].
      split; [apply plain_called; auto; [vm_compute; discriminate|apply no_nul_b; exact Hn]|].
      split; [left; reflexivity|]. split; [left; reflexivity|exact E]. }
    intros alg [<-|[<-|[<-|[]]]].
    + apply (G 0%Z (zstr "secret") 6%N [x2a] toy); [intros js cap; reflexivity|apply secret_ok|..]; vm_compute; reflexivity || discriminate.
    + apply (G 6%Z (zstr "secret") 6%N [x2a] toy); [intros js cap; reflexivity|apply secret_ok|..]; vm_compute; reflexivity || discriminate.
    + apply (G 13%Z (Ptr None (repeat x61 64)) 64%N [x2a] toy); [intros js cap; reflexivity| |..]; [|vm_compute; reflexivity || discriminate ..].
      split; [lia|]. exists (repeat x61 64). split; [|left; lia]. exists None, (repeat x61 64). repeat split; vm_compute; discriminate.
  - assert (G : forall alg e, uses_jsmn e ->
      l8w8jwt_decode pe e (Some (dp_plain sure_text alg (zstr "secret") 6)) true true true we = Undef NullDeref ->
      exists p e dp j w, dp_alg dp = alg /\ wf w /\ allocs w /\ well_called p e dp j
        /\ init_ok p w /\ buffers_ok p w /\ l8w8jwt_decode p e (Some dp) true true true w = Undef NullDeref).
    { intros alg e Hj E. exists pe, e, (dp_plain sure_text alg (zstr "secret") 6), sure_text, we.
      split; [reflexivity|]. split; [apply we_wf|]. split; [intros k; reflexivity|].
      split; [apply plain_called; [exact Hj|vm_compute; discriminate|vm_compute; reflexivity|vm_compute; discriminate|apply no_nul_b; vm_compute; reflexivity|apply secret_ok]|].
      split; [left; reflexivity|]. split; [left; reflexivity|exact E]. }
    intros alg [<-|[<-|[]]]; [apply (G _ (toy_keys false true))|apply (G _ (toy_keys true false))]; try (intros js cap; reflexivity); vm_compute; reflexivity.
  - exists pe_small, toy, (dp_plain sure_text 0 (zstr "secret") 6), sure_text,
      (World (fun i => negb (Nat.eqb i 5)) (fun _ => true) (fun _ _ => xff) 1 0 (fun _ => false)).
    split; [intros i _; reflexivity|]. split; [called|]. split; [left; reflexivity|]. vm_compute. reflexivity.
  - exists (Platform 64 true false true false), toy, (dp_plain sure_text 0 (zstr "secret") 6), sure_text, no_memory.
    split; [intros i _; reflexivity|]. split; [called|]. split; [left; reflexivity|]. vm_compute. reflexivity.
  - exists pe, toy, (dp_plain sure_text 3 (Ptr None long_key) 8192), sure_text, we, long_key.
    split; [apply we_wf|]. split; [intros k; reflexivity|]. split.
    + split; [exists None, []; reflexivity|]. split; [apply no_nul_b; vm_compute; reflexivity|]. split; vm_compute; reflexivity.
    + split; [exists None, long_key; repeat split; vm_compute; discriminate|]. split; [reflexivity|].
      split; [|vm_compute; reflexivity].
      split; [left; reflexivity|]. split; [left; reflexivity|]. split; [left; reflexivity|]. split; [left; reflexivity|].
      split; [|left; reflexivity]. split; [discriminate|]. split; discriminate.
  - exists pe, toy, typ_params, typ_text, we. split; [apply we_wf|]. split; [intros k; reflexivity|]. split.
    + split; [exists None, []; reflexivity|]. split; [apply no_nul_b; vm_compute; reflexivity|]. split; vm_compute; reflexivity.
    + split; [reflexivity|]. split; [apply secret_ok|]. vm_compute. reflexivity.
Qed.
Print Assumptions C23_decode_defined_refuted.
Example C23_no_validation_example : wf no_memory /\ c_text pe (dp_plain (lit "no token") 0 Null 0) (lit "no token").
Proof.
  split; [intros i _; reflexivity|]. split; [exists None, []; reflexivity|]. split; [apply no_nul_b; vm_compute; reflexivity|].
  split; vm_compute; reflexivity.
Qed.
