(** * Properties C54, C55: results depend on the arguments, not on history or uninitialised memory *)
From Verif Require Import Base BaseProofs HeapProofs Util UtilProofs Claim Base64 SpecB64
  Base64EncProofs Base64EncApi Base64DecProofs Base64Api Jsmn Env Encode Decode SpecJson SpecJwa ClaimProofs UnescapeProofs
  EncodeProofs SignProofs EncodeTotal SpecEnc JsonProofs PropEncode DecodeProofs DecodeInv JsmnProofs ParseProofs
  PropClaim ReadProofs ValidateProofs JsmnJson JsmnSize PropVerify PropValidate PropLeak PropJson DecodeTotal DecodeOk
  OverRead PropSafe PropRoundTrip PropOverRead SimProofs.
From Coq Require Import ZifyBool ZifyNat ZifyN.
Ltac Zify.zify_post_hook ::= Z.div_mod_to_equations.
Local Opaque L8W8JWT_MAX_KEY_SIZE.

(** ** C54: notions *)
(** From now on the allocator grants and refuses the same requests in both worlds. The worlds may
    differ in everything else: how many blocks were ever allocated, which of them are in use, how
    often buffers were grown, and what uninitialised memory contains. *)
Definition same_luck (w w' : world) : Prop :=
  (forall i, w_alloc w (w_next w + i)%nat = w_alloc w' (w_next w' + i)%nat)
  /\ (forall i, w_grow w (w_pushes w + i)%nat = w_grow w' (w_pushes w' + i)%nat).
(** The same object, wherever it is: both NULL or both pointing to the same bytes. *)
Definition same_object (p p' : ptr) : Prop :=
  match p, p' with Null, Null => True | Ptr _ m, Ptr _ m' => m = m' | _, _ => False end.
Definition same_opt {A} (R : A -> A -> Prop) (o o' : option A) : Prop :=
  match o, o' with None, None => True | Some a, Some a' => R a a' | _, _ => False end.
Definition same_claim (c c' : claim) : Prop :=
  same_object (c_key c) (c_key c') /\ c_key_length c = c_key_length c'
  /\ same_object (c_value c) (c_value c') /\ c_value_length c = c_value_length c' /\ c_type c = c_type c'.
Definition same_claims (x x' : cptr * N) : Prop :=
  snd x = snd x'
  /\ match fst x, fst x' with CNull, CNull => True | CArr _ l, CArr _ l' => Forall2 same_claim l l' | _, _ => False end.
Definition same_seg (s s' : seg) : Prop := same_object (s_ptr s) (s_ptr s') /\ s_len s = s_len s'.

(** What the caller gets. *)
Definition same_enc (r r' : enc_res) : Prop :=
  er_rc r = er_rc r' /\ er_len r = er_len r' /\ same_opt same_object (er_out r) (er_out r').
Definition same_dec (r r' : dec_res) : Prop :=
  dr_rc r = dr_rc r' /\ dr_valid r = dr_valid r' /\ same_opt same_claims (dr_claims r) (dr_claims r').
Definition same_raw (r r' : raw_res) : Prop :=
  rr_rc r = rr_rc r' /\ rr_valid r = rr_valid r' /\ same_opt same_seg (rr_header r) (rr_header r')
  /\ same_opt same_seg (rr_payload r) (rr_payload r') /\ same_opt same_seg (rr_signature r) (rr_signature r').
(** base64: the whole object when decoding; the text and its NUL when encoding (the block may be
    larger than that, and the rest is uninitialised). *)
Definition same_b64 (r r' : b64res) : Prop :=
  b_rc r = b_rc r' /\ b_len r = b_len r' /\ same_opt same_object (b_out r) (b_out r').
Definition same_text (r r' : b64res) : Prop :=
  b_rc r = b_rc r' /\ b_len r = b_len r'
  /\ same_opt (fun q q' => is_null q = is_null q' /\ forall n o m o' m', b_len r = Some n -> q = Ptr o m -> q' = Ptr o' m' ->
       firstn (N.to_nat n + 1) m = firstn (N.to_nat n + 1) m') (b_out r) (b_out r').

(** Two calls from [w] and [w']: both undefined for the same reason, or both return the same to the
    caller, having made the same number of allocation attempts and leaving the same ones of the
    blocks they allocated in use. *)
Definition same_call {A} (same : A -> A -> Prop) (call : M A) (w w' : world) : Prop :=
  match call w, call w' with
  | Ret r v, Ret r' v' =>
      same r r'
      /\ (exists n, w_next v = w_next w + n /\ w_next v' = w_next w' + n)%nat
      /\ forall i, w_live v (w_next w + i)%nat = w_live v' (w_next w' + i)%nat
  | Undef u, Undef u' => u = u'
  | _, _ => False
  end.

Section Start.
Variables (w w' : world).
Hypotheses (Hw : wf w) (Hw' : wf w') (Hl : same_luck w w').
Lemma start_sim : wsim (w_next w) (w_next w') (w_pushes w) (w_pushes w') w w'.
Proof.
  destruct Hl as [L1 L2]. split; [exists 0%nat; lia|]. split; [exists 0%nat; lia|]. split; [exact L1|]. split; [exact L2|].
  intros i. rewrite (Hw (w_next w + i)), (Hw' (w_next w' + i)) by lia. reflexivity.
Qed.
Lemma same_of_sim {A} (R S : A -> A -> Prop) (m : M A) :
  msim (w_next w) (w_next w') (w_pushes w) (w_pushes w') R m m -> (forall a a', R a a' -> S a a') -> same_call S m w w'.
Proof.
  intros H K. specialize (H w w' start_sim). unfold same_call, rsim in *. destruct (m w), (m w'); auto.
  destruct H as [H1 (H2 & _ & _ & _ & H3)]. auto.
Qed.
End Start.
Lemma psim_object a b p p' : psim a b p p' -> same_object p p'.
Proof. destruct p, p'; cbn; tauto. Qed.
Lemma opt_same {A} (R S : A -> A -> Prop) o o' : (forall x y, R x y -> S x y) -> opt R o o' -> same_opt S o o'.
Proof. intros H. destruct o, o'; cbn; auto. Qed.
Lemma csim_claim a b c c' : csim a b c c' -> same_claim c c'.
Proof. intros (H1 & H2 & H3 & H4). repeat split; try tauto; eapply psim_object; eauto. Qed.
Lemma gsim_seg a b s s' : gsim a b s s' -> same_seg s s'.
Proof. intros [H1 H2]. split; [eapply psim_object; eauto|exact H2]. Qed.

(** ** C54 *)
(** Every public function that allocates, over all builds, backends, arguments (also invalid ones) and
    pairs of heaps. The crypto backend [e] is the same in both calls: a backend that draws random
    numbers (PS and ES algorithms) is one [e] per outcome. *)
Theorem C54_encode :
  forall p e params w w', wf w -> wf w' -> same_luck w w' ->
    same_call same_enc (l8w8jwt_encode p e params) w w'.
Proof.
  intros p e params w w' H H' L. eapply same_of_sim; auto; [apply encode_sim|].
  intros a a' (A1 & A2 & A3). split; [exact A1|]. split; [exact A3|]. eapply opt_same; [|exact A2]. apply psim_object.
Qed.
Print Assumptions C54_encode.
Theorem C54_decode :
  forall p e params vn cn ln w w', wf w -> wf w' -> same_luck w w' ->
    same_call same_dec (l8w8jwt_decode p e params vn cn ln) w w'.
Proof.
  intros p e params vn cn ln w w' H H' L. eapply same_of_sim; auto; [apply decode_sim|].
  intros a a' (A1 & A2 & A3). split; [exact A1|]. split; [exact A2|]. eapply opt_same; [|exact A3].
  intros [x n] [y m] [B1 B2]. cbn [fst snd] in *. split; [exact B2|]. destruct x, y; cbn in B1; try contradiction; [exact I|].
  destruct B1 as [_ B1]. cbn. induction B1; constructor; [eapply csim_claim; eauto|assumption].
Qed.
Print Assumptions C54_decode.
Theorem C54_decode_raw :
  forall p e params vn hn hl pn pl sn sl w w', wf w -> wf w' -> same_luck w w' ->
    same_call same_raw (l8w8jwt_decode_raw p e params vn hn hl pn pl sn sl) w w'
    /\ same_call same_raw (l8w8jwt_decode_raw_no_validation p params hn hl pn pl sn sl) w w'.
Proof.
  intros p e params vn hn hl pn pl sn sl w w' H H' L.
  assert (K : forall a b r r', rrsim a b r r' -> same_raw r r').
  { intros a b r r' (A1 & A2 & A3 & A4 & A5). split; [exact A1|]. split; [exact A2|].
    repeat split; (eapply opt_same; [|eassumption]); apply gsim_seg. }
  split; eapply same_of_sim; auto; [apply decode_raw_sim|apply K|apply decode_raw_no_validation_sim|apply K].
Qed.
Print Assumptions C54_decode_raw.
Theorem C54_base64 :
  forall p url data n on ln w w', wf w -> wf w' -> same_luck w w' ->
    same_call same_text (l8w8jwt_base64_encode p url data n on ln) w w'
    /\ same_call same_b64 (l8w8jwt_base64_decode url data n on ln) w w'.
Proof.
  intros p url data n on ln w w' H H' L. split; eapply same_of_sim; auto.
  - apply base64_encode_sim; reflexivity.
  - intros [rc o l] [rc' o' l'] (A1 & A2 & A3 & A4). cbn [b_rc b_out b_len] in *. split; [exact A1|]. split; [exact A2|].
    cbn [b_out]. destruct o as [q|], o' as [q'|]; cbn in A3; try contradiction; [|exact I].
    split; [eapply psim_null; eauto|]. intros k x y x' y' E1 E2 E3. subst q q'. eapply A4; eauto.
  - apply base64_decode_sim.
  - intros a a' (A1 & A2 & A3). split; [exact A1|]. split; [exact A2|]. eapply opt_same; [|exact A3]. apply psim_object.
Qed.
Print Assumptions C54_base64.

(** In particular a call is repeatable: whatever the program did before, and however often, as long as
    memory does not run out the call gives what it gives in a fresh process. *)
Definition fresh_process : world := World (fun _ => true) (fun _ => true) (fun _ _ => x00) 0 0 (fun _ => false).
Corollary C54_repeatable :
  forall p e w, wf w -> allocs w -> grows w ->
    (forall params, same_call same_enc (l8w8jwt_encode p e params) fresh_process w)
    /\ (forall params vn cn ln, same_call same_dec (l8w8jwt_decode p e params vn cn ln) fresh_process w).
Proof.
  intros p e w Hw Ha Hg.
  assert (L : same_luck fresh_process w).
  { split; intros i; symmetry; [apply Ha|apply Hg]. }
  assert (F : wf fresh_process) by (intros i _; reflexivity).
  split; intros; [apply C54_encode|apply C54_decode]; assumption.
Qed.
Print Assumptions C54_repeatable.

(** ** C55: notions *)
(** The same backend, with other values in the never-written elements of the token array
    (decode.c:237, a local array without initialiser; or malloc, decode.c:247). *)
Definition with_tok_junk (e : env) (junk : Z -> tok) : env :=
  Env (e_seed_ok e) (e_hmac e) (e_md e) (e_parse_key e) (e_parse_public_key e) (e_x509_parse e) (e_can_do e) (e_bitlen e)
    (e_pk_sign e) (e_pk_verify e) (e_pk_rsa e) (e_rsa_len e) (e_pss_sign e) (e_pss_verify e) (e_pk_ec e)
    (e_ecdsa_from_keypair e) (e_group e) (e_ecdsa_sign e) (e_ecdsa_verify e) (e_ed_sign e) (e_ed_verify e) (e_time e)
    (e_checknum e) (e_jsmn e) junk.
(** Header and payload have few enough tokens, or are objects whose last member is flat. *)
Definition few_parts (e : env) (dp : dec_params) (j : bytes) : Prop :=
  (forall h pl s, parts3 j h pl s -> few_tokens e h /\ few_tokens e pl)
  /\ (dp_alg dp = (-1)%Z -> forall h pl, parts2 j h pl -> few_tokens e h /\ few_tokens e pl).

Section Junk.
Variables (p : platform) (e : env) (mem : bytes) (n : nat) (toks : list tok) (cap r : Z) (junk junk' : Z -> tok).
Let a := TokArr toks cap junk.
Let a' := TokArr toks cap junk'.
Hypothesis Hp : (32 <= p_size_bits p)%N.
Hypothesis Hr : (r <= Z.of_nat (length toks))%Z.
Hypothesis Hcap : (r + 2 <= cap)%Z.
Hypothesis Hn : (n <= length mem)%nat.
Hypothesis Htail : (n + 5 <= length mem)%nat.
Lemma tok_same i : (0 <= i < r)%Z -> tok_at a i = tok_at a' i.
Proof.
  intros H. unfold tok_at, a, a'. cbn [ta_cap ta_toks ta_junk]. destruct (_ || _); [reflexivity|]. f_equal.
  apply nth_indep. lia.
Qed.
Lemma skip_same fuel : forall vend i, (0 <= i <= r)%Z -> (Z.to_nat (r - i) < fuel)%nat ->
  skip_nested fuel a r vend i = skip_nested fuel a' r vend i
  \/ exists k k', skip_nested fuel a r vend i = OK k /\ skip_nested fuel a' r vend i = OK k' /\ (r <= k + 1)%Z /\ (r <= k' + 1)%Z.
Proof.
  induction fuel as [|f IH]; intros vend i H0 H2; [lia|].
  destruct (Z.ltb_spec (i + 1) r) as [E|E].
  - cbn [skip_nested]. rewrite (tok_same (i + 1)) by lia. destruct (tok_at a' (i + 1)) as [t|u]; cbn [ubind]; [|left; reflexivity].
    destruct (_ && _); [|left; reflexivity]. apply IH; lia.
  - right.
    destruct (skip_nested_ok p mem n toks cap r junk Hp Hn Hcap Htail (S f) vend i) as (k & K1 & K2); [lia|lia|lia|].
    destruct (skip_nested_ok p mem n toks cap r junk' Hp Hn Hcap Htail (S f) vend i) as (k' & K1' & K2'); [lia|lia|lia|].
    exists k, k'. split; [exact K1|]. split; [exact K1'|]. lia.
Qed.
Lemma type_same i v : (0 <= i <= r)%Z ->
  claim_type e mem a r i v = claim_type (with_tok_junk e junk') mem a' r i v
  \/ exists ty k k', claim_type e mem a r i v = OK (Some (ty, k)) /\ claim_type (with_tok_junk e junk') mem a' r i v = OK (Some (ty, k'))
     /\ (r <= k + 1)%Z /\ (r <= k' + 1)%Z.
Proof.
  intros Hi. unfold claim_type. destruct (t_type v); try (left; reflexivity).
  all: destruct (skip_same (S (S (Z.to_nat r))) (t_end v) i Hi ltac:(lia)) as [->|(k & k' & -> & -> & K)];
    [left; reflexivity|right; cbn [ubind]; do 3 eexists; split; [reflexivity|]; split; [reflexivity|exact K]].
Qed.
Lemma read_same fuel : forall i, (0 <= i)%Z ->
  read_claims fuel e mem a r i = read_claims fuel (with_tok_junk e junk') mem a' r i.
Proof.
  induction fuel as [|f IH]; intros i H0; [reflexivity|]. cbn [read_claims].
  destruct (negb (i <? r)%Z) eqn:Ei; [reflexivity|]. rewrite (tok_same i) by lia.
  destruct (tok_at a' i) as [k|u]; [|reflexivity]. cbn [ubind].
  destruct (Z.leb_spec r (i + 1)) as [E|E]; cbn [orb].
  { destruct (tok_at_ok p mem n toks cap r junk Hp Hn Hcap Htail (i + 1)) as (t & T); [lia|].
    destruct (tok_at_ok p mem n toks cap r junk' Hp Hn Hcap Htail (i + 1)) as (t' & T'); [lia|].
    unfold a, a'. rewrite T, T'. reflexivity. }
  rewrite (tok_same (i + 1)) by lia. destruct (tok_at a' (i + 1)) as [v|u]; [|reflexivity]. cbn [ubind].
  destruct (negb (jtype_eqb _ _)); [reflexivity|].
  pose proof (claim_type_next p e mem n toks cap r junk Hp Hn (i + 1) v) as Nx.
  destruct (type_same (i + 1) v ltac:(lia)) as [E1|(ty & k1 & k2 & E1 & E2 & K1 & K2)].
  - rewrite <- E1. destruct (claim_type e mem a r (i + 1) v) as [[[ty i']|]|u] eqn:Ec; try reflexivity. cbn [ubind].
    specialize (Nx _ _ Ec). rewrite IH by lia. reflexivity.
  - rewrite E1, E2. cbn [ubind].
    assert (Z : forall e0 a0 k, (r <= k)%Z -> read_claims f e0 mem a0 r k = match f with O => KO OutOfFuel | S _ => OK (L8W8JWT_SUCCESS, []) end).
    { intros e0 a0 k0 Hk. destruct f; [reflexivity|]. cbn [read_claims]. destruct (Z.ltb_spec k0 r); [lia|reflexivity]. }
    rewrite !Z by lia. reflexivity.
Qed.
End Junk.

Lemma bind_lift {A B} (u : U A) (k : A -> M B) a w : u = OK a -> mbind (lift u) k w = k a w.
Proof. intros ->. reflexivity. Qed.
Lemma bind_cong {A B} (m m' : M A) (k k' : A -> M B) w :
  m w = m' w -> (forall a w1, m' w = Ret a w1 -> k a w1 = k' a w1) -> mbind m k w = mbind m' k' w.
Proof. intros E H. unfold mbind. rewrite E. destruct (m' w); auto. Qed.
(** Parsing a text gives the same whatever the array contained. *)
Lemma parse_same p e junk c b mem len w :
  uses_jsmn e -> (32 <= p_size_bits p)%N -> (Z.of_N len <= INT_MAX)%Z -> (N.to_nat len + 5 <= length mem)%nat ->
  (fst (jsmn_parse (firstn (N.to_nat len) mem) None) <= 62)%Z
  \/ (exists es, reads e mem len es /\ reads (with_tok_junk e junk) mem len es) ->
  l8w8jwt_parse_claims p (with_tok_junk e junk) c (Ptr b mem) len w = l8w8jwt_parse_claims p e c (Ptr b mem) len w.
Proof.
  intros Hj Hp Hm Ht Hr. unfold l8w8jwt_parse_claims.
  rewrite !(bind_lift (deref (Ptr b mem)) _ mem) by reflexivity.
  rewrite !(bind_lift (take mem len) _ (firstn (N.to_nat len) mem)) by (apply take_ok; lia).
  cbn [e_jsmn e_tok_junk with_tok_junk].
  destruct (Z.ltb_spec INT_MAX (Z.of_N len)); [lia|]. cbv zeta. rewrite !Hj. unfold reads in Hr.
  set (js := firstn (N.to_nat len) mem) in *.
  destruct (Z.eqb_spec (fst (jsmn_parse js None)) 0) as [E0|E0]; [reflexivity|].
  destruct (Z.ltb_spec (fst (jsmn_parse js None)) 0) as [E1|E1]; [reflexivity|].
  destruct (jsmn_parse js None) as [r tn] eqn:Ej. cbn [fst] in *.
  destruct (jsmn_two_passes _ _ _ Ej E1) as (r2 & toks & Ej2 & Hr2). rewrite Ej2.
  apply bind_cong; [reflexivity|]. intros [blk|] w1 _; [|reflexivity].
  destruct (Z.ltb_spec r2 0) as [E2|E2]; [reflexivity|]. destruct Hr2 as [->|Hr2]; [|lia].
  destruct (jsmn_tokens _ _ _ _ Ej2 E2) as [Hlen Htok].
  destruct toks as [|t0 toks]; [simpl in Hlen; lia|].
  assert (T0 : forall j, tok_at (TokArr (t0 :: toks) (if (r <=? 64)%Z then 64 else r) j) 0 = OK t0).
  { intros j. unfold tok_at. cbn [ta_cap ta_toks ta_junk]. destruct ((0 <? 0)%Z || ((if (r <=? 64)%Z then 64 else r) <=? 0)%Z) eqn:E; [|reflexivity].
    destruct (Z.leb_spec r 64); lia. }
  rewrite !(bind_lift (tok_at _ 0) _ t0) by apply T0.
  apply bind_cong; [|reflexivity]. destruct (negb _); [reflexivity|].
  destruct (before_nul_firstn (N.to_nat len) mem) as (B1 & B2 & B3). fold js in B1, B2, B3.
  assert (Hint : (Z.of_nat (length (before_nul js)) <= INT_MAX)%Z) by lia.
  assert (Hrd : exists x, read_claims (S (Z.to_nat r)) e mem (TokArr (t0 :: toks) (if (r <=? 64)%Z then 64 else r) (e_tok_junk e)) r 1 = OK x
    /\ read_claims (S (Z.to_nat r)) (with_tok_junk e junk) mem (TokArr (t0 :: toks) (if (r <=? 64)%Z then 64 else r) junk) r 1 = OK x).
  { destruct Hr as [Hr|(es & [(R0 & _)|(R0 & t1 & toks1 & R1 & R2 & R3)] & [(S0 & _)|(S0 & t2 & toks2 & S1 & S2 & S3)])]; try lia.
    - destruct (Z.leb_spec r 64); [|lia].
      rewrite <- (read_same p e mem (length (before_nul js)) (t0 :: toks) 64 r (e_tok_junk e) junk Hp ltac:(lia) ltac:(lia) B3 ltac:(lia)) by lia.
      destruct (read_claims_ok p e mem (length (before_nul js)) (t0 :: toks) 64 r (e_tok_junk e) Hp ltac:(lia) Htok B3 ltac:(lia) ltac:(lia)
        (S (Z.to_nat r)) 1) as (x & Hx); [lia|lia|]. exists x. split; exact Hx.
    - rewrite Ej2 in R1, S1. inversion R1; subst t1 toks1. inversion S1; subst t2 toks2.
      exists (L8W8JWT_SUCCESS, es). split; [exact R3|exact S3]. }
  destruct Hrd as ([fin es] & X1 & X2).
  rewrite (claims_loop_eq p e mem _ (t0 :: toks) _ r (e_tok_junk e) Hp ltac:(lia) Htok B3 Hint _ 1 c w1 _ _ ltac:(lia) X1).
  rewrite (claims_loop_eq p (with_tok_junk e junk) mem _ (t0 :: toks) _ r junk Hp ltac:(lia) Htok B3 Hint _ 1 c w1 _ _ ltac:(lia) X2).
  reflexivity.
Qed.

Lemma seg_same p e junk c t s w :
  uses_jsmn e -> (32 <= p_size_bits p)%N -> (Z.of_nat (length t) < INT_MAX)%Z -> seg_of t s -> few_tokens e t ->
  l8w8jwt_parse_claims p (with_tok_junk e junk) c (s_ptr s) (s_len s) w = l8w8jwt_parse_claims p e c (s_ptr s) (s_len s) w.
Proof.
  intros Hj Hp Hl (id & o & tail & Hd & ->) Hf. cbn [s_ptr s_len].
  pose proof (b64_decodes_tail _ _ _ Hd) as Htl. pose proof (b64_decodes_shorter _ _ _ Hd) as Hs.
  apply parse_same; auto; [lia|rewrite app_length; lia|].
  destruct (Hf o tail (b64_decodes_url _ _ _ Hd)) as [H|(Hc & ms & Ho & Hm)].
  - left. rewrite Nat2N.id, firstn_app_exact, <- Hj. exact H.
  - right. destruct (object_reads e o ms tail Hj Hc Ho Hm) as [R _].
    destruct (object_reads (with_tok_junk e junk) o ms tail Hj Hc Ho Hm) as [R' _].
    eexists. split; [exact R|]. exact R'.
Qed.
Lemma body_same p e junk dp j c w :
  wf w -> uses_jsmn e -> (32 <= p_size_bits p)%N -> c_text p dp j -> (Z.of_nat (length j) <= INT_MAX)%Z -> few_parts e dp j ->
  decode_body p (with_tok_junk e junk) dp c w = decode_body p e dp c w.
Proof.
  intros Hwf Hj Hp Ht Hl (H3 & H2). unfold decode_body.
  apply bind_cong; [reflexivity|]. intros [rc sg] w1 H1.
  destruct (Z.eqb_spec rc L8W8JWT_SUCCESS) as [Erc|Erc]; cbn [negb]; [|reflexivity].
  apply decode_segments_inv in H1 as (A1 & _ & Hok); [|exact Hwf].
  assert (Hseg : exists h pl, seg_of h (sg_header sg) /\ seg_of pl (sg_payload sg) /\ few_tokens e h /\ few_tokens e pl
    /\ (Z.of_nat (length h) < INT_MAX)%Z /\ (Z.of_nat (length pl) < INT_MAX)%Z).
  { destruct (segments_cut p dp j sg Ht (Hok Erc)) as [(b & rest & h & pl & s & Ej & P3 & T3 & Sh & Sp & Ss)|(Ea & Ss & h & pl & P2 & Sh & Sp)];
      exists h, pl; (split; [exact Sh|]); (split; [exact Sp|]).
    - destruct (H3 _ _ _ P3). destruct P3 as (E & _). rewrite E, !app_length in Hl. change (length (lit ".")) with 1%nat in Hl.
      do 2 (split; [assumption|]). lia.
    - destruct (H2 Ea _ _ P2). destruct P2 as (E & _). rewrite E, !app_length in Hl. change (length (lit ".")) with 1%nat in Hl.
      do 2 (split; [assumption|]). lia. }
  destruct Hseg as (h & pl & Sh & Sp & Fh & Fp & Lh & Lp).
  apply bind_cong; [reflexivity|]. intros [r2 res] w2 _. destruct (negb _); [reflexivity|].
  apply bind_cong; [exact (seg_same p e junk c h (sg_header sg) w2 Hj Hp Lh Sh Fh)|]. intros [r3 c3] w3 _. destruct (negb _); [reflexivity|].
  apply bind_cong; [exact (seg_same p e junk c3 pl (sg_payload sg) w3 Hj Hp Lp Sp Fp)|]. intros [r4 c4] w4 _. reflexivity.
Qed.

(** ** C55 *)
(** Unequal contents of the never-written elements cannot be told apart by decode or decode_raw, for
    every token (well-formed or not, signed or not) of the stated size. The two calls are equal as a
    whole: results, error codes, undefined behaviour, heap. Missing: larger texts ending in a nested
    member, where it fails, see the next theorem. *)
Theorem C55_uninitialised_tokens_partial :
  forall p e junk dp j w,
    wf w -> uses_jsmn e -> (32 <= p_size_bits p)%N -> c_text p dp j -> (Z.of_nat (length j) <= INT_MAX)%Z -> few_parts e dp j ->
    (forall vn cn ln, l8w8jwt_decode p (with_tok_junk e junk) (Some dp) vn cn ln w = l8w8jwt_decode p e (Some dp) vn cn ln w)
    /\ (forall vn hn hl pn pl sn sl,
          l8w8jwt_decode_raw p (with_tok_junk e junk) (Some dp) vn hn hl pn pl sn sl w
          = l8w8jwt_decode_raw p e (Some dp) vn hn hl pn pl sn sl w).
Proof.
  intros p e junk dp j w Hwf Hj Hp Ht Hl Hf. split; intros.
  - unfold l8w8jwt_decode. destruct (_ && _); [reflexivity|]. cbv zeta. destruct (negb _); [reflexivity|]. destruct (negb vn); [reflexivity|].
    apply bind_cong; [reflexivity|]. intros [c|] w1 H1; [|reflexivity]. rewrite cb_init_eq in H1.
    destruct (w_alloc w (w_next w)); inversion H1; subst.
    apply bind_cong; [apply (body_same p e junk dp j); auto using wf_ok|]. reflexivity.
  - unfold l8w8jwt_decode_raw. destruct (_ || _); [reflexivity|]. cbv zeta. destruct (negb _); [reflexivity|].
    apply bind_cong; [reflexivity|]. intros [c|] w1 H1; [|reflexivity]. rewrite cb_init_eq in H1.
    destruct (w_alloc w (w_next w)); inversion H1; subst. apply bind_cong; [|reflexivity].
    apply bind_cong; [|reflexivity]. rewrite !decode_raw_body_eq. apply (body_same p e junk dp j); auto using wf_ok.
Qed.
Print Assumptions C55_uninitialised_tokens_partial.

(** With 63 tokens the contents decide between success and reading past the array: two processes that
    differ in nothing but stale stack memory treat the same (unsigned) token differently. *)
Definition tok_ending (z : Z) : Z -> tok := fun _ => Tok JUndefined 0 z.
Theorem C55_uninitialised_tokens_refuted :
  exists p e junk junk' dp j w, wf w /\ allocs w /\ grows w /\ checknum_right e /\ well_called p e dp j
    /\ (exists r v, l8w8jwt_decode p (with_tok_junk e junk) (Some dp) true true true w = Ret r v /\ dr_rc r = L8W8JWT_SUCCESS)
    /\ l8w8jwt_decode p (with_tok_junk e junk') (Some dp) true true true w = Undef OOBRead.
Proof.
  exists pe, toy_num, (tok_ending 1000), (tok_ending 0), (forged_params 59), (forged 59), we.
  split; [apply we_wf|]. split; [intros k; reflexivity|]. split; [intros k; reflexivity|]. split; [apply toy_num_right|].
  split; [called|].
  split; [do 2 eexists; split; [vm_compute; reflexivity|reflexivity]|vm_compute; reflexivity].
Qed.
Print Assumptions C55_uninitialised_tokens_refuted.

(** ** Examples *)
(** A process that already allocated 40 blocks (every third still in use), grew buffers 7 times and
    whose free memory is full of other bytes. *)
Definition busy_process : world :=
  World (fun _ => true) (fun _ => true) (fun b i => n2b (N.of_nat (b + i) mod 251)) 40 7 (fun i => (i <? 40)%nat && (i mod 3 =? 0)%nat).
Lemma busy_wf : wf busy_process.
Proof. intros i H. cbn [w_live w_next busy_process] in *. destruct (Nat.ltb_spec i 40); [lia|reflexivity]. Qed.
Example C54_example :
  wf fresh_process /\ wf busy_process /\ same_luck fresh_process busy_process
  /\ (exists i i' m n v v',
        l8w8jwt_encode pe toy (Some ep_sample) fresh_process = Ret (EncRes 0 (Some (Ptr (Some i) m)) (Some n)) v
        /\ l8w8jwt_encode pe toy (Some ep_sample) busy_process = Ret (EncRes 0 (Some (Ptr (Some i') m)) (Some n)) v'
        /\ i <> i').
Proof.
  split; [intros i _; reflexivity|]. split; [apply busy_wf|]. split; [split; reflexivity|].
  do 6 eexists. split; [vm_compute; reflexivity|]. split; [vm_compute; reflexivity|]. discriminate.
Qed.
(** Memory that runs out: the fourth allocation fails in both. *)
Example C54_out_of_memory_example :
  let w := World (fun k => negb (k =? 3)%nat) (fun _ => true) (fun _ _ => x00) 0 0 (fun _ => false) in
  let w' := World (fun k => negb (k =? 43)%nat) (fun _ => true) (w_junk busy_process) 40 7 (w_live busy_process) in
  wf w /\ wf w' /\ same_luck w w'
  /\ exists r v v', l8w8jwt_encode pe toy (Some ep_sample) w = Ret r v /\ l8w8jwt_encode pe toy (Some ep_sample) w' = Ret r v'
       /\ er_rc r <> L8W8JWT_SUCCESS.
Proof.
  cbv zeta. split; [intros i _; reflexivity|]. split; [exact busy_wf|]. split; [split; intros i; reflexivity|].
  do 3 eexists. split; [vm_compute; reflexivity|]. split; [vm_compute; reflexivity|]. discriminate.
Qed.
Example C55_example :
  let dp := dp_plain sure_text 0 (zstr "secret") 6 in
  wf we /\ well_called pe toy dp sure_text /\ few_parts toy dp sure_text
  /\ forall z, exists r v, l8w8jwt_decode pe (with_tok_junk toy (tok_ending z)) (Some dp) true true true we = Ret r v.
Proof.
  destruct C23_decode_example as (H1 & H2 & H3 & H4 & H5). cbv zeta. split; [exact H1|]. split; [exact H2|].
  assert (F : few_parts toy (dp_plain sure_text 0 (zstr "secret") 6) sure_text).
  { destruct H5 as [P3 P2]. split; [intros h pl s P; destruct (P3 h pl s P) as (A & B & _); auto|].
    intros Ea h pl P. destruct (P2 Ea h pl P) as (A & B & _); auto. }
  split; [exact F|]. intros z. destruct H2 as (A1 & A2 & A3 & A4 & A5 & A6).
  destruct (C55_uninitialised_tokens_partial pe toy (tok_ending z) _ _ we H1 A1 A2 A3 A4 F) as [E _]. rewrite E.
  eapply C23_decode_defined_partial; eauto using key_ok_given.
Qed.
