(** * Property C74: exactly which tokens make decoding undefined *)
From Verif Require Import Base BaseProofs HeapProofs Util UtilProofs Claim Base64 SpecB64
  Base64EncProofs Base64EncApi Base64DecProofs Base64Api Jsmn Env Encode Decode SpecJson SpecJwa ClaimProofs UnescapeProofs
  EncodeProofs SignProofs EncodeTotal SpecEnc JsonProofs PropEncode DecodeProofs DecodeInv JsmnProofs ParseProofs
  PropClaim ReadProofs ValidateProofs JsmnJson JsmnSize PropVerify PropValidate PropLeak PropJson DecodeTotal DecodeOk
  OverRead PropSafe PropRoundTrip PropOverRead Walk Exact.
From Coq Require Import ZifyBool ZifyNat ZifyN.
Ltac Zify.zify_post_hook ::= Z.div_mod_to_equations.
Local Opaque L8W8JWT_MAX_KEY_SIZE.

(** ** Reading the claims of an arbitrary text *)
(** Unlike in C52 the text need not be JSON: [has_fate] (Walk.v) says of the tokens jsmn finds in it
    whether they are read, turned down, or read past the end of their array. *)
Theorem C74_parse_claims_exact :
  forall p e c b js post w,
    wf w -> allocs w -> grows w -> uses_jsmn e -> (32 <= p_size_bits p)%N ->
    (Z.of_nat (length js) <= INT_MAX)%Z -> (5 <= length post)%nat ->
    let call := l8w8jwt_parse_claims p e c (Ptr b (js ++ post)) (N.of_nat (length js)) w in
    ((exists c' w', call = Ret (L8W8JWT_SUCCESS, c') w') <-> exists es, has_fate e js post (Read es))
    /\ (forall es, has_fate e js post (Read es) ->
       exists c' w' new, call = Ret (L8W8JWT_SUCCESS, c') w' /\ cb_elems c' = cb_elems c ++ new /\ Forall2 holds new es)
    /\ (has_fate e js post Refused <-> exists c' w', call = Ret (L8W8JWT_DECODE_FAILED_INVALID_TOKEN_FORMAT, c') w')
    /\ (forall u, call = Undef u <-> u = OOBRead /\ has_fate e js post Over).
Proof.
  intros p e c b js post w Hwf Ha Hg Hj Hp Hl Hpost call.
  destruct (parse_claims_fate p e c b js post w Hj Hp Hl Hpost Hwf) as (f & F & U & K). fold call in K.
  destruct f as [es| |].
  - destruct K as (rc & c' & w' & E & S & C). specialize (S Ha). subst rc. destruct (C eq_refl) as (new & sub & Ec & _ & H & _ & G).
    rewrite (G Hg) in H. rewrite E. split; [|split; [|split]].
    + split; eauto.
    + intros es' F'. apply U in F'. injection F' as ->. exists c', w', new. auto.
    + split; [intros C'; apply U in C'; discriminate|]. intros (c2 & w2 & E2). discriminate E2.
    + intros u. split; [discriminate|]. intros [_ C']. apply U in C'. discriminate.
  - destruct K as (rc & c' & w' & E & S & C). specialize (C Ha). subst rc. rewrite E. split; [|split; [|split]].
    + split; [intros (c2 & w2 & E2); discriminate E2|]. intros (es' & C'). apply U in C'. discriminate.
    + intros es' C'. apply U in C'. discriminate.
    + split; [|auto]. eauto.
    + intros u. split; [discriminate|]. intros [_ C']. apply U in C'. discriminate.
  - rewrite (proj1 K Ha). split; [|split; [|split]].
    + split; [intros (c2 & w2 & E2); discriminate E2|]. intros (es' & C'). apply U in C'. discriminate.
    + intros es' C'. apply U in C'. discriminate.
    + split; [intros C'; apply U in C'; discriminate|]. intros (c2 & w2 & E2). discriminate E2.
    + intros u. split; [intros E; injection E as <-; auto|]. intros [-> _]. reflexivity.
Qed.
Print Assumptions C74_parse_claims_exact.

(** ** The whole of decoding *)
(** The token [j] makes decoding with the parameters [dp] undefined, in the way [u]: it has three parts
    that decode, the key is not turned down, and verification misuses key or signature; or it has (with
    id -1: at least) two parts that decode, the verdict on the signature is there, and reading the claims
    goes past the token array or the comparison of the typ meets a byte it must not. *)
Definition harmful (p : platform) (e : env) (dp : dec_params) (j : bytes) (u : ub) : Prop :=
  (exists h pl s hj ht pj pt sig st, parts3 j h pl s /\ url_decodes h hj ht /\ url_decodes pl pj pt /\ url_decodes s sig st
     /\ ((exists jw k, supported (dp_alg dp) jw /\ caller_key (dp_verification_key dp) (dp_verification_key_length dp) k
            /\ ~ refused p e jw k (h ++ lit "." ++ pl) /\ misused e jw k (h ++ lit "." ++ pl) (sig ++ st) u)
         \/ (verdict_reached p e dp (h ++ lit "." ++ pl) (sig ++ st) /\ unreadable p e dp hj ht pj pt u)))
  \/ (dp_alg dp = (-1)%Z
      /\ exists h pl hj ht pj pt, parts2 j h pl /\ url_decodes h hj ht /\ url_decodes pl pj pt /\ unreadable p e dp hj ht pj pt u).

Lemma parts_short j h pl r : j = h ++ lit "." ++ pl ++ r -> (Z.of_nat (length j) <= INT_MAX)%Z ->
  forall hj ht pj pt, b64_decodes h hj ht -> b64_decodes pl pj pt -> (Z.of_nat (length hj) <= INT_MAX)%Z /\ (Z.of_nat (length pj) <= INT_MAX)%Z.
Proof.
  intros -> Hl hj ht pj pt D1 D2. apply b64_decodes_shorter in D1, D2. rewrite !app_length in Hl. change (length (lit ".")) with 1%nat in Hl. lia.
Qed.

Lemma body_harm p e dp j u id w :
  wf w -> allocs w -> grows w -> uses_jsmn e -> (32 <= p_size_bits p)%N -> c_text p dp j -> (Z.of_nat (length j) <= INT_MAX)%Z ->
  key_ok (dp_verification_key dp) (dp_verification_key_length dp) -> requests_readable e dp ->
  harmful p e dp j u -> decode_body p e dp (CB id []) w = Undef u.
Proof.
  intros Hwf Ha Hg Hj Hp Ht Hl Hk Hr [(h & pl & s & hj & ht & pj & pt & sig & st & (E & N1 & N2) & D1 & D2 & D3 & B)|(Em & h & pl & hj & ht & pj & pt & (E & N1 & N2) & D1 & D2 & B)].
  - apply url_b64_decodes in D1, D2, D3. destruct (parts_short _ _ _ _ E Hl _ _ _ _ D1 D2) as [L1 L2]. subst j.
    destruct (decode_body3 p e dp h pl s hj ht pj pt sig st id w Hwf Ha Hg Hj Hp Ht N1 N2 D1 D2 D3 L1 L2 (fun _ => Hk) Hr)
      as [(v & B1 & B2 & Ev)|(B1 & _)]; [|destruct (B1 _ B)]. rewrite (B2 _ B). exact Ev.
  - apply url_b64_decodes in D1, D2. rewrite <- (app_nil_r pl) in E. destruct (parts_short _ _ _ _ E Hl _ _ _ _ D1 D2) as [L1 L2].
    rewrite app_nil_r in E. subst j.
    destruct (decode_body2 p e dp h pl hj ht pj pt id w Hwf Ha Hg Hj Hp Ht N1 N2 Em D1 D2 L1 L2 Hr)
      as [(v & B1 & B2 & Ev)|(B1 & _)]; [|destruct (B1 _ B)]. rewrite (B2 _ B). exact Ev.
Qed.
Lemma body_or p e dp j id w :
  wf w -> allocs w -> grows w -> uses_jsmn e -> (32 <= p_size_bits p)%N -> c_text p dp j -> (Z.of_nat (length j) <= INT_MAX)%Z ->
  key_ok (dp_verification_key dp) (dp_verification_key_length dp) -> requests_readable e dp ->
  (exists u, harmful p e dp j u) \/ exists st w', decode_body p e dp (CB id []) w = Ret st w'.
Proof.
  intros Hwf Ha Hg Hj Hp Ht Hl Hk Hr. destruct (decode_segments_total p dp j w Hwf Ht) as (rc & sg & w1 & H1).
  destruct (Z.eqb_spec rc L8W8JWT_SUCCESS) as [Erc|Erc].
  2:{ right. unfold decode_body. mstep H1. apply Z.eqb_neq in Erc. rewrite Erc. do 2 eexists. reflexivity. }
  apply decode_segments_inv in H1 as (_ & _ & Hok); [|exact Hwf].
  destruct (segments_cut p dp j sg Ht (Hok Erc)) as [(b & rest & h & pl & s & _ & P3 & _ & Sh & Sp & Ss)|(Em & _ & h & pl & P2 & Sh & Sp)].
  - destruct Sh as (i1 & hj & ht & D1 & _). destruct Sp as (i2 & pj & pt & D2 & _). destruct Ss as (i3 & sig & st & D3 & _).
    pose proof P3 as (E & N1 & N2). destruct (parts_short _ _ _ _ E Hl _ _ _ _ D1 D2) as [L1 L2]. rewrite E in Ht.
    destruct (decode_body3 p e dp h pl s hj ht pj pt sig st id w Hwf Ha Hg Hj Hp Ht N1 N2 D1 D2 D3 L1 L2 (fun _ => Hk) Hr)
      as [(v & B1 & B2 & Ev)|(_ & R)]; [left|right; exact R].
    exists v. left. exists h, pl, s, hj, ht, pj, pt, sig, st. auto 7 using b64_decodes_url.
  - destruct Sh as (i1 & hj & ht & D1 & _). destruct Sp as (i2 & pj & pt & D2 & _).
    pose proof P2 as (E & N1 & N2). assert (E' := E). rewrite <- (app_nil_r pl) in E'. destruct (parts_short _ _ _ _ E' Hl _ _ _ _ D1 D2) as [L1 L2].
    rewrite E in Ht.
    destruct (decode_body2 p e dp h pl hj ht pj pt id w Hwf Ha Hg Hj Hp Ht N1 N2 Em D1 D2 L1 L2 Hr)
      as [(v & B1 & B2 & Ev)|(_ & R)]; [left|right; exact R].
    exists v. right. split; [exact Em|]. exists h, pl, hj, ht, pj, pt. auto 6 using b64_decodes_url.
Qed.
Lemma ed_is j a : supported a j -> a = 13%Z -> j_family j = ED.
Proof. intros [H E] ->. simpl in H. decompose [or] H; try contradiction; subst j; try discriminate E; reflexivity. Qed.
Lemma harm_params p e dp j u : c_text p dp j -> key_ok (dp_verification_key dp) (dp_verification_key_length dp) ->
  harmful p e dp j u -> l8w8jwt_validate_decoding_params p (Some dp) = L8W8JWT_SUCCESS.
Proof.
  intros ((b & rest & Ej) & _ & Hn & _) (Hk & k & (kb & km & Ek & _) & _) H.
  assert (Hlen : dp_jwt_length dp <> 0%N).
  { destruct H as [(h & pl & s & hj & ht & pj & pt & sig & st & (E & _) & _)|(_ & h & pl & hj & ht & pj & pt & (E & _) & _)];
      subst j; rewrite !app_length in Hn; change (length (lit ".")) with 1%nat in Hn; lia. }
  assert (Hed : p_eddsa p = true \/ dp_alg dp <> L8W8JWT_ALG_ED25519).
  { destruct (Z.eq_dec (dp_alg dp) L8W8JWT_ALG_ED25519) as [Ea|Ea]; [|right; exact Ea]. left. destruct (p_eddsa p) eqn:Ep; [reflexivity|exfalso].
    change L8W8JWT_ALG_ED25519 with 13%Z in Ea.
    assert (Rf : forall j' k' m, supported (dp_alg dp) j' -> ~ refused p e j' k' m -> False).
    { intros j' k' m S C. apply C. right. rewrite (ed_is _ _ S Ea). left. exact Ep. }
    destruct H as [(h & pl & s & hj & ht & pj & pt & sig & st & _ & _ & _ & _ & [(jw & k' & S & _ & C & _)|([C|(k' & _ & [(jw & S & C & _)|(_ & C & _)])] & _)])|(C & _)];
      try lia; try (eapply Rf; eassumption). destruct (supported_exists (dp_alg dp)) as (jw & Hjw); [lia|]. exact (C _ Hjw). }
  unfold l8w8jwt_validate_decoding_params. rewrite Ej, Ek. cbn [is_null orb]. change L8W8JWT_MAX_KEY_SIZE with 8192%N.
  replace (dp_jwt_length dp =? 0)%N with false by lia. destruct (_ || _) eqn:C1; [exfalso; lia|].
  destruct (negb (p_eddsa p) && _) eqn:C2; [|reflexivity]. destruct Hed as [Hed|Hed]; [rewrite Hed in C2; discriminate C2|lia].
Qed.

(** For every token and every set of parameters - decoding is undefined exactly on the harmful tokens,
    and in just that way; on all others it returns. *)
Theorem C74_decode_exact :
  forall p e dp j cn ln w,
    wf w -> allocs w -> grows w -> uses_jsmn e -> (32 <= p_size_bits p)%N ->
    c_text p dp j -> (Z.of_nat (length j) <= INT_MAX)%Z ->
    key_ok (dp_verification_key dp) (dp_verification_key_length dp) -> requests_readable e dp ->
    (cn = true -> ln = true) ->
    let call := l8w8jwt_decode p e (Some dp) true cn ln w in
    (forall u, call = Undef u <-> harmful p e dp j u)
    /\ ((exists r w', call = Ret r w') <-> forall u, ~ harmful p e dp j u).
Proof.
  intros p e dp j cn ln w Hwf Ha Hg Hj Hp Ht Hl Hk Hr Hc call.
  assert (Ec : cn && negb ln = false) by (destruct cn; [rewrite Hc by reflexivity|]; reflexivity).
  assert (A : forall u, harmful p e dp j u -> call = Undef u).
  { intros u H. unfold call, l8w8jwt_decode. rewrite Ec, (harm_params _ _ _ _ _ Ht Hk H). cbn [negb].
    change (negb (L8W8JWT_SUCCESS =? L8W8JWT_SUCCESS)%Z) with false. cbv iota. unfold mbind at 1. rewrite cb_init_eq, (Ha _).
    unfold mbind at 1. unfold mbind at 1. rewrite (body_harm p e dp j u (w_next w) (w_ok w)); auto using wf_ok, allocs_ok. }
  assert (B : (exists u, harmful p e dp j u) \/ exists r w', call = Ret r w').
  { destruct (Z.eqb_spec (l8w8jwt_validate_decoding_params p (Some dp)) L8W8JWT_SUCCESS) as [Ev|Ev].
    - destruct (body_or p e dp j (w_next w) (w_ok w)) as [H|(st & w1 & H)]; auto using wf_ok, allocs_ok. right.
      destruct (decode_finish p e dp cn ln w st w1 Hwf Ec Ev (Ha _) H) as (w' & E). eauto.
    - right. unfold call, l8w8jwt_decode. rewrite Ec. apply Z.eqb_neq in Ev. rewrite Ev. do 2 eexists. reflexivity. }
  split.
  - intros u. split; [|apply A]. intros E. destruct B as [(u' & H)|(r & w' & C)]; [|congruence].
    pose proof (A _ H) as E'. rewrite E in E'. injection E' as ->. exact H.
  - split.
    + intros (r & w' & E) u H. rewrite (A _ H) in E. discriminate E.
    + intros N. destruct B as [(u & H)|H]; [destruct (N _ H)|exact H].
Qed.
Print Assumptions C74_decode_exact.

Theorem C74_decode_raw_exact :
  forall p e dp j hn hl pn pl sn sl w,
    wf w -> allocs w -> grows w -> uses_jsmn e -> (32 <= p_size_bits p)%N ->
    c_text p dp j -> (Z.of_nat (length j) <= INT_MAX)%Z ->
    key_ok (dp_verification_key dp) (dp_verification_key_length dp) -> requests_readable e dp ->
    (hn = true -> hl = true) -> (pn = true -> pl = true) -> (sn = true -> sl = true) ->
    let call := l8w8jwt_decode_raw p e (Some dp) true hn hl pn pl sn sl w in
    (forall u, call = Undef u <-> harmful p e dp j u)
    /\ ((exists r w', call = Ret r w') <-> forall u, ~ harmful p e dp j u).
Proof.
  intros p e dp j hn hl pn pl sn sl w Hwf Ha Hg Hj Hp Ht Hl Hk Hr Hh Hpn Hsn call.
  assert (Ec : negb true || (hn && negb hl) || (pn && negb pl) || (sn && negb sl) = false).
  { destruct hn; [rewrite Hh by reflexivity|]; destruct pn; try (rewrite Hpn by reflexivity); destruct sn; try (rewrite Hsn by reflexivity); reflexivity. }
  assert (A : forall u, harmful p e dp j u -> call = Undef u).
  { intros u H. unfold call, l8w8jwt_decode_raw. rewrite Ec, (harm_params _ _ _ _ _ Ht Hk H).
    change (negb (L8W8JWT_SUCCESS =? L8W8JWT_SUCCESS)%Z) with false. cbv iota. unfold mbind at 1. rewrite cb_init_eq, (Ha _).
    rewrite decode_raw_body_eq. unfold mbind at 1. unfold mbind at 1. rewrite (body_harm p e dp j u (w_next w) (w_ok w)); auto using wf_ok, allocs_ok. }
  assert (B : (exists u, harmful p e dp j u) \/ exists r w', call = Ret r w').
  { destruct (body_or p e dp j (w_next w) (w_ok w)) as [H|(st & w1 & H)]; auto using wf_ok, allocs_ok. right.
    apply decode_raw_finish; [exact Hwf|right; apply Ha|]. eauto. }
  split.
  - intros u. split; [|apply A]. intros E. destruct B as [(u' & H)|(r & w' & C)]; [|congruence].
    pose proof (A _ H) as E'. rewrite E in E'. injection E' as ->. exact H.
  - split.
    + intros (r & w' & E) u H. rewrite (A _ H) in E. discriminate E.
    + intros N. destruct B as [(u & H)|H]; [destruct (N _ H)|exact H].
Qed.
Print Assumptions C74_decode_raw_exact.

(** ** With any luck at all *)
Lemma parse_rest_ret p e dp b1 hj ht b2 pj pt sg3 id rs w :
  wf w -> grows w -> uses_jsmn e -> (32 <= p_size_bits p)%N ->
  (Z.of_nat (length hj) <= INT_MAX)%Z -> (Z.of_nat (length pj) <= INT_MAX)%Z -> (13 <= length ht)%nat -> (13 <= length pt)%nat ->
  requests_readable e dp -> (forall u, ~ unreadable p e dp hj ht pj pt u) ->
  exists st w', parse_rest p e dp (Segs (Seg (Ptr b1 (hj ++ ht)) (N.of_nat (length hj))) (Seg (Ptr b2 (pj ++ pt)) (N.of_nat (length pj))) sg3)
       (CB id []) rs w = Ret st w'.
Proof.
  intros Hwf Hg Hj Hp L1 L2 T1 T2 Hr Hn. unfold parse_rest. cbn [s_ptr s_len sg_header sg_payload].
  destruct (parse_claims_fate p e (CB id []) b1 hj ht w Hj Hp L1 ltac:(lia) Hwf) as (f1 & F1 & _ & K1). destruct f1 as [eh| |].
  3:{ exfalso. apply (Hn OOBRead). left. auto. }
  2:{ destruct K1 as (rc & c1 & w1 & E1 & S1 & _). mstep E1. apply Z.eqb_neq in S1. rewrite S1. do 2 eexists. reflexivity. }
  destruct K1 as (rc & c1 & w1 & E1 & _ & C1). mstep E1. destruct (Z.eqb_spec rc L8W8JWT_SUCCESS) as [->|_]; cbn [negb]; [|do 2 eexists; reflexivity].
  destruct (C1 eq_refl) as (n1 & s1 & Ec1 & _ & H1 & P1 & G1). rewrite (G1 Hg) in H1.
  apply parse_claims_inv in E1 as (hb & hm & m1 & l1 & _ & _ & (_ & _ & _ & A1) & _); [|exact Hwf].
  assert (W1 : wf w1) by (eapply adds_wf; eauto). assert (Gr1 : grows w1) by (eapply grows_later; [eapply adds_later; exact A1|exact Hg]).
  destruct (parse_claims_fate p e c1 b2 pj pt w1 Hj Hp L2 ltac:(lia) W1) as (f2 & F2 & _ & K2). destruct f2 as [ep| |].
  3:{ exfalso. apply (Hn OOBRead). left. eauto. }
  2:{ destruct K2 as (rc & c2 & w2 & E2 & S2 & _). mstep E2. apply Z.eqb_neq in S2. rewrite S2. do 2 eexists. reflexivity. }
  destruct K2 as (rc & c2 & w2 & E2 & _ & C2). mstep E2. destruct (Z.eqb_spec rc L8W8JWT_SUCCESS) as [->|_]; cbn [negb]; [|do 2 eexists; reflexivity].
  destruct (C2 eq_refl) as (n2 & s2 & Ec2 & _ & H2 & P2 & G2). rewrite (G2 Gr1) in H2.
  rewrite Ec1 in Ec2. cbn [cb_elems app] in Ec2. unfold cb_len. rewrite Ec2.
  destruct (validate_claims_exact p e dp (Some (cb_id c2)) (n1 ++ n2) (eh ++ ep) rs) as [[T E]|[T (v & E)]];
    [apply Forall2_app; assumption|apply Forall_app; auto|exact Hr| |]; unfold mbind at 1; rewrite E; cbn [lift].
  - exfalso. apply (Hn BadCtype). right. eauto 7.
  - do 2 eexists. reflexivity.
Qed.
Lemma body_ret p e dp j id w :
  wf w -> buffers_ok p w -> grows w -> uses_jsmn e -> (32 <= p_size_bits p)%N -> c_text p dp j -> (Z.of_nat (length j) <= INT_MAX)%Z ->
  key_ok (dp_verification_key dp) (dp_verification_key_length dp) -> requests_readable e dp ->
  (forall u, ~ harmful p e dp j u) -> exists st w', decode_body p e dp (CB id []) w = Ret st w'.
Proof.
  intros Hwf Hb Hg Hj Hp Ht Hl Hk Hr Hn. unfold decode_body. destruct (decode_segments_total p dp j w Hwf Ht) as (rc & sg & w1 & H1). mstep H1.
  destruct (Z.eqb_spec rc L8W8JWT_SUCCESS) as [Erc|Erc]; cbn [negb]; [|do 2 eexists; reflexivity].
  apply decode_segments_inv in H1 as (A1 & _ & Hok); [|exact Hwf].
  assert (W1 : wf w1) by (eapply adds_wf; eauto). assert (G1 : grows w1) by (eapply grows_later; [eapply adds_later; exact A1|exact Hg]).
  assert (B1 : buffers_ok p w1).
  { destruct Hb as [Hb|Hb]; [left; exact Hb|right]. intros k. apply adds_later in A1 as (E & _). rewrite E. apply Hb. }
  fold (parse_rest p e dp sg (CB id [])).
  destruct (segments_cut p dp j sg Ht (Hok Erc)) as [(b & rest & h & pl & s & Ej & P3 & T3 & Sh & Sp & Ss)|(Em & Ss & h & pl & P2 & Sh & Sp)].
  - destruct Sh as (i1 & hj & ht & D1 & Sh). destruct Sp as (i2 & pj & pt & D2 & Sp). destruct Ss as (i3 & sig & st & D3 & Ss).
    pose proof P3 as (E & N1 & N2). destruct (parts_short _ _ _ _ E Hl _ _ _ _ D1 D2) as [L1 L2].
    pose proof (b64_decodes_tail _ _ _ D1) as T1. pose proof (b64_decodes_tail _ _ _ D2) as T2. pose proof (b64_decodes_len _ _ _ D3) as [Ls _].
    assert (Es : sg = Segs (sg_header sg) (sg_payload sg) (sg_signature sg)) by (destruct sg; reflexivity). rewrite Sh, Sp, Ss in Es. rewrite Es. cbn [sg_signature s_ptr s_len].
    assert (Hx : forall u, ~ bad3 p e dp (h ++ lit "." ++ pl) hj ht pj pt (sig ++ st) u).
    { intros u B. apply (Hn u). left. exists h, pl, s, hj, ht, pj, pt, sig, st. auto 7 using b64_decodes_url. }
    set (msg := h ++ lit "." ++ pl) in *.
    assert (Go : forall rs w2, wf w2 -> grows w2 -> verdict_reached p e dp msg (sig ++ st) -> exists st' w',
       parse_rest p e dp (Segs (Seg (Ptr (Some i1) (hj ++ ht)) (N.of_nat (length hj)))
                               (Seg (Ptr (Some i2) (pj ++ pt)) (N.of_nat (length pj)))
                               (Seg (Ptr (Some i3) (sig ++ st)) (N.of_nat (length sig)))) (CB id []) rs w2 = Ret st' w').
    { intros rs w2 W2 G2 V. apply parse_rest_ret; auto. intros u B. apply (Hx u). right. auto. }
    assert (Hv : exists vb, (dp_alg dp <> (-1)%Z -> verify_body p e dp (sig ++ st) (N.of_nat (length sig)) = OK vb)
                  /\ ((dp_alg dp = (-1)%Z \/ exists f, vb = VFlag f) -> verdict_reached p e dp msg (sig ++ st))
                  /\ (forall r, vb = VExit r -> r <> L8W8JWT_SUCCESS)).
    { destruct (Z.eq_dec (dp_alg dp) (-1)) as [Em|Em].
      { exists (VFlag true). split; [contradiction|]. split; [left; exact Em|discriminate]. }
      pose proof Hk as (_ & k & Hck & _).
      destruct (Z_le_dec 0 (dp_alg dp)) as [R0|R0]; [destruct (Z_le_dec (dp_alg dp) 13) as [R1|R1]|].
      2,3: assert (Nj : forall j, ~ supported (dp_alg dp) j) by (intros j' C; destruct (supported_range _ _ C); lia);
           destruct (verify_body_unknown p e dp b _ h pl _ k (sig ++ st) (N.of_nat (length sig)) Ej T3 ltac:(lia) Hck Hk)
             as [(C1 & C2 & r & E' & Hr0)|(C & E')]; eexists; split; [intros _; exact E'| |intros _; exact E'|];
           [split; [intros [C|(f & C)]; [contradiction|discriminate C]|intros r' Er; injection Er as <-; exact Hr0]
           |split; [intros _; right; exists k; auto 6|discriminate]].
      destruct (supported_exists (dp_alg dp)) as (jw & Hjw); [lia|].
      pose proof (verify_body_exact p e dp jw b _ h pl _ k (sig ++ st) (N.of_nat (length sig)) Ej T3 Hjw Hck Hk ltac:(rewrite app_length; lia)) as X.
      fold msg in X. destruct X as [(Rf & r & E' & Hr0)|[(Rf & u & Mu & _)|(Rf & Mu & f & E')]].
      - eexists. split; [intros _; exact E'|]. split; [intros [C|(f & C)]; [contradiction|discriminate C]|intros r' Er; injection Er as <-; exact Hr0].
      - exfalso. apply (Hx u). left. exists jw, k. auto.
      - eexists. split; [intros _; exact E'|]. split; [|discriminate]. intros _. right. exists k. split; [exact Hck|]. left. exists jw. auto. }
    destruct Hv as (vb & V1 & V2 & V3).
    destruct (verify_signature_total p e dp L8W8JWT_VALID (Some i3) (sig ++ st) (N.of_nat (length sig)) w1 W1 B1) as (rc2 & rs & w2 & H2); [intros Ha _; eauto|].
    mstep H2. destruct (Z.eqb_spec rc2 L8W8JWT_SUCCESS) as [->|_]; cbn [negb]; [|do 2 eexists; reflexivity].
    apply verify_signature_inv in H2 as [Q2 V]; [|exact W1].
    assert (W2 : wf w2) by (eapply wf_quiet; eauto). assert (G2 : grows w2) by (eapply grows_later; [apply quiet_later; exact Q2|exact G1]).
    apply Go; [exact W2|exact G2|]. apply V2. destruct (Z.eq_dec (dp_alg dp) (-1)) as [Em|Em]; [left; exact Em|right].
    destruct V as [([C|[C|C]] & V')|(b' & sg' & v' & _ & E1 & _ & Hvb & Er)]; try contradiction; try discriminate C; [exfalso; lia|].
    assert (Es' : sg' = sig ++ st) by congruence. rewrite Es', (V1 Em) in Hvb. injection Hvb as <-. destruct vb as [r|f]; [|eauto].
    exfalso. cbn [verdict_result] in Er. injection Er as Er _. apply (V3 r eq_refl). congruence.
  - destruct Sh as (i1 & hj & ht & D1 & Sh). destruct Sp as (i2 & pj & pt & D2 & Sp).
    pose proof P2 as (E & N1 & N2). rewrite <- (app_nil_r pl) in E. destruct (parts_short _ _ _ _ E Hl _ _ _ _ D1 D2) as [L1 L2].
    pose proof (b64_decodes_tail _ _ _ D1) as T1. pose proof (b64_decodes_tail _ _ _ D2) as T2.
    assert (Es : sg = Segs (sg_header sg) (sg_payload sg) (sg_signature sg)) by (destruct sg; reflexivity). rewrite Sh, Sp, Ss in Es. rewrite Es. cbn [sg_signature].
    assert (H2 : l8w8jwt_verify_signature p e dp L8W8JWT_VALID (s_ptr seg0) (s_len seg0) w1
               = Ret (L8W8JWT_SUCCESS, L8W8JWT_VALID) w1) by (unfold l8w8jwt_verify_signature; rewrite Em; reflexivity).
    mstep H2. change (negb (L8W8JWT_SUCCESS =? L8W8JWT_SUCCESS)%Z) with false. cbv iota.
    apply parse_rest_ret; auto. intros u B. apply (Hn u). right. split; [exact Em|]. exists h, pl, hj, ht, pj, pt. auto 6 using b64_decodes_url.
Qed.

(** A token that is not harmful is handled even if allocations fail (with the demands on the build that
    C23 makes), as long as the list of claims can grow. *)
Theorem C74_harmless_defined :
  forall p e dp j w,
    wf w -> buffers_ok p w -> init_ok p w -> grows w -> uses_jsmn e -> (32 <= p_size_bits p)%N ->
    c_text p dp j -> (Z.of_nat (length j) <= INT_MAX)%Z ->
    key_ok (dp_verification_key dp) (dp_verification_key_length dp) -> requests_readable e dp ->
    (forall u, ~ harmful p e dp j u) ->
    (forall vn cn ln, exists r w', l8w8jwt_decode p e (Some dp) vn cn ln w = Ret r w')
    /\ (forall vn hn hl pn pl sn sl, exists r w', l8w8jwt_decode_raw p e (Some dp) vn hn hl pn pl sn sl w = Ret r w').
Proof.
  intros p e dp j w Hwf Hb Hi Hg Hj Hp Ht Hl Hk Hr Hn.
  assert (B : exists st w1, decode_body p e dp (CB (w_next w) []) (w_ok w) = Ret st w1).
  { apply (body_ret p e dp j); auto using wf_ok. }
  split.
  - intros vn cn ln. destruct (cn && negb ln) eqn:Ec; [unfold l8w8jwt_decode; rewrite Ec; do 2 eexists; reflexivity|].
    destruct (Z.eqb_spec (l8w8jwt_validate_decoding_params p (Some dp)) L8W8JWT_SUCCESS) as [Ev|Ev].
    2:{ unfold l8w8jwt_decode. rewrite Ec. apply Z.eqb_neq in Ev. rewrite Ev. cbn [negb]. do 2 eexists. reflexivity. }
    destruct vn; [|unfold l8w8jwt_decode; rewrite Ec, Ev; do 2 eexists; reflexivity].
    destruct (w_alloc w (w_next w)) eqn:Ea.
    + destruct B as (st & w1 & H). destruct (decode_finish p e dp cn ln w st w1 Hwf Ec Ev Ea H) as (w' & E). eauto.
    + unfold l8w8jwt_decode. rewrite Ec, Ev. change (negb (L8W8JWT_SUCCESS =? L8W8JWT_SUCCESS)%Z) with false. cbn [negb].
      unfold mbind at 1. rewrite cb_init_eq, Ea. cbn [free_claims_buffer].
      destruct Hi as [Hi|Hi]; [|congruence]. rewrite Hi. do 2 eexists. reflexivity.
  - intros vn hn hl pn pl sn sl. apply decode_raw_finish; auto.
Qed.
Print Assumptions C74_harmless_defined.

(** ** Examples *)
(** 31 members and a name without a value: no JSON, and 64 tokens. *)
Definition lone_text : string :=
  String.append "{" (String.append (String.concat ","%string (repeat """a"":0"%string 31)) ",""z""}").
Example C74_parse_example :
  wf we /\ allocs we /\ grows we /\ uses_jsmn toy_num /\ (5 <= length (repeat x00 13))%nat
  /\ has_fate toy_num (lit lone_text) (repeat x00 13) Over
  /\ has_fate toy_num (lit "{""a"":1,""z""}") (repeat x00 13) Refused
  /\ has_fate toy_num (lit "{""a"" ""b""}") (repeat x00 13) (Read [(L8W8JWT_CLAIM_TYPE_STRING, lit "a", lit "b")]).
Proof.
  assert (Hw := we_wf). assert (Ha : allocs we) by (intros k; reflexivity). assert (Hg : grows we) by (intros k; reflexivity).
  assert (Hj : uses_jsmn toy_num) by (intros js cap; reflexivity).
  assert (T : forall t, (Z.of_nat (length (lit t)) <= INT_MAX)%Z -> _) by
    (intros t Hl; exact (C74_parse_claims_exact pe toy_num (CB 0 []) None (lit t) (repeat x00 13) we Hw Ha Hg Hj ltac:(vm_compute; discriminate) Hl ltac:(vm_compute; lia))).
  do 4 (split; [assumption|]). split; [vm_compute; lia|]. split; [|split].
  - destruct (T lone_text) as (_ & _ & _ & K); [vm_compute; discriminate|]. apply (K OOBRead). vm_compute. reflexivity.
  - destruct (T "{""a"":1,""z""}"%string) as (_ & _ & K & _); [vm_compute; discriminate|]. apply K. vm_compute. do 2 eexists. reflexivity.
  - eapply HF_walk with (r := 3%Z); [lia|vm_compute; reflexivity|vm_compute; reflexivity|reflexivity| |].
    + apply W_flat; [reflexivity|intros [C|C]; discriminate C|apply K_string; reflexivity|apply W_done].
    + apply EF_done.
Qed.

Lemma plain_readable p e tok alg key klen : well_called p e (dp_plain tok alg key klen) tok -> requests_readable e (dp_plain tok alg key klen).
Proof. intros (_ & _ & _ & _ & _ & H1 & H2 & H3 & H4 & H5 & _). do 5 (split; [assumption|]). left. reflexivity. Qed.
(** Harmful tokens of each kind: a lone name, in the payload; a short signature; a key that is no RSA
    key; a typ that is not ASCII; and a token without signature part. The other hypotheses hold too. *)
Definition lone_token : bytes := token_text plain_header lone_text (repeat x2a 32).
Definition short_token : bytes := token_text plain_header "{}" [x2a].
Definition bare_token : bytes := rfc4648_unpadded true (lit "{}") ++ lit "." ++ rfc4648_unpadded true (lit lone_text).
Example C74_decode_example :
  wf we /\ allocs we /\ grows we
  /\ (well_called pe toy_num (dp_plain lone_token 0 (zstr "secret") 6) lone_token
      /\ requests_readable toy_num (dp_plain lone_token 0 (zstr "secret") 6)
      /\ harmful pe toy_num (dp_plain lone_token 0 (zstr "secret") 6) lone_token OOBRead)
  /\ (well_called pe toy_num (dp_plain short_token 0 (zstr "secret") 6) short_token
      /\ harmful pe toy_num (dp_plain short_token 0 (zstr "secret") 6) short_token OOBRead)
  /\ (well_called pe (toy_keys false true) (dp_plain sure_text 6 (zstr "secret") 6) sure_text
      /\ harmful pe (toy_keys false true) (dp_plain sure_text 6 (zstr "secret") 6) sure_text NullDeref)
  /\ (requests_readable toy_num typ_params /\ harmful pe toy_num typ_params typ_text BadCtype)
  /\ (well_called pe toy_num (dp_plain bare_token (-1) (zstr "secret") 6) bare_token
      /\ harmful pe toy_num (dp_plain bare_token (-1) (zstr "secret") 6) bare_token OOBRead)
  (* the same platform's char unsigned: harmless *)
  /\ (requests_readable toy_num typ_params /\ forall u, ~ harmful (Platform 64 false false true true) toy_num typ_params typ_text u)
  /\ (well_called pe toy_num (dp_plain sure_text 0 (zstr "secret") 6) sure_text
      /\ forall u, ~ harmful pe toy_num (dp_plain sure_text 0 (zstr "secret") 6) sure_text u).
Proof.
  assert (Ha : allocs we) by (intros k; reflexivity). assert (Hg : grows we) by (intros k; reflexivity).
  assert (G : forall p e tok alg key klen, well_called p e (dp_plain tok alg key klen) tok -> _)
    by (intros p e tok alg key klen W; pose proof W as (W1 & W2 & W3 & W4 & W5 & _);
        exact (C74_decode_exact p e (dp_plain tok alg key klen) tok true true we we_wf Ha Hg W1 W2 W3 W4 W5 (plain_readable _ _ _ _ _ _ W) (fun H => H))).
  assert (Rt : requests_readable toy_num typ_params).
  { do 4 (split; [left; reflexivity|]). split; [repeat split; discriminate|]. right. exists None, (lit "JWT"), [].
    split; [reflexivity|apply no_nul_b; reflexivity]. }
  assert (T : forall cs, _) by (intros cs; exact (C74_decode_exact (Platform 64 cs false true true) toy_num typ_params typ_text true true we we_wf Ha Hg
     (fun js cap => eq_refl) ltac:(vm_compute; discriminate)
     (conj (ex_intro _ None (ex_intro _ [] eq_refl)) (conj (no_nul_b typ_text eq_refl) (conj eq_refl eq_refl)))
     ltac:(vm_compute; discriminate) secret_ok Rt (fun H => H))).
  split; [apply we_wf|]. split; [exact Ha|]. split; [exact Hg|].
  split; [|split; [|split; [|split; [|split; [|split]]]]].
  - assert (W : well_called pe toy_num (dp_plain lone_token 0 (zstr "secret") 6) lone_token) by called.
    split; [exact W|]. split; [exact (plain_readable _ _ _ _ _ _ W)|]. destruct (G _ _ _ _ _ _ W) as [K _]. apply (K OOBRead). vm_compute. reflexivity.
  - assert (W : well_called pe toy_num (dp_plain short_token 0 (zstr "secret") 6) short_token) by called.
    split; [exact W|]. destruct (G _ _ _ _ _ _ W) as [K _]. apply (K OOBRead). vm_compute. reflexivity.
  - assert (W : well_called pe (toy_keys false true) (dp_plain sure_text 6 (zstr "secret") 6) sure_text) by called.
    split; [exact W|]. destruct (G _ _ _ _ _ _ W) as [K _]. apply (K NullDeref). vm_compute. reflexivity.
  - split; [exact Rt|]. destruct (T true) as [K _]. apply (K BadCtype). vm_compute. reflexivity.
  - assert (W : well_called pe toy_num (dp_plain bare_token (-1) (zstr "secret") 6) bare_token) by called.
    split; [exact W|]. destruct (G _ _ _ _ _ _ W) as [K _]. apply (K OOBRead). vm_compute. reflexivity.
  - split; [exact Rt|]. destruct (T false) as [_ K]. apply K. vm_compute. do 2 eexists. reflexivity.
  - assert (W : well_called pe toy_num (dp_plain sure_text 0 (zstr "secret") 6) sure_text) by called.
    split; [exact W|]. destruct (G _ _ _ _ _ _ W) as [_ K]. apply K. vm_compute. do 2 eexists. reflexivity.
Qed.
