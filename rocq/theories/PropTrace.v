(** * Properties C81 and C82: where memory comes from and goes to, and what it then holds *)
From Verif Require Import Base BaseProofs HeapProofs Util Claim Base64 SpecB64 Base64DecProofs Base64Api Jsmn Env Encode Decode
  SpecJwa ClaimProofs DecodeProofs PropEncode PropVerify PropValidate PropJson Trace TraceProofs TraceRuns.
From Coq Require Import ZifyBool ZifyNat ZifyN.
Ltac Zify.zify_post_hook ::= Z.div_mod_to_equations.
Local Opaque L8W8JWT_MAX_KEY_SIZE.

(** ** The traced functions are the functions *)
(** Without their events, the functions of Trace.v are those of the rest of the model. *)
Theorem C81_traces :
  (forall p e params w, snd (encode_h p e params w) = l8w8jwt_encode p e params w)
  /\ (forall p e params v c l w, snd (decode_h p e params v c l w) = l8w8jwt_decode p e params v c l w)
  /\ (forall p e params v a b c d f g w,
        snd (decode_raw_h p e params v a b c d f g w) = l8w8jwt_decode_raw p e params v a b c d f g w)
  /\ (forall p params a b c d f g w,
        snd (decode_raw_no_validation_h p params a b c d f g w)
        = l8w8jwt_decode_raw_no_validation p params a b c d f g w)
  /\ (forall c n w, snd (free_claims_h c n w) = l8w8jwt_free_claims c n w).
Proof.
  repeat split; intros; [apply er_encode|apply er_decode|apply er_decode_raw|apply er_decode_raw_nv|apply er_free_claims].
Qed.

(** ** C81: memory is given back to the allocator it came from *)
(** A build: which functions the application replaces (README.md:85-96). *)
Record build := Build { alt_malloc : bool; alt_calloc : bool }.
(** [free] is for blocks of libc's malloc and calloc, which chillbuff also uses; [chillbuff_free] is for
    chillbuff's blocks. *)
Definition belongs (b : build) (h : way) (s : source) : Prop :=
  match h, s with
  | ByFree, FromMalloc => alt_malloc b = false
  | ByFree, FromCalloc => alt_calloc b = false
  | ByFree, FromBuffer => True
  | ByBuffer, FromBuffer => True
  | ByBuffer, _ => False
  end.
(** Whatever is released was obtained, from one source, to which the release belongs. *)
Definition matched (b : build) (tr : list hevent) : Prop :=
  forall h id c, In (Gone h id c) tr ->
    exists s, In (Got s id) tr /\ (forall s', In (Got s' id) tr -> s' = s) /\ belongs b h s.

(** A run's releases, from a [holds]. *)
Lemma start w : wf w -> inv [] w.
Proof. intros W. split; [exact W|]. split; [intros s id []|intros s s' id []]. Qed.
Lemma run_holds {A} good (m : H A) Q w : wf w -> holds good [] m Q ->
  released good [] (fst (m w)) /\ unique (fst (m w))
  /\ forall a w', snd (m w) = Ret a w' -> inv (life (fst (m w))) w' /\ Q a (life (fst (m w))).
Proof.
  intros W Hm. destruct (Hm w (start w W)) as (R & U & K). split; [|split; [|exact K]].
  - intros h id c X. apply (proj2 (life_gone _ _ _ _)) in X. destruct (R _ _ _ X) as (s & G & O). exists s. split; [|exact O]. apply (proj1 (life_got _ _ _)). exact G.
  - intros s s' id X Y. apply (proj2 (life_got _ _ _)) in X, Y. eapply U; eauto.
Qed.
Lemma life_freed s tr : freed_from s (life tr) -> freed_from s tr.
Proof. intros (id & c & G & F). apply (proj1 (life_got _ _ _)) in G. apply (proj1 (life_gone _ _ _ _)) in F. exists id, c. auto. Qed.
Lemma life_seg_freed s tr : seg_freed (life tr) s -> seg_freed tr s.
Proof. intros F id m E. destruct (F id m E) as [G X]. apply (proj1 (life_got _ _ _)) in G. apply (proj1 (life_gone _ _ _ _)) in X. auto. Qed.
Lemma matched_of b tr : released (fun h s _ => belongs b h s) [] tr -> unique tr -> matched b tr.
Proof.
  intros R U h id c I. destruct (R h id c I) as (s & Is & Hb). cbn [app] in Is. exists s. split; [exact Is|]. split; [|exact Hb].
  intros s' Is'. eapply U; eauto.
Qed.
(** A block of [s] released by [free]. *)
Lemma unmatched b tr s : freed_from s tr -> ~ belongs b ByFree s -> ~ matched b tr.
Proof. intros (id & c & G & F) N M. destruct (M _ _ _ F) as (s' & _ & U & B). rewrite (U s G) in N. contradiction. Qed.

(** The build is one whose replaced functions [l8w8jwt_encode] does not use for what it releases. *)
Definition encode_build (b : build) (p : platform) (ep : enc_params) : Prop :=
  alt_malloc b = false /\ (alt_calloc b = true -> p_small_stack p = true -> ep_alg ep = (-1)%Z).
Lemma encode_triple (b : build) (good : way -> source -> content -> Prop) p e ep :
  (forall h s c, belongs b h s -> good h s c) -> encode_build b p ep ->
  holds good [] (encode_h p e (Some ep))
    (fun r t' => (forall q, er_out r = Some q -> heap t' FromMalloc q)
                 /\ (er_rc r = L8W8JWT_SUCCESS ->
                     freed_from FromMalloc t' /\ (p_small_stack p = true -> ep_alg ep <> (-1)%Z -> freed_from FromCalloc t'))).
Proof.
  intros Hg [Bm Bc]. apply h_encode; [intros; apply Hg; exact I|intros; apply Hg; exact Bm|]. intros Hs Ha.
  destruct (alt_calloc b) eqn:E; [rewrite (Bc eq_refl Hs) in Ha; contradiction|]. split; [intros m _|]; apply Hg; exact E.
Qed.

(** Encoding and the release of the token by the caller (README.md:133, encode.h:170). *)
Definition encode_and_free_h (p : platform) (e : env) (ep : enc_params) : H enc_res :=
  r <-h encode_h p e (Some ep) ;;
  _ <-h (match er_out r with Some q => hfree q | None => hret tt end) ;;
  hret r.

(** In those builds every release is matched, in every run (including one that ends in undefined
    behaviour, up to there), and so is that of the token. Missing: the other builds, which
    README.md:85-96 also offers. *)
Theorem C81_encode_partial :
  forall b p e ep w, wf w -> encode_build b p ep ->
    matched b (fst (encode_h p e (Some ep) w)) /\ matched b (fst (encode_and_free_h p e ep w)).
Proof.
  intros b p e ep w W B. pose proof (encode_triple b (fun h s _ => belongs b h s) p e ep (fun _ _ _ x => x) B) as T. split.
  - destruct (run_holds _ _ _ _ W T) as (R & U & _). apply matched_of; assumption.
  - assert (T2 : holds (fun h s _ => belongs b h s) [] (encode_and_free_h p e ep) (fun _ _ => True)).
    { unfold encode_and_free_h. hs ltac:(exact T). intros r t1 [O _] _.
      eapply (h_bind _ t1 _ _ (fun _ _ => True)); [|intros; apply h_ret; exact I].
      destruct (er_out r) as [q|]; [|apply h_ret; exact I]. eapply h_imp; [apply (h_free _ _ _ FromMalloc); [apply heap_owned; auto|intros; apply B]|auto]. }
    destruct (run_holds _ _ _ _ W T2) as (R & U & _). apply matched_of; assumption.
Qed.

(** In the other builds no encoding that succeeds is matched: a block of the application's allocator is
    handed to libc's [free]. *)
Theorem C81_encode_unmatched :
  forall b p e ep w r w',
    wf w -> l8w8jwt_encode p e (Some ep) w = Ret r w' -> er_rc r = L8W8JWT_SUCCESS -> ~ encode_build b p ep ->
    ~ matched b (fst (encode_h p e (Some ep) w)).
Proof.
  intros b p e ep w r w' W E Er N.
  pose proof (h_encode (fun _ _ _ => True) [] p e ep (fun _ => I) (fun _ => I) (fun _ _ => conj (fun _ _ => I) I)) as T.
  destruct (run_holds _ _ _ _ W T) as (_ & _ & K). rewrite <- er_encode in E. destruct (K _ _ E) as (_ & _ & F).
  destruct (F Er) as [Fm Fc]. apply life_freed in Fm.
  assert (Fc' := fun a b => life_freed _ _ (Fc a b)). clear Fc. rename Fc' into Fc. destruct (alt_malloc b) eqn:Em; [eapply unmatched; [exact Fm|]; cbn; congruence|].
  destruct (alt_calloc b) eqn:Ec.
  2:{ exfalso. apply N. split; [exact Em|]. rewrite Ec. discriminate. }
  destruct (p_small_stack p) eqn:Ep.
  2:{ exfalso. apply N. split; [exact Em|]. rewrite Ep. discriminate. }
  destruct (Z.eq_dec (ep_alg ep) (-1)) as [Ea|Ea]; [exfalso; apply N; split; auto|].
  eapply unmatched; [exact (Fc eq_refl Ea)|]. cbn. congruence.
Qed.

(** The token is a block of [l8w8jwt_malloc], never released by the call itself. *)
Theorem C81_token_source :
  forall p e ep w r w' q,
    wf w -> l8w8jwt_encode p e (Some ep) w = Ret r w' -> er_out r = Some q ->
    q = Null \/ exists id m, q = Ptr (Some id) m /\ In (Got FromMalloc id) (fst (encode_h p e (Some ep) w)).
Proof.
  intros p e ep w r w' q W E Eq.
  pose proof (h_encode (fun _ _ _ => True) [] p e ep (fun _ => I) (fun _ => I) (fun _ _ => conj (fun _ _ => I) I)) as T.
  destruct (run_holds _ _ _ _ W T) as (_ & _ & K). rewrite <- er_encode in E. destruct (K _ _ E) as (_ & O & _).
  specialize (O _ Eq). destruct q as [|[id|] m]; [auto| |destruct O]. cbn in O. apply (proj1 (life_got _ _ _)) in O. right. eauto.
Qed.

(** Decoding: in [decode_build]s calloc is not replaced, nor malloc if the header or the payload has
    more than 64 JSON tokens (src/decode.c:245). *)
Definition decode_build (b : build) (p : platform) (e : env) (dp : dec_params) : Prop :=
  alt_calloc b = false /\ (alt_malloc b = true -> forall sg, segments_ok p dp sg -> ~ long_token e sg).
Section Builds.
Variables (b : build) (p : platform) (e : env) (dp : dec_params).
Let good : way -> source -> content -> Prop := fun h s _ => belongs b h s.
Hypothesis B : decode_build b p e dp.
Lemma build_z : forall m, zeros m -> good ByFree FromCalloc (Text m).
Proof. intros m _. apply B. Qed.
Lemma build_a : forall cs, Forall (eq claim0) cs -> good ByFree FromBuffer (Records cs).
Proof. intros cs _. exact I. Qed.
Lemma build_k : (exists sg, segments_ok p dp sg /\ long_token e sg) -> good ByFree FromMalloc Tokens.
Proof.
  intros (sg & S & L). unfold good, belongs. destruct (alt_malloc b) eqn:E; [|reflexivity].
  exfalso. exact (proj2 B E sg S L).
Qed.
End Builds.

Lemma null_invalid p dp : dp_jwt dp = Null -> l8w8jwt_validate_decoding_params p (Some dp) = L8W8JWT_NULL_ARG.
Proof. intros E. unfold l8w8jwt_validate_decoding_params. rewrite E. reflexivity. Qed.
(** The calls for any parameters. *)
Lemma decode_triple good p e dp v c l Q :
  (forall b0 jwt, dp_jwt dp = Ptr b0 jwt -> holds good [] (decode_h p e (Some dp) v c l) Q) ->
  (forall rc, rc <> L8W8JWT_SUCCESS -> Q (DecRes rc None None) []) ->
  holds good [] (decode_h p e (Some dp) v c l) Q.
Proof.
  intros Hp Hn. destruct (dp_jwt dp) as [|b0 jwt] eqn:Ej; [|eapply Hp; reflexivity].
  unfold decode_h. rewrite (null_invalid p dp Ej). cbn [negb Z.eqb].
  destruct (c && negb l); [apply h_ret; apply Hn; discriminate|]. apply h_ret. apply Hn. discriminate.
Qed.
Lemma raw_triple good p e dp v a b c d f g Q :
  (forall b0 jwt, dp_jwt dp = Ptr b0 jwt -> holds good [] (decode_raw_h p e (Some dp) v a b c d f g) Q) ->
  (forall rc, rc <> L8W8JWT_SUCCESS -> Q (RawRes rc None None None None) []) ->
  holds good [] (decode_raw_h p e (Some dp) v a b c d f g) Q.
Proof.
  intros Hp Hn. destruct (dp_jwt dp) as [|b0 jwt] eqn:Ej; [|eapply Hp; reflexivity].
  unfold decode_raw_h. rewrite (null_invalid p dp Ej). cbn [negb Z.eqb].
  destruct (_ || _ || _ || _); apply h_ret; apply Hn; discriminate.
Qed.
Lemma raw_nv_triple good p dp a b c d f g Q :
  (forall b0 jwt, dp_jwt dp = Ptr b0 jwt -> holds good [] (decode_raw_no_validation_h p (Some dp) a b c d f g) Q) ->
  (forall rc, rc <> L8W8JWT_SUCCESS -> Q (RawRes rc None None None None) []) ->
  holds good [] (decode_raw_no_validation_h p (Some dp) a b c d f g) Q.
Proof.
  intros Hp Hn. destruct (dp_jwt dp) as [|b0 jwt] eqn:Ej; [|eapply Hp; reflexivity].
  unfold decode_raw_no_validation_h. rewrite (null_invalid p dp Ej). cbn [negb Z.eqb].
  destruct (_ || _ || _ || _); apply h_ret; apply Hn; discriminate.
Qed.

(** Decoding and the release of the claims by the caller (claim.h:80). *)
Definition decode_and_free_h (p : platform) (e : env) (dp : dec_params) : H unit :=
  r <-h decode_h p e (Some dp) true true true ;;
  match dr_claims r with Some (c, n) => free_claims_h c n | None => hret tt end.
(** Raw decoding and the release of the parts it gives (examples/rs256/decode.c:132-134). *)
Definition free_part_h (o : option seg) : H unit :=
  match o with Some s => hfree (s_ptr s) | None => hret tt end.
Definition raw_and_free_h (m : H raw_res) : H unit :=
  r <-h m ;; _ <-h free_part_h (rr_header r) ;; _ <-h free_part_h (rr_payload r) ;; free_part_h (rr_signature r).

Definition part_from (t : list hevent) (o : option seg) : Prop :=
  match o with Some s => heap t FromCalloc (s_ptr s) | None => True end.
Lemma raw_freed (b : build) w (m : H raw_res) :
  wf w -> belongs b ByFree FromCalloc ->
  holds (fun h s _ => belongs b h s) [] m
    (fun r t' => part_from t' (rr_header r) /\ part_from t' (rr_payload r) /\ part_from t' (rr_signature r)) ->
  matched b (fst (raw_and_free_h m w)).
Proof.
  intros W Bc Tm. set (good := fun (h : way) (s : source) (_ : content) => belongs b h s) in *.
  assert (T2 : holds good [] (raw_and_free_h m) (fun _ _ => True)).
  { assert (Fp : forall t o, part_from t o -> holds good t (free_part_h o) (fun _ _ => True)).
    { intros t [s|] K; cbn [free_part_h]; [|apply h_ret; exact I].
      eapply h_imp; [apply (h_free good _ _ FromCalloc); [apply heap_owned; exact K|intros; exact Bc]|auto]. }
    assert (Up : forall t t' o, upto t t' -> part_from t o -> part_from t' o)
      by (intros t t' [s|] U K; [eapply heap_upto; eauto|exact I]).
    unfold raw_and_free_h. hs ltac:(exact Tm). intros r t1 (K1 & K2 & K3) _.
    hs ltac:(apply Fp, K1). intros u2 t2 _ U2. hs ltac:(apply Fp; eapply Up; [exact U2|apply K2]).
    intros u3 t3 _ U3. apply Fp. eapply Up; [exact U3|]. eapply Up; [exact U2|]. apply K3. }
  destruct (run_holds _ _ _ _ W T2) as (R & U & _). apply matched_of; assumption.
Qed.
Lemma raw_known_from jwt t o : raw_known jwt t o -> part_from t o.
Proof. destruct o as [s|]; [intros [A _]; exact A|auto]. Qed.

(** All calls that decode, and the releases that are left to the caller. Missing: the other builds. *)
Theorem C81_decode_partial :
  forall b p e dp w, wf w -> decode_build b p e dp ->
    (forall v c l, matched b (fst (decode_h p e (Some dp) v c l w)))
    /\ matched b (fst (decode_and_free_h p e dp w))
    /\ (forall v h hl pl pll s sl,
          matched b (fst (raw_and_free_h (decode_raw_h p e (Some dp) v h hl pl pll s sl) w)))
    /\ (forall h hl pl pll s sl,
          matched b (fst (raw_and_free_h (decode_raw_no_validation_h p (Some dp) h hl pl pll s sl) w))).
Proof.
  intros b p e dp w W B. set (good := fun (h : way) (s : source) (_ : content) => belongs b h s).
  assert (Bc : belongs b ByFree FromCalloc) by apply B.
  assert (T : forall v c l, holds good [] (decode_h p e (Some dp) v c l) (fun r t' => claims_known t' (dr_claims r))).
  { intros v c l. apply decode_triple; [|intros; exact I]. intros b0 jwt Ej.
    eapply h_imp; [apply (h_decode good (build_z b p e dp B) (build_a b) Bc jwt (fun _ _ _ _ _ => Bc) [] p e dp b0); [apply build_k; exact B|exact Ej]|].
    cbn beta. intros r t' _ [A _]. exact A. }
  split; [|split; [|split]].
  - intros v c l. destruct (run_holds _ _ _ _ W (T v c l)) as (R & U & _). apply matched_of; assumption.
  - assert (T2 : holds good [] (decode_and_free_h p e dp) (fun _ _ => True)).
    { unfold decode_and_free_h. hs ltac:(apply T). intros r t1 K _. cbv beta in K.
      destruct (dr_claims r) as [[[|[id|] cs] n]|]; cbn in K; try contradiction; [|apply h_ret; exact I].
      destruct K as (Ki & Kc & Kn). apply h_free_claims; [apply (build_z b p e dp B)|apply build_a|exact Ki|exact Kc|exact Kn]. }
    destruct (run_holds _ _ _ _ W T2) as (R & U & _). apply matched_of; assumption.
  - intros v h hl pl pll s sl. apply raw_freed; [exact W|exact Bc|]. apply raw_triple; [|intros rc _; cbn; auto]. intros b0 jwt Ej.
    eapply h_imp; [apply (h_decode_raw good (build_z b p e dp B) (build_a b) Bc jwt (fun _ _ _ _ _ => Bc) [] p e dp b0); [apply build_k; exact B|exact Ej]|].
    cbn beta. intros r t' _ (A1 & A2 & A3). repeat split; eapply raw_known_from; eauto.
  - intros h hl pl pll s sl. apply raw_freed; [exact W|exact Bc|]. apply raw_nv_triple; [|intros rc _; cbn; auto]. intros b0 jwt Ej.
    eapply h_imp; [apply (h_decode_raw_nv good Bc jwt (fun _ _ _ _ _ => Bc) [] p dp b0); exact Ej|].
    cbn beta. intros r t' _ (A1 & A2 & A3). repeat split; eapply raw_known_from; eauto.
Qed.

(** What a successful decoding releases. *)
Lemma decode_frees p e dp v c l w r w' :
  wf w -> l8w8jwt_decode p e (Some dp) v c l w = Ret r w' -> dr_rc r = L8W8JWT_SUCCESS ->
  let tr := fst (decode_h p e (Some dp) v c l w) in
  exists jwt b0 sg, dp_jwt dp = Ptr b0 jwt /\ segments_ok p dp sg /\ (long_token e sg -> freed_from FromMalloc tr)
    /\ seg_freed tr (sg_header sg) /\ seg_freed tr (sg_payload sg) /\ seg_freed tr (sg_signature sg).
Proof.
  intros W E Er. cbv zeta.
  assert (T : holds (fun _ _ _ => True) [] (decode_h p e (Some dp) v c l)
     (fun r tr => dr_rc r = L8W8JWT_SUCCESS -> exists jwt b0 sg, dp_jwt dp = Ptr b0 jwt /\ segments_ok p dp sg
        /\ (long_token e sg -> freed_from FromMalloc tr)
        /\ seg_freed tr (sg_header sg) /\ seg_freed tr (sg_payload sg) /\ seg_freed tr (sg_signature sg))).
  { apply decode_triple; [|intros rc N R; contradiction]. intros b0 jwt Ej.
    eapply h_imp; [apply (h_decode _ (fun _ _ => I) (fun _ _ => I) I jwt (fun _ _ _ _ _ => I) [] p e dp b0); [intros _; exact I|exact Ej]|].
    cbn beta. intros r0 t' _ [_ S] R. destruct (S R) as (sg & X). exists jwt, b0, sg. auto. }
  destruct (run_holds _ _ _ _ W T) as (_ & _ & K). rewrite <- er_decode in E. destruct (K _ _ E) as (_ & S).
  destruct (S Er) as (jwt & b0 & sg & A1 & A2 & A3 & A4 & A5 & A6). exists jwt, b0, sg.
  split; [exact A1|]. split; [exact A2|]. split; [intros L; apply life_freed, A3, L|]. split; [|split]; apply life_seg_freed; assumption.
Qed.
Lemma seg_of_freed tr part s : seg_of part s -> seg_freed tr s -> freed_from FromCalloc tr.
Proof. intros (id & o & tail & _ & ->) F. destruct (F id _ eq_refl) as [A B]. eexists _, _. eauto. Qed.
Lemma header_is_seg p dp sg : segments_ok p dp sg -> exists part, seg_of part (sg_header sg).
Proof. intros (b & jwt & _ & [(h & pl & rest & n & _ & _ & _ & S & _)|(_ & h & s & rest & n & _ & _ & _ & _ & _ & _ & _ & S & _)]); eauto. Qed.

(** Which parts are long does not depend on the run. *)
Lemma long_part_dec e s : long_part e s \/ ~ long_part e s.
Proof.
  unfold long_part. destruct (s_ptr s) as [|b m]; [right; intros (b & m & E & _); discriminate|].
  destruct (Z.lt_decidable 64 (tokens_in e m (s_len s))) as [L|L]; [left; eauto|right]. intros (b' & m' & E & L'). inversion E; subst. contradiction.
Qed.
Lemma long_part_bytes e s s' : seg_bytes (Some s) = seg_bytes (Some s') ->
  (exists part, seg_of part s) -> (exists part, seg_of part s') -> long_part e s -> long_part e s'.
Proof.
  intros E (part & id & o & tl & _ & ->) (part' & id' & o' & tl' & _ & ->) (b & m & Em & L). cbn [s_ptr s_len seg_bytes] in *. injection Em as _ <-.
  exists (Some id'), (o' ++ tl'). split; [reflexivity|]. cbn [s_len]. assert (o' ++ tl' = o ++ tl) as -> by congruence.
  assert (N.of_nat (length o') = N.of_nat (length o)) as -> by congruence. exact L.
Qed.
Lemma long_token_fun p e dp sg sg' : segments_ok p dp sg -> segments_ok p dp sg' -> long_token e sg -> long_token e sg'.
Proof.
  intros S S'. destruct (segments_ok_fun _ _ _ _ S S') as (A & B & _).
  assert (X : forall sg, segments_ok p dp sg -> (exists part, seg_of part (sg_header sg)) /\ exists part, seg_of part (sg_payload sg)).
  { intros x (b & jwt & _ & [(h & pl & rest & n & _ & _ & _ & S1 & S2 & _)|(_ & h & s & rest & n & _ & _ & _ & _ & _ & _ & _ & S1 & S2 & _)]); eauto. }
  destruct (X _ S) as [X1 X2]. destruct (X _ S') as [X1' X2'].
  intros [L|L]; [left|right]; eapply long_part_bytes; eauto.
Qed.

(** In the other builds no decoding that succeeds is matched. *)
Theorem C81_decode_unmatched :
  forall b p e dp v c l w r w',
    wf w -> l8w8jwt_decode p e (Some dp) v c l w = Ret r w' -> dr_rc r = L8W8JWT_SUCCESS -> ~ decode_build b p e dp ->
    ~ matched b (fst (decode_h p e (Some dp) v c l w)).
Proof.
  intros b p e dp v c l w r w' W E Er N.
  destruct (decode_frees _ _ _ _ _ _ _ _ _ W E Er) as (jwt & b0 & sg & _ & S & L & F & _).
  destruct (alt_calloc b) eqn:Ec.
  - destruct (header_is_seg _ _ _ S) as (part & Sp). eapply unmatched; [eapply seg_of_freed; eauto|]. cbn. congruence.
  - destruct (alt_malloc b) eqn:Em.
    2:{ exfalso. apply N. split; [exact Ec|]. rewrite Em. discriminate. }
    assert (D : long_token e sg \/ ~ long_token e sg).
    { unfold long_token. destruct (long_part_dec e (sg_header sg)); [tauto|]. destruct (long_part_dec e (sg_payload sg)); tauto. }
    destruct D as [D|D].
    + eapply unmatched; [exact (L D)|]. cbn. congruence.
    + exfalso. apply N. split; [exact Ec|]. intros _ sg' S' D'. apply D. eapply long_token_fun; [exact S'|exact S|exact D'].
Qed.

(** ** C82: claims and keys are wiped before their memory is released *)
(** Nothing can be read in the block. (Where in the JSON text a name or value is, is in the array of
    jsmn tokens; the text itself is not.) *)
Definition all_zero (m : bytes) : Prop := forall x, In x m -> x = x00.
Definition nothing_left (c : content) : Prop :=
  match c with
  | Text m => all_zero m
  | Records cs => forall x, In x cs -> x = claim0
  | Tokens => True
  | Untold => False
  end.
Lemma zeros_iff m : zeros m <-> all_zero m.
Proof. unfold zeros, all_zero. rewrite Forall_forall. reflexivity. Qed.
(** A part of the token, base64-decoded. *)
Definition decoded_part (dp : dec_params) (m : bytes) : Prop :=
  exists b jwt part o tail, dp_jwt dp = Ptr b jwt /\ within part jwt /\ b64_decodes part o tail /\ m = o ++ tail.

(** The claims that l8w8jwt_decode returns are released by l8w8jwt_free_claims with nothing left in their
    blocks: names, values and the array. *)
Theorem C82_free_claims :
  forall p e dp w r w1 c n,
    wf w -> l8w8jwt_decode p e (Some dp) true true true w = Ret r w1 -> dr_claims r = Some (c, n) ->
    forall h id x, In (Gone h id x) (fst (free_claims_h c n w1)) -> nothing_left x.
Proof.
  intros p e dp w r w1 c n W E Ec.
  assert (T : holds (fun _ _ _ => True) [] (decode_h p e (Some dp) true true true) (fun r t' => claims_known t' (dr_claims r))).
  { apply decode_triple; [|intros; exact I]. intros b0 jwt Ej.
    eapply h_imp; [apply (h_decode _ (fun _ _ => I) (fun _ _ => I) I jwt (fun _ _ _ _ _ => I) [] p e dp b0); [intros _; exact I|exact Ej]|].
    cbn beta. intros r0 t' _ [A _]. exact A. }
  destruct (run_holds _ _ _ _ W T) as (_ & _ & K). rewrite <- er_decode in E. destruct (K _ _ E) as (I1 & C). clear K T.
  rewrite Ec in C. set (tr := life (fst (decode_h p e (Some dp) true true true w))) in *.
  destruct c as [|[id0|] cs]; cbn in C; try contradiction. destruct C as (Ci & Cc & Cn).
  assert (T : holds (fun _ _ x => nothing_left x) tr (free_claims_h (CArr (Some id0) cs) n) (fun _ _ => True)).
  { apply h_free_claims; auto; [intros m Z; apply zeros_iff, Z|]. intros cs0 F x X. rewrite Forall_forall in F. symmetry. auto. }
  destruct (T w1 I1) as (R & _ & _). intros h id x X. apply (proj2 (life_gone _ _ _ _)) in X. destruct (R h id x X) as (s & _ & G). exact G.
Qed.

(** Inside the calls, what is released has nothing left in it, except the decoded parts of the token (and
    the block of a part that is not base64). Claims dropped because decoding fails or because they are not
    asked for, and copies of the key, are wiped. Missing: those parts, which hold the same texts. *)
Theorem C82_decode_partial :
  forall p e dp w, wf w ->
    (forall v c l h id x, In (Gone h id x) (fst (decode_h p e (Some dp) v c l w)) ->
       nothing_left x \/ x = Untold \/ exists m, x = Text m /\ decoded_part dp m)
    /\ (forall v a b c d f g h id x, In (Gone h id x) (fst (decode_raw_h p e (Some dp) v a b c d f g w)) ->
       nothing_left x \/ x = Untold \/ exists m, x = Text m /\ decoded_part dp m)
    /\ (forall a b c d f g h id x, In (Gone h id x) (fst (decode_raw_no_validation_h p (Some dp) a b c d f g w)) ->
       x = Untold \/ exists m, x = Text m /\ decoded_part dp m).
Proof.
  intros p e dp w W.
  set (good := fun (_ : way) (_ : source) x => nothing_left x \/ x = Untold \/ exists m, x = Text m /\ decoded_part dp m).
  set (good' := fun (_ : way) (_ : source) x => x = Untold \/ exists m, x = Text m /\ decoded_part dp m).
  assert (G : forall m, zeros m -> good ByFree FromCalloc (Text m)) by (intros m Z; left; apply zeros_iff, Z).
  assert (Ga : forall cs, Forall (eq claim0) cs -> good ByFree FromBuffer (Records cs)).
  { intros cs F. left. intros x X. rewrite Forall_forall in F. symmetry. auto. }
  assert (Gu : good ByFree FromCalloc Untold) by (right; left; reflexivity).
  assert (Gu' : good' ByFree FromCalloc Untold) by (left; reflexivity).
  assert (Gk : good ByFree FromMalloc Tokens) by (left; exact I).
  assert (D : forall b0 jwt part o tail, dp_jwt dp = Ptr b0 jwt -> within part jwt -> b64_decodes part o tail ->
                exists m, Text (o ++ tail) = Text m /\ decoded_part dp m).
  { intros b0 jwt part o tail Ej Wp Hd. eexists. split; [reflexivity|]. exists b0, jwt, part, o, tail. auto. }
  split; [|split].
  - intros v c l h id x X. assert (T : holds good [] (decode_h p e (Some dp) v c l) (fun _ _ => True)).
    { apply decode_triple; [|auto]. intros b0 jwt Ej. eapply h_imp; [apply (h_decode good G Ga Gu jwt) with (b0 := b0); auto|auto].
      intros part o tail Wp Hd. right; right. eapply D; eauto. }
    destruct (run_holds _ _ _ _ W T) as (R & _). destruct (R _ _ _ X) as (s & _ & K). exact K.
  - intros v a b c d f g h id x X. assert (T : holds good [] (decode_raw_h p e (Some dp) v a b c d f g) (fun _ _ => True)).
    { apply raw_triple; [|auto]. intros b0 jwt Ej. eapply h_imp; [apply (h_decode_raw good G Ga Gu jwt) with (b0 := b0); auto|auto].
      intros part o tail Wp Hd. right; right. eapply D; eauto. }
    destruct (run_holds _ _ _ _ W T) as (R & _). destruct (R _ _ _ X) as (s & _ & K). exact K.
  - intros a b c d f g h id x X. assert (T : holds good' [] (decode_raw_no_validation_h p (Some dp) a b c d f g) (fun _ _ => True)).
    { apply raw_nv_triple; [|auto]. intros b0 jwt Ej. eapply h_imp; [apply (h_decode_raw_nv good' Gu' jwt) with (b0 := b0); auto|auto].
      intros part o tail Wp Hd. right. eapply D; eauto. }
    destruct (run_holds _ _ _ _ W T) as (R & _). destruct (R _ _ _ X) as (s & _ & K). exact K.
Qed.

Lemma not_both jwt h pl rest h' s rest' : three_parts jwt h pl rest -> jwt = h' ++ lit "." ++ s ++ x00 :: rest' ->
  no_dot h' -> no_nul h' -> no_dot s -> no_nul s -> False.
Proof.
  intros H3 -> Hd Hn Hd' Hn'.
  destruct (signing_input_cut _ _ _ _ H3) as (A1 & A2 & _). rewrite strchr_dot in A1 by auto.
  assert (L : length h' = length h) by congruence. rewrite <- L in A2.
  replace (skipn (S (length h')) (h' ++ lit "." ++ s ++ x00 :: rest')) with (s ++ x00 :: rest') in A2.
  2:{ change (h' ++ lit "." ++ s ++ x00 :: rest') with (h' ++ (x2e :: (s ++ x00 :: rest'))).
      rewrite skipn_app. replace (S (length h') - length h')%nat with 1%nat by lia.
      rewrite skipn_all2 by lia. reflexivity. }
  rewrite strchr_none in A2 by (auto; discriminate). discriminate.
Qed.
(** Every decoding that succeeds releases the decoded header and payload as they are: the claims' texts
    stay in released memory, although l8w8jwt_free_claims takes care to wipe them. *)
Theorem C82_parts_left :
  forall p e dp v c l w r w' b0 jwt h pl rest,
    wf w -> l8w8jwt_decode p e (Some dp) v c l w = Ret r w' -> dr_rc r = L8W8JWT_SUCCESS ->
    dp_jwt dp = Ptr b0 jwt -> three_parts jwt h pl rest ->
    exists oh th op tp id1 id2,
      b64_decodes h oh th /\ b64_decodes pl op tp
      /\ In (Gone ByFree id1 (Text (oh ++ th))) (fst (decode_h p e (Some dp) v c l w))
      /\ In (Gone ByFree id2 (Text (op ++ tp))) (fst (decode_h p e (Some dp) v c l w)).
Proof.
  intros p e dp v c l w r w' b0 jwt h pl rest W E Er Ej T3.
  destruct (decode_frees _ _ _ _ _ _ _ _ _ W E Er) as (jwt' & b' & sg & Ej' & S & _ & Fh & Fp & _).
  rewrite Ej in Ej'. inversion Ej'; subst b' jwt'. clear Ej'. destruct S as (b1 & jwt1 & Ej1 & S). rewrite Ej in Ej1. inversion Ej1; subst b1 jwt1.
  destruct S as [(h' & pl' & rest' & n & T3' & _ & _ & (id1 & oh & th & D1 & E1) & (id2 & op & tp & D2 & E2) & _)
                |(_ & h' & s & rest' & n & Es & N1 & Z1 & N2 & Z2 & _)].
  - destruct (three_parts_fun _ _ _ _ _ _ _ T3 T3') as (<- & <- & _). exists oh, th, op, tp, id1, id2.
    split; [exact D1|]. split; [exact D2|]. rewrite E1 in Fh. rewrite E2 in Fp. split; [apply Fh|apply Fp]; reflexivity.
  - exfalso. eapply not_both; eauto.
Qed.

(** In the L8W8JWT_SMALL_STACK build the copy of the key that l8w8jwt_encode makes on the heap is wiped (C64
    is about the other copies). The block of the signature is not followed. *)
Theorem C82_encode_key :
  forall p e ep w id x, wf w ->
    In (Got FromCalloc id) (fst (encode_h p e (Some ep) w)) ->
    In (Gone ByFree id x) (fst (encode_h p e (Some ep) w)) ->
    x = Untold \/ exists m, x = Text m /\ all_zero m.
Proof.
  intros p e ep w id x W G X.
  assert (T : holds (fun _ s x => s = FromCalloc -> x = Untold \/ exists m, x = Text m /\ all_zero m) [] (encode_h p e (Some ep)) (fun _ _ => True)).
  { eapply h_imp; [apply h_encode; [discriminate|discriminate|]|auto]. intros _ _. split; [|auto].
    intros m Z _. right. exists m. split; [reflexivity|apply zeros_iff, Z]. }
  destruct (run_holds _ _ _ _ W T) as (R & U & _). destruct (R _ _ _ X) as (s & Gs & K). apply K. eapply U; eauto.
Qed.

(** ** Cases *)
(** The events of a run without the contents, and whether nothing is left in them. *)
Definition looks_empty (c : content) : bool :=
  match c with
  | Text m => forallb (fun x => Byte.eqb x x00) m
  | Records cs => forallb (fun c => is_null (c_key c) && is_null (c_value c)) cs
  | Tokens => true
  | Untold => false
  end.
Inductive shape := G (s : source) (id : nat) | F (h : way) (id : nat) (empty : bool).
Definition shapes (tr : list hevent) : list shape :=
  map (fun x => match x with Got s id => G s id | Gone h id c => F h id (looks_empty c) | Used id => F ByFree id false end)
      (life tr).

(** The ordinary build, encoding: token builder 1, segment builder 2, escape buffers, segments. *)
Example C81_encode_case :
  wf we /\ encode_build (Build false false) pe ep_sample
  /\ (match l8w8jwt_encode pe toy (Some ep_sample) we with Ret r _ => Some (er_rc r) | Undef _ => None end) = Some 0%Z
  /\ shapes (fst (encode_h pe toy (Some ep_sample) we))
     = [G FromBuffer 1; G FromBuffer 2; G FromBuffer 3; F ByBuffer 3 false; G FromMalloc 4; F ByFree 4 false;
        G FromBuffer 5; F ByBuffer 5 false; G FromBuffer 6; F ByBuffer 6 false; G FromMalloc 7; F ByFree 7 false;
        F ByBuffer 2 false; G FromMalloc 8; F ByFree 8 false; G FromMalloc 9; F ByBuffer 1 false].
Proof.
  split; [exact we_wf|]. split; [split; [reflexivity|discriminate]|]. split; vm_compute; reflexivity.
Qed.
Definition long_payload : string :=
  String.append "{" (String.append (String.concat "," (repeat """a"":1" 33)%string) "}").
Definition dp_of (pl : string) : dec_params := dp_plain (signed plain_header pl) 0 (zstr "secret") 6.
Arguments dp_of pl%string_scope.
(** Decoding [{"a":"b"}]: the claims (array 1; names and values 5 to 10) stay, the parts 2 to 4 go, and they
    are not empty; then the release of the claims. *)
Example C82_decode_case :
  verdict_of (l8w8jwt_decode pe toy (Some (dp_of "{""a"":""b""}")) true true true we) = Some (0%Z, Some 0%N, Some 3%N)
  /\ shapes (fst (decode_and_free_h pe toy (dp_of "{""a"":""b""}") we))
     = [G FromBuffer 1; G FromCalloc 2; G FromCalloc 3; G FromCalloc 4; G FromCalloc 5; G FromCalloc 6;
        G FromCalloc 7; G FromCalloc 8; G FromCalloc 9; G FromCalloc 10; F ByFree 2 false; F ByFree 3 false;
        F ByFree 4 false; F ByFree 5 true; F ByFree 6 true; F ByFree 7 true; F ByFree 8 true; F ByFree 9 true;
        F ByFree 10 true; F ByFree 1 true].
Proof. split; vm_compute; reflexivity. Qed.
(** A token with 67 JSON tokens in its payload: the array of tokens is block 9, of malloc. *)
Example C81_long_case :
  verdict_of (l8w8jwt_decode pe toy_num (Some (dp_of long_payload)) true true true we) = Some (0%Z, Some 0%N, Some 35%N)
  /\ filter (fun x => match x with G FromCalloc _ => false | _ => true end)
       (shapes (fst (decode_h pe toy_num (Some (dp_of long_payload)) true true true we)))
     = [G FromBuffer 1; G FromMalloc 9; F ByFree 9 true; F ByFree 2 false; F ByFree 3 false; F ByFree 4 false].
Proof. split; vm_compute; reflexivity. Qed.
(** The ordinary build meets the hypotheses of the theorems above. *)
Example C81_ordinary : forall p e ep dp, encode_build (Build false false) p ep /\ decode_build (Build false false) p e dp.
Proof. intros. split; (split; [reflexivity|discriminate]). Qed.

Lemma success_of {A} (m : res A) (rc : A -> Z) :
  match m with Ret r _ => Some (rc r) | Undef _ => None end = Some L8W8JWT_SUCCESS -> exists r w', m = Ret r w' /\ rc r = L8W8JWT_SUCCESS.
Proof. destruct m as [r w'|u]; [|discriminate]. intros E. exists r, w'. split; [reflexivity|congruence]. Qed.

(** The property does not hold of builds with the documented replacements: malloc replaced (encoding),
    calloc replaced (decoding), malloc replaced and a long token (decoding). *)
Theorem C81_refuted :
  (exists p e ep w r w', wf w /\ l8w8jwt_encode p e (Some ep) w = Ret r w' /\ er_rc r = L8W8JWT_SUCCESS
     /\ ~ matched (Build true false) (fst (encode_h p e (Some ep) w)))
  /\ (exists p e dp w r w', wf w /\ l8w8jwt_decode p e (Some dp) true true true w = Ret r w' /\ dr_rc r = L8W8JWT_SUCCESS
     /\ ~ matched (Build false true) (fst (decode_h p e (Some dp) true true true w)))
  /\ (exists p e dp w r w', wf w /\ l8w8jwt_decode p e (Some dp) true true true w = Ret r w' /\ dr_rc r = L8W8JWT_SUCCESS
     /\ ~ matched (Build true false) (fst (decode_h p e (Some dp) true true true w))).
Proof.
  split; [|split].
  - assert (X : match l8w8jwt_encode pe toy (Some ep_sample) we with Ret r _ => Some (er_rc r) | Undef _ => None end = Some 0%Z)
      by (vm_compute; reflexivity).
    apply success_of in X as (r & w' & E & Er). exists pe, toy, ep_sample, we, r, w'. split; [exact we_wf|]. split; [exact E|]. split; [exact Er|].
    eapply C81_encode_unmatched; eauto using we_wf. intros [C _]. discriminate.
  - assert (X : match l8w8jwt_decode pe toy (Some (dp_of "{""a"":""b""}")) true true true we with Ret r _ => Some (dr_rc r) | Undef _ => None end = Some 0%Z)
      by (vm_compute; reflexivity).
    apply success_of in X as (r & w' & E & Er). eexists pe, toy, _, we, r, w'. split; [exact we_wf|]. split; [exact E|]. split; [exact Er|].
    eapply C81_decode_unmatched; eauto using we_wf. intros [C _]. discriminate.
  - assert (X : match l8w8jwt_decode pe toy_num (Some (dp_of long_payload)) true true true we with Ret r _ => Some (dr_rc r) | Undef _ => None end = Some 0%Z)
      by (vm_compute; reflexivity).
    apply success_of in X as (r & w' & E & Er). eexists pe, toy_num, _, we, r, w'. split; [exact we_wf|]. split; [exact E|]. split; [exact Er|].
    intros M. assert (Y : existsb (fun x => match x with G FromMalloc 9 => true | _ => false end)
                    (shapes (fst (decode_h pe toy_num (Some (dp_of long_payload)) true true true we))) = true
                /\ existsb (fun x => match x with F ByFree 9 _ => true | _ => false end)
                    (shapes (fst (decode_h pe toy_num (Some (dp_of long_payload)) true true true we))) = true)
      by (split; vm_compute; reflexivity).
    destruct Y as [Y1 Y2]. set (tr := fst _) in *. clearbody tr. unfold shapes in *. rewrite existsb_exists in Y1, Y2.
    destruct Y1 as (x & X1 & X2). apply in_map_iff in X1 as (ev & <- & I1). unfold life in I1. apply filter_In in I1 as [I1 Z1].
    destruct Y2 as (y & Y1 & Y2). apply in_map_iff in Y1 as (ev' & <- & I2). unfold life in I2. apply filter_In in I2 as [I2 Z2].
    clear E Er. destruct ev as [s0 id| |]; [|discriminate X2|discriminate Z1]. destruct ev' as [|h id' c|]; [discriminate Y2| |discriminate Z2].
    assert (s0 = FromMalloc /\ id = 9%nat) as [-> ->].
    { destruct s0; try discriminate X2. do 9 (destruct id as [|id]; try discriminate X2). destruct id as [|id]; [auto|discriminate X2]. }
    assert (h = ByFree /\ id' = 9%nat) as [-> ->].
    { destruct h; try discriminate Y2. do 9 (destruct id' as [|id']; try discriminate Y2). destruct id' as [|id']; [auto|discriminate Y2]. }
    destruct (M _ _ _ I2) as (s & _ & U & Bl). rewrite <- (U _ I1) in Bl. discriminate Bl.
Qed.

(** The same texts that l8w8jwt_free_claims wipes are left in a released block: here the payload. *)
Theorem C82_refuted :
  exists p e dp w r w' id tail,
    wf w /\ l8w8jwt_decode p e (Some dp) true true true w = Ret r w' /\ dr_rc r = L8W8JWT_SUCCESS
    /\ In (Gone ByFree id (Text (lit "{""a"":""b""}" ++ tail))) (fst (decode_h p e (Some dp) true true true w)).
Proof.
  assert (X : match l8w8jwt_decode pe toy (Some (dp_of "{""a"":""b""}")) true true true we with Ret r _ => Some (dr_rc r) | Undef _ => None end = Some 0%Z)
    by (vm_compute; reflexivity).
  apply success_of in X as (r & w' & E & Er).
  assert (Y : nth 11 (life (fst (decode_h pe toy (Some (dp_of "{""a"":""b""}")) true true true we))) (Got FromMalloc 0)
              = Gone ByFree 3 (Text (lit "{""a"":""b""}" ++ repeat x00 16))) by (vm_compute; reflexivity).
  assert (L : (11 < length (life (fst (decode_h pe toy (Some (dp_of "{""a"":""b""}")) true true true we))))%nat)
    by (apply Nat.ltb_lt; vm_compute; reflexivity).
  eexists pe, toy, _, we, r, w', 3%nat, (repeat x00 16). split; [exact we_wf|]. split; [exact E|]. split; [exact Er|].
  apply (proj1 (life_gone _ _ _ _)). rewrite <- Y. apply nth_In. exact L.
Qed.

(** A small-stack encoding: block 9 is the key's copy. *)
Example C82_key_case :
  nth 17 (shapes (fst (encode_h pe_small toy (Some ep_sample) we))) (G FromMalloc 0) = F ByFree 9 true
  /\ nth 14 (shapes (fst (encode_h pe_small toy (Some ep_sample) we))) (G FromMalloc 0) = G FromCalloc 9.
Proof. split; vm_compute; reflexivity. Qed.
Print Assumptions C81_traces.
Print Assumptions C81_encode_partial.
Print Assumptions C81_encode_unmatched.
Print Assumptions C81_token_source.
Print Assumptions C81_decode_partial.
Print Assumptions C81_decode_unmatched.
Print Assumptions C81_refuted.
Print Assumptions C82_free_claims.
Print Assumptions C82_decode_partial.
Print Assumptions C82_parts_left.
Print Assumptions C82_encode_key.
Print Assumptions C82_refuted.
