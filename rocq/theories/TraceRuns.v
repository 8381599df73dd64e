(** * What the traces of the functions of Trace.v look like *)
From Verif Require Import Base BaseProofs HeapProofs Base64 Util UtilProofs Claim ClaimProofs Jsmn Env Encode Decode
  DecodeProofs CodeProofs Trace TraceProofs.
From Coq Require Import ZifyBool ZifyNat ZifyN.
Ltac Zify.zify_post_hook ::= Z.div_mod_to_equations.

(** [q] is NULL or a block obtained from [s]. *)
Definition heap (t : list hevent) (s : source) (q : ptr) : Prop :=
  match q with Ptr (Some id) _ => In (Got s id) t | Ptr None _ => False | Null => True end.
Lemma heap_owned t s q : heap t s q -> owned t s q.
Proof. destruct q as [|[id|] m]; cbn; auto. Qed.
Lemma heap_upto t t' s q : upto t t' -> heap t s q -> heap t' s q.
Proof. intros U. destruct q as [|[id|] m]; cbn; auto. Qed.
Lemma fresh_heap n f s q t : fresh_text n f s q t -> heap t s q.
Proof. intros [O F]. destruct q as [|[id|] m]; cbn in *; auto. Qed.

(** Carry what is known to the longer trace. *)
Ltac carry U :=
  repeat match type of U with upto ?t ?t' =>
    match goal with
    | K : owned t _ _ |- _ => apply (owned_upto _ _ _ _ U) in K
    | K : heap t _ _ |- _ => apply (heap_upto _ _ _ _ U) in K
    | K : In (Got _ _) t |- _ => apply U in K
    | K : In (Gone _ _ _) t |- _ => apply U in K
    end
  end.
(** One step [m] of a sequence, with the rule [r]. *)
Ltac hs r := eapply h_bind; [r|].
Ltac hl := eapply h_bind; [apply h_lift|]; let a := fresh "a" in let E := fresh "E" in intros a ? [-> E] _; cbv beta.

Lemma h_b64enc (good : way -> source -> content -> Prop) t p url q n a b :
  holds good t (base64_encode_h p url q n a b)
    (fun r t' => (forall q, b_out r = Some q -> heap t' FromMalloc q)
                 /\ (b_rc r = L8W8JWT_SUCCESS -> exists id m, b_out r = Some (Ptr (Some id) m))).
Proof.
  unfold base64_encode_h.
  destruct (_ || _ || _); [apply h_ret; split; discriminate|].
  destruct (n =? 0)%N; [apply h_ret; split; discriminate|]. cbv zeta.
  destruct (_ <? _)%N; [apply h_ret; split; discriminate|].
  hs ltac:(apply h_malloc). intros o t1 F U. apply fresh_heap in F. destruct o as [|[id|] m]; cbn in F; [| |destruct F].
  - apply h_ret. split; [|discriminate]. intros q' E. inversion E. exact I.
  - hl. hl. hl. destruct a2 as [buf k]. apply h_ret. cbn [b_out b_rc]. split; [|eauto].
    intros q' K. inversion K. exact F.
Qed.

Lemma h_b64dec (good : way -> source -> content -> Prop) t url q n a b :
  good ByFree FromCalloc Untold ->
  holds good t (base64_decode_h url q n a b) (fun r t' => forall q, b_out r = Some q -> heap t' FromCalloc q).
Proof.
  intros G. unfold base64_decode_h.
  destruct (_ || _ || _); [apply h_ret; discriminate|].
  destruct (n =? 0)%N; [apply h_ret; discriminate|].
  hl. hl. cbv zeta. hl.
  destruct (_ || _); [apply h_ret; discriminate|].
  hs ltac:(apply h_calloc). intros o t1 F U. apply fresh_heap in F.
  destruct o as [|[id|] m]; [| |destruct F].
  - apply h_ret. intros q' K. inversion K. exact I.
  - hl. destruct a3 as [c|].
    + apply h_ret. intros q' K. inversion K. exact F.
    + hs ltac:(apply (h_free_untold good _ _ FromCalloc); [apply heap_owned; exact F|exact G]). intros _ t2 _ _.
      apply h_ret. intros q' K. inversion K. exact I.
Qed.

Lemma h_encseg (good : way -> source -> content -> Prop) t p q n :
  holds good t (encode_segment_h p q n)
    (fun r t' => heap t' FromMalloc (snd (fst r))
                 /\ (fst (fst r) = L8W8JWT_SUCCESS -> exists id m, snd (fst r) = Ptr (Some id) m)).
Proof.
  unfold encode_segment_h. hs ltac:(apply h_b64enc). intros r t1 (Q1 & Q2) _.
  destruct (Z.eqb_spec (b_rc r) L8W8JWT_SUCCESS) as [E|E]; cbn [negb].
  - destruct (Q2 E) as (id & m & Eo). rewrite Eo in *. specialize (Q1 _ eq_refl).
    destruct (b_len r); [|apply h_ub]. hl. hl. apply h_ret. cbn [fst snd]. split; [exact Q1|eauto].
  - apply h_ret. cbn [fst snd]. split; [exact I|congruence].
Qed.

Lemma h_write_claims (good : way -> source -> content -> Prop) t p sb c n :
  good ByBuffer FromBuffer Untold ->
  holds good t (write_claims_h p sb c n) (fun r _ => cb_id (snd r) = cb_id sb).
Proof.
  intros G. unfold write_claims_h. destruct c as [|blk cs]; [apply h_ret; reflexivity|].
  destruct (n =? 0)%N; [apply h_ret; reflexivity|].
  hs ltac:(apply h_init). intros [eb|] t1 K _; [|apply h_ret; reflexivity]. destruct K as [K _].
  hs ltac:(apply h_write_each). intros sb' ? [-> E] _.
  hs ltac:(eapply h_free_id; [exact K|exact G]). intros _ t2 _ _. apply h_ret. exact E.
Qed.

(** A block from malloc went to libc's free. *)
Definition freed_from (s : source) (t : list hevent) : Prop :=
  exists id c, In (Got s id) t /\ In (Gone ByFree id c) t.
Lemma freed_upto s t t' : upto t t' -> freed_from s t -> freed_from s t'.
Proof. intros U (id & c & A & B). exists id, c. auto. Qed.
Notation malloc_freed := (freed_from FromMalloc).
Notation malloc_freed_upto := (freed_upto FromMalloc).

Lemma h_header_and_payload (good : way -> source -> content -> Prop) t p sb ep :
  (forall c, good ByBuffer FromBuffer c) -> (forall c, good ByFree FromMalloc c) ->
  holds good t (write_header_and_payload_h p sb ep)
    (fun r t' => cb_id (snd r) = cb_id sb /\ (fst r = L8W8JWT_SUCCESS -> malloc_freed t')).
Proof.
  intros Gb Gm. unfold write_header_and_payload_h.
  hs ltac:(apply h_init). intros [buff|] t1 K U1; [|apply h_ret; split; [reflexivity|discriminate]]. destruct K as [K _].
  destruct (header_prefix (ep_alg ep)) as [hp|].
  2:{ hs ltac:(apply h_cb_free; [exact K|apply Gb]). intros _ t2 _ _. apply h_ret. split; [reflexivity|discriminate]. }
  hs ltac:(apply h_push). intros b1 ? (-> & I1 & _) _. rewrite <- I1 in K. clear I1.
  eapply (h_bind good t1 _ _ (fun b _ => cb_id b = cb_id b1)).
  { destruct (_ <? _)%N; [|apply h_ret; reflexivity].
    hs ltac:(apply h_push). intros b2 ? (-> & I2 & _) _.
    hs ltac:(apply h_write_claims; apply Gb). intros r t2 I3 _. apply h_ret. congruence. }
  intros b2 t2 I2 U2. carry U2. rewrite <- I2 in K. clear I2.
  hs ltac:(apply h_push). intros b3 ? (-> & I3 & _) _. rewrite <- I3 in K. clear I3.
  hs ltac:(apply h_encseg). intros [[r seg] s] t3 (O & X) U3. cbn [fst snd] in O, X. carry U3.
  destruct (Z.eqb_spec r L8W8JWT_SUCCESS) as [E|E]; cbn [negb].
  2:{ hs ltac:(apply h_cb_free; [exact K|apply Gb]). intros _ t4 _ _. apply h_ret. cbn [fst snd]. split; [reflexivity|contradiction]. }
  destruct (X E) as (id & m & ->). clear X.
  hs ltac:(apply h_push). intros sb1 ? (-> & J1 & _) _. cbv zeta.
  hs ltac:(apply (h_free good _ _ FromMalloc); [exact O|intros; apply Gm]). intros u4 t4 F U4. cbv beta in F. clear u4. specialize (F _ _ eq_refl). carry U4. cbn in O.
  assert (MF : malloc_freed t4) by (exists id, (Text m); auto). clear F.
  hl. hs ltac:(apply h_push). intros b4 ? (-> & I4 & _) _. change (cb_id (cb_clear b3)) with (cb_id b3) in I4. rewrite <- I4 in K. clear I4.
  hs ltac:(apply h_write_claims; apply Gb). intros [r5 b5] t5 I5 U5. cbn [snd] in I5 |- *. carry U5. rewrite <- I5 in K. clear I5.
  apply (malloc_freed_upto _ _ U5) in MF.
  eapply (h_bind good t5 _ _ (fun b _ => cb_id b = cb_id b5)).
  { destruct (_ <? _)%N; [|apply h_ret; reflexivity].
    eapply (h_bind good t5 _ _ (fun b _ => cb_id b = cb_id b5)).
    { destruct (_ || _); [|apply h_ret; reflexivity]. eapply h_imp; [apply h_push|]. cbn. intros b t' _ (_ & I6 & _). exact I6. }
    intros b6 t6 I6 _. hs ltac:(apply h_write_claims; apply Gb). intros r6 t7 I7 _. apply h_ret. congruence. }
  intros b6 t6 I6 U6. carry U6. rewrite <- I6 in K. clear I6. apply (malloc_freed_upto _ _ U6) in MF.
  hs ltac:(apply h_push). intros b7 ? (-> & I7 & _) _. rewrite <- I7 in K. clear I7.
  hs ltac:(apply h_encseg). intros [[r8 seg8] s8] t8 (O8 & _) U8. cbn [fst snd] in O8. carry U8. apply (malloc_freed_upto _ _ U8) in MF.
  destruct (Z.eqb_spec r8 L8W8JWT_SUCCESS) as [E8|E8]; cbn [negb].
  2:{ hs ltac:(apply h_cb_free; [exact K|apply Gb]). intros _ t9 _ _. apply h_ret. cbn [fst snd]. split; [exact J1|contradiction]. }
  hs ltac:(apply h_push). intros sb2 ? (-> & J2 & _) _.
  hs ltac:(apply h_push). intros sb3 ? (-> & J3 & _) _.
  hs ltac:(apply (h_free good _ _ FromMalloc); [apply heap_owned; exact O8|intros; apply Gm]). intros _ t9 _ U9. carry U9.
  hs ltac:(apply h_cb_free; [exact K|apply Gb]). intros _ t10 _ U10.
  apply h_ret. cbn [fst snd]. split; [congruence|]. intros _. eapply malloc_freed_upto; [exact U10|]. eapply malloc_freed_upto; [exact U9|exact MF].
Qed.

Lemma h_sign_body (good : way -> source -> content -> Prop) t p e sb ep kq sq :
  holds good t (write_signature_body_h p e sb ep kq sq)
    (fun r t' => heap t' FromMalloc (snd r) /\ cb_id (snd (fst r)) = cb_id sb).
Proof.
  unfold write_signature_body_h. hl. hl. destruct (negb (e_seed_ok e)); [apply h_ret; split; [exact I|reflexivity]|].
  hl. destruct a1 as [[r sigbuf] n]. destruct (negb (r =? L8W8JWT_SUCCESS)%Z); [apply h_ret; split; [exact I|reflexivity]|].
  destruct (n =? 0)%N; [apply h_ret; split; [exact I|reflexivity]|].
  hs ltac:(apply h_encseg). intros [[r2 sig] s] t1 (O & _) _. cbn [fst snd] in O.
  destruct (negb (r2 =? L8W8JWT_SUCCESS)%Z); [apply h_ret; split; [exact I|reflexivity]|].
  hs ltac:(apply h_push). intros sb1 ? (-> & J1 & _) _.
  hs ltac:(apply h_push). intros sb2 ? (-> & J2 & _) _. apply h_ret. cbn [fst snd]. split; [exact O|congruence].
Qed.

Lemma zeros_app a b : zeros a -> zeros b -> zeros (a ++ b).
Proof. intros. apply Forall_app. auto. Qed.
Lemma zeros_skip n m : zeros m -> zeros (skipn n m).
Proof. unfold zeros. rewrite !Forall_forall. intros Z x X. apply Z. rewrite <- (firstn_skipn n m). apply in_or_app. auto. Qed.
Lemma load_key_length src n k : load_key src n = OK k -> length k = N.to_nat L8W8JWT_MAX_KEY_SIZE.
Proof.
  unfold load_key. intros E. apply ubind_inv in E as (m & _ & E). apply ubind_inv in E as (k1 & E1 & E).
  apply take_length in E1. destruct (N.leb_spec n L8W8JWT_MAX_KEY_SIZE); [|discriminate]. assert (k = k1 ++ repeat x00 (N.to_nat (L8W8JWT_MAX_KEY_SIZE - n))) as -> by congruence.
  rewrite app_length, repeat_length. lia.
Qed.
(** The copy of the key is wiped as a whole. *)
Lemma wiped_key t key k n : heap t FromCalloc key -> match key with Ptr _ m => zeros m | Null => True end ->
  (forall kb, k = OK kb -> length kb = N.to_nat n) ->
  forall id m, wiped (holding key k) n = Ptr (Some id) m -> zeros m.
Proof.
  intros Hk Fk LK id m Em. destruct key as [|[kid|] km]; [discriminate| |destruct Hk].
  destruct k as [kb|]; cbn [holding wiped] in Em; injection Em as _ <-; (apply zeros_app; [apply zeros_repeat|]).
  - rewrite skipn_all2; [constructor|]. rewrite (LK _ eq_refl). apply le_n.
  - apply zeros_skip. exact Fk.
Qed.
Lemma h_write_signature (good : way -> source -> content -> Prop) t p e sb ep :
  (forall c, good ByFree FromMalloc c) ->
  (p_small_stack p = true -> (forall m, zeros m -> good ByFree FromCalloc (Text m)) /\ good ByFree FromCalloc Untold) ->
  holds good t (write_signature_h p e sb ep)
    (fun r t' => cb_id (snd r) = cb_id sb
                 /\ (fst r = L8W8JWT_SUCCESS -> p_small_stack p = true -> freed_from FromCalloc t')).
Proof.
  intros Gm Gc. unfold write_signature_h. pose proof load_key_length as LK. set (K := L8W8JWT_MAX_KEY_SIZE) in *. clearbody K.
  destruct (p_small_stack p).
  - specialize (Gc eq_refl) as [Gz Gu].
    hs ltac:(apply h_calloc). intros sigb t1 F1 _. apply fresh_heap in F1.
    hs ltac:(apply h_calloc). intros key t2 F2 U2. pose proof (fresh_heap _ _ _ _ _ F2) as Hk. destruct F2 as [_ F2]. carry U2.
    eapply (h_bind good t2 _ _ (fun r t' => heap t' FromMalloc (snd r) /\ cb_id (snd (fst r)) = cb_id sb
              /\ (fst (fst r) = L8W8JWT_SUCCESS -> is_null key = false))).
    { destruct (is_null sigb) eqn:N1; cbn [orb]; [apply h_ret; split; [exact I|split; [reflexivity|discriminate]]|].
      destruct (is_null key); [apply h_ret; split; [exact I|split; [reflexivity|discriminate]]|].
      eapply h_imp; [apply h_sign_body|]. cbn beta. intros a t' _ [A B]. auto. }
    intros [[r sb1] sg] t3 (O & J & NN) U3. cbn [fst snd] in O, J, NN. carry U3.
    hs ltac:(apply h_zeroize). intros _ ? -> _.
    hs ltac:(apply (h_free good _ _ FromMalloc); [apply heap_owned; exact O|intros; apply Gm]). intros _ t4 _ U4. carry U4.
    set (k := load_key _ _) in *.
    hs ltac:(apply (h_free good _ _ FromCalloc)).
    { destruct key as [|[id|] m]; [exact I| |destruct Hk]. destruct k; exact Hk. }
    { intros id m Em. apply Gz. eapply wiped_key; [exact Hk| |intros kb; apply LK|exact Em]. destruct key as [|[?|] ?]; [exact I|apply F2|destruct F2]. }
    intros u5 t5 F5 U5. cbv beta in F5. carry U5.
    hs ltac:(apply (h_free_untold good _ _ FromCalloc); [apply heap_owned; exact F1|apply Gu]). intros u6 t6 _ U6.
    apply h_ret. cbn [fst snd]. split; [exact J|]. intros Er _. specialize (NN Er).
    destruct key as [|[id|] m]; [discriminate| |destruct Hk]. cbn in Hk. exists id. destruct k as [kb|]; cbn [holding wiped] in F5;
      eexists; (split; [apply U6, Hk|apply U6, (F5 _ _ eq_refl)]).
  - hs ltac:(apply h_sign_body). intros [[r sb1] sg] t3 (O & J) _. cbn [fst snd] in O, J.
    hs ltac:(apply (h_free good _ _ FromMalloc); [apply heap_owned; exact O|intros; apply Gm]). intros _ t4 _ _.
    apply h_ret. split; [exact J|discriminate].
Qed.

Lemma h_write_token (good : way -> source -> content -> Prop) t sb :
  holds good t (write_token_h sb) (fun r t' => forall q, er_out r = Some q -> heap t' FromMalloc q).
Proof.
  unfold write_token_h. hs ltac:(apply h_malloc). intros o t1 F _. apply fresh_heap in F. destruct o as [|[id|] m]; [| |destruct F].
  - apply h_ret. intros q E. inversion E. exact I.
  - hl. hl. apply h_ret. intros q K. inversion K. exact F.
Qed.

Lemma h_encode (good : way -> source -> content -> Prop) t p e ep :
  (forall c, good ByBuffer FromBuffer c) -> (forall c, good ByFree FromMalloc c) ->
  (p_small_stack p = true -> ep_alg ep <> (-1)%Z ->
   (forall m, zeros m -> good ByFree FromCalloc (Text m)) /\ good ByFree FromCalloc Untold) ->
  holds good t (encode_h p e (Some ep))
    (fun r t' => (forall q, er_out r = Some q -> heap t' FromMalloc q)
                 /\ (er_rc r = L8W8JWT_SUCCESS ->
                     malloc_freed t' /\ (p_small_stack p = true -> ep_alg ep <> (-1)%Z -> freed_from FromCalloc t'))).
Proof.
  intros Gb Gm Gc. unfold encode_h. cbv zeta.
  destruct (Z.eqb_spec (l8w8jwt_validate_encoding_params (Some ep)) L8W8JWT_SUCCESS) as [E|E]; cbn [negb].
  2:{ apply h_ret. split; [discriminate|]. cbn [er_rc]. contradiction. }
  hs ltac:(apply h_init). intros [sb|] t1 K U1; [|apply h_ret; split; discriminate]. destruct K as [K _].
  eapply (h_bind good t1 _ _ (fun r t' => cb_id (snd r) = cb_id sb /\ (forall q, er_out (fst r) = Some q -> heap t' FromMalloc q)
                 /\ (er_rc (fst r) = L8W8JWT_SUCCESS ->
                     malloc_freed t' /\ (p_small_stack p = true -> ep_alg ep <> (-1)%Z -> freed_from FromCalloc t')))).
  { unfold encode_body_h. hs ltac:(apply h_header_and_payload; assumption). intros [r sb1] t2 (J & MF) U2. cbn [fst snd] in J, MF.
    destruct (Z.eqb_spec r L8W8JWT_SUCCESS) as [Er|Er]; cbn [negb].
    2:{ apply h_ret. cbn [fst snd er_rc er_out]. split; [exact J|]. split; [discriminate|contradiction]. }
    specialize (MF Er).
    eapply (h_bind good t2 _ _ (fun r t' => cb_id (snd r) = cb_id sb
       /\ (fst r = L8W8JWT_SUCCESS -> p_small_stack p = true -> ep_alg ep <> (-1)%Z -> freed_from FromCalloc t'))).
    { destruct (Z.eqb_spec (ep_alg ep) (-1)) as [Ea|Ea]; cbn [negb]; [apply h_ret; split; [exact J|contradiction]|].
      eapply h_imp; [apply h_write_signature; [exact Gm|auto]|]. cbn. intros a t' _ [A B]. split; [congruence|auto]. }
    intros [r2 sb2] t3 (J2 & CF) U3. cbn [fst snd] in J2, CF. apply (malloc_freed_upto _ _ U3) in MF.
    destruct (Z.eqb_spec r2 L8W8JWT_SUCCESS) as [Er2|Er2]; cbn [negb].
    2:{ apply h_ret. cbn [fst snd er_rc er_out]. split; [exact J2|]. split; [discriminate|contradiction]. }
    specialize (CF Er2).
    hs ltac:(apply h_write_token). intros res t4 O U4. apply h_ret. cbn [fst snd]. split; [exact J2|]. split; [exact O|].
    intros _. split; [eapply freed_upto; eauto|]. intros X Y. eapply freed_upto; eauto. }
  intros [res sb1] t2 (J & O & MF) U2. cbn [fst snd] in *. carry U2. rewrite <- J in K.
  hs ltac:(apply h_cb_free; [exact K|apply Gb]). intros _ t3 _ U3. apply h_ret. split.
  - intros q Eq. eapply heap_upto; eauto.
  - intros Er. destruct (MF Er) as [A B]. split; [eapply freed_upto; eauto|]. intros X Y. eapply freed_upto; eauto.
Qed.

(** ** Decoding *)
(** [q] is a block of calloc (or NULL) that is zero behind its first [n] bytes. *)
Definition tidy (t : list hevent) (q : ptr) (n : N) : Prop :=
  heap t FromCalloc q /\ match q with Ptr _ m => zeros (skipn (N.to_nat n) m) | Null => True end.
Definition tidy_claim (t : list hevent) (c : claim) : Prop :=
  tidy t (c_key c) (c_key_length c) /\ tidy t (c_value c) (c_value_length c).
Lemma tidy_upto t t' q n : upto t t' -> tidy t q n -> tidy t' q n.
Proof. intros U [A B]. split; [eapply heap_upto; eauto|exact B]. Qed.
Lemma tidy_claims_upto t t' cs : upto t t' -> Forall (tidy_claim t) cs -> Forall (tidy_claim t') cs.
Proof. intros U. apply Forall_impl. intros c [A B]. split; eapply tidy_upto; eauto. Qed.

Lemma zeros_tail c x f : zeros (c_rest c) -> cur_set c x00 = OK x -> f = x -> zeros (c_rest f).
Proof.
  intros Z E ->. unfold cur_set in E. destruct (c_rest c); [discriminate|]. inversion E; subst. cbn. inversion Z; subst. constructor; auto.
Qed.
Lemma zeros_put c x c' : zeros (c_rest c) -> cur_put c x = OK c' -> zeros (c_rest c').
Proof. intros Z E. unfold cur_put in E. destruct (c_rest c); [discriminate|]. inversion E; subst. cbn. inversion Z; auto. Qed.
Lemma zeros_puts s : forall c c', zeros (c_rest c) -> cur_puts c s = OK c' -> zeros (c_rest c').
Proof.
  induction s as [|x s IH]; cbn [cur_puts]; intros c c' Z E; [inversion E; subst; exact Z|].
  apply ubind_inv in E as (c1 & E1 & E2). eapply IH; [|exact E2]. eapply zeros_put; eauto.
Qed.
Lemma zeros_unescape n : forall s c c', (length s <= n)%nat -> zeros (c_rest c) -> l8w8jwt_unescape_string c s = OK c' -> zeros (c_rest c').
Proof.
  induction n as [|n IH]; intros s c c' L Z E.
  - destruct s; [|cbn in L; lia]. cbn in E. inversion E; subst; exact Z.
  - destruct s as [|ch s]; [cbn in E; inversion E; subst; exact Z|]. cbn [length] in L. cbn [l8w8jwt_unescape_string] in E.
    assert (X : forall c1 x u, cur_put c x = OK c1 -> (length u <= n)%nat -> l8w8jwt_unescape_string c1 u = OK c' -> zeros (c_rest c')).
    { intros c1 x u E1 Lu E2. eapply IH; [exact Lu|eapply zeros_put; eauto|exact E2]. }
    destruct (Byte.eqb ch x5c).
    + destruct s as [|e s']; [eapply zeros_put; eauto|]. cbn [length] in L. destruct (unescape_char e) as [u|];
        apply ubind_inv in E as (c1 & E1 & E2); (eapply X; [exact E1| |exact E2]); cbn [length]; lia.
    + apply ubind_inv in E as (c1 & E1 & E2). eapply X; [exact E1| |exact E2]. lia.
Qed.

Lemma done_puts s : forall c c', cur_puts c s = OK c' -> length (c_done c') = (length (c_done c) + length s)%nat.
Proof.
  induction s as [|x s IH]; cbn [cur_puts]; intros c c' E; [inversion E; subst; cbn; lia|].
  apply ubind_inv in E as (c1 & E1 & E2). apply IH in E2. unfold cur_put in E1. destruct (c_rest c); [discriminate|].
  inversion E1; subst. cbn in *. lia.
Qed.
Lemma strncpy_length n : forall src r, strncpy_bytes src n = OK r -> length r = n.
Proof.
  induction n as [|n IH]; intros src r E; [destruct src; cbn in E; inversion E; reflexivity|].
  destruct src as [|c t]; cbn [strncpy_bytes] in E; [discriminate|]. destruct (is_nul c); [inversion E; cbn; rewrite repeat_length; reflexivity|].
  apply ubind_inv in E as (r1 & E1 & E2). inversion E2; subst. cbn. f_equal. eapply IH; eauto.
Qed.
Lemma skip_done c : skipn (length (c_done c)) (cur_buf c) = c_rest c.
Proof. unfold cur_buf. rewrite <- rev_length. rewrite skipn_app, skipn_all, Nat.sub_diag. reflexivity. Qed.
Lemma set_done c x c' : cur_set c x = OK c' -> c_done c' = c_done c.
Proof. unfold cur_set. destruct (c_rest c); [discriminate|]. intros E. inversion E. reflexivity. Qed.
Lemma zeros_set c c' : zeros (c_rest c) -> cur_set c x00 = OK c' -> zeros (c_rest c').
Proof. intros Z E. eapply zeros_tail; eauto. Qed.

Lemma h_unescape (good : way -> source -> content -> Prop) t p jq type key klen value vlen :
  (forall m, zeros m -> good ByFree FromCalloc (Text m)) ->
  holds good t (unescape_claim_h p jq type key klen value vlen)
    (fun r t' => match snd r with Some c => tidy_claim t' c | None => True end).
Proof.
  intros G. unfold unescape_claim_h.
  hs ltac:(apply h_calloc). intros k t1 Fk _. pose proof (fresh_heap _ _ _ _ _ Fk) as Hk. destruct Fk as [_ Fk].
  hs ltac:(apply h_calloc). intros v t2 Fv U2. pose proof (fresh_heap _ _ _ _ _ Fv) as Hv. destruct Fv as [_ Fv]. carry U2.
  assert (Out : holds good t2 (_ <-h hfree k ;; _ <-h hfree v ;; hret (L8W8JWT_OUT_OF_MEM, @None claim))
                  (fun r t' => match snd r with Some c => tidy_claim t' c | None => True end)).
  { hs ltac:(apply (h_free good _ _ FromCalloc); [apply heap_owned; exact Hk|]).
    { intros id m ->. apply G, Fk. }
    intros _ t3 _ U3. carry U3.
    hs ltac:(apply (h_free good _ _ FromCalloc); [apply heap_owned; exact Hv|]).
    { intros id m ->. apply G, Fv. }
    intros _ t4 _ _. apply h_ret. exact I. }
  destruct k as [|[kid|] kb]; [exact Out| |destruct Hk]. destruct v as [|[vid|] vb]; [exact Out| |destruct Hv]. clear Out.
  destruct Fk as [_ Zk]. destruct Fv as [_ Zv].
  hl. hl. hl. cbv zeta.
  assert (Tk : tidy t2 (Ptr (Some kid) (cur_buf a1)) (cur_off a1)).
  { split; [exact Hk|]. unfold cur_off. rewrite Nat2N.id, skip_done. eapply zeros_set; [|exact E1].
    eapply (zeros_unescape _ _ _ _ (le_n _)); [|exact E0]. exact Zk. }
  destruct (type =? L8W8JWT_CLAIM_TYPE_STRING)%Z.
  - hl. hl. hl. apply h_ret. split; [exact Tk|]. split; [exact Hv|]. cbn [c_value c_value_length].
    unfold cur_off. rewrite Nat2N.id, skip_done. eapply zeros_set; [|exact E4].
    eapply (zeros_unescape _ _ _ _ (le_n _)); [|exact E3]. exact Zv.
  - hl. hl. hl. apply h_ret. split; [exact Tk|]. split; [exact Hv|]. cbn [c_value c_value_length].
    apply strncpy_length in E2. pose proof (done_puts _ _ _ E3) as L. cbn in L. rewrite E2 in L.
    pose proof (set_done _ _ _ E4) as D. rewrite <- L, <- D, skip_done. eapply zeros_set; [|exact E4].
    eapply zeros_puts; [|exact E3]. exact Zv.
Qed.

(** [part] lies somewhere inside [jwt]. *)
Definition within (part jwt : bytes) : Prop := exists a b, jwt = a ++ part ++ b.
Lemma within_cut k n (jwt : bytes) : within (firstn n (skipn k jwt)) jwt.
Proof. exists (firstn k jwt), (skipn n (skipn k jwt)). rewrite firstn_skipn, firstn_skipn. reflexivity. Qed.

(** A segment is empty, or a block of calloc with what a part of the token decodes to. *)
Definition seg_known (t : list hevent) (jwt : bytes) (s : seg) : Prop :=
  heap t FromCalloc (s_ptr s) /\ (s = seg0 \/ exists part, within part jwt /\ seg_of part s).
Lemma seg_known_upto t t' jwt s : upto t t' -> seg_known t jwt s -> seg_known t' jwt s.
Proof. intros U [A B]. split; [eapply heap_upto; eauto|exact B]. Qed.
Definition segs_known (t : list hevent) (jwt : bytes) (sg : segs) : Prop :=
  seg_known t jwt (sg_header sg) /\ seg_known t jwt (sg_payload sg) /\ seg_known t jwt (sg_signature sg).
Lemma segs_known_upto t t' jwt s : upto t t' -> segs_known t jwt s -> segs_known t' jwt s.
Proof. intros U (A & B & C). repeat split; try (eapply heap_upto; [exact U|]; apply A || apply B || apply C); apply A || apply B || apply C. Qed.
Lemma seg0_known t jwt : seg_known t jwt seg0.
Proof. split; [exact I|auto]. Qed.

Lemma h_segment (good : way -> source -> content -> Prop) t b jwt cur k n :
  good ByFree FromCalloc Untold -> cur = skipn k jwt ->
  holds good t (base64_decode_h true (Ptr b cur) n true true)
    (fun r t' => seg_known t' jwt (seg_upd seg0 r)
                 /\ (b_rc r = L8W8JWT_SUCCESS -> exists part, within part jwt /\ seg_of part (seg_upd seg0 r))).
Proof.
  intros G ->. eapply h_imp; [eapply (h_run good t); [apply er_base64_decode|apply h_b64dec; exact G]|].
  cbn beta. intros r t' _ [O (w & w' & W & R)]. rewrite dec_any_block in R. apply (seg_upd_inv _ _ _ _ _ _ W) in R. cbv zeta in R.
  destruct R as (_ & _ & _ & F & S).
  assert (X : b_rc r = L8W8JWT_SUCCESS -> exists part, within part jwt /\ seg_of part (seg_upd seg0 r)).
  { intros E. eexists. split; [apply within_cut|exact (S E)]. }
  split; [|exact X]. split.
  - unfold seg_upd. cbn [s_ptr]. destruct (b_out r) as [q|] eqn:Eo; [apply O; reflexivity|exact I].
  - destruct (Z.eq_dec (b_rc r) L8W8JWT_SUCCESS) as [E|E]; [right; auto|left; auto].
Qed.

Lemma h_segments (good : way -> source -> content -> Prop) t p dp b jwt :
  good ByFree FromCalloc Untold -> dp_jwt dp = Ptr b jwt ->
  holds good t (decode_segments_h p dp)
    (fun r t' => segs_known t' jwt (snd r)
                 /\ (fst r = L8W8JWT_SUCCESS ->
                     (exists part, within part jwt /\ seg_of part (sg_header (snd r)))
                     /\ exists part, within part jwt /\ seg_of part (sg_payload (snd r)))
                 /\ (fst r = L8W8JWT_SUCCESS -> segments_ok p dp (snd r))).
Proof.
  intros G0 Ej0. cut (holds good t (decode_segments_h p dp)
    (fun r t' => segs_known t' jwt (snd r)
                 /\ (fst r = L8W8JWT_SUCCESS ->
                     (exists part, within part jwt /\ seg_of part (sg_header (snd r)))
                     /\ exists part, within part jwt /\ seg_of part (sg_payload (snd r))))).
  { intros C. eapply h_imp; [eapply (h_run good t); [apply er_decode_segments|exact C]|]. cbn beta.
    intros [rc sg] t' _ [[A B] (w & w' & W & R)]. split; [exact A|]. split; [exact B|].
    exact (proj2 (proj2 (decode_segments_inv _ _ _ _ _ _ W R))). }
  revert G0 Ej0.
  intros G Ej. unfold decode_segments_h. cbv zeta. rewrite Ej. hl. cbn in E. inversion E; subst a. clear E. hl. rename a into next.
  destruct next as [n1|]; [|apply h_ret; split; [repeat split; auto using seg0_known|discriminate]].
  assert (K0 : seg_known t jwt seg0) by apply seg0_known.
  hs ltac:(apply (h_segment good t b jwt jwt 0); [exact G|reflexivity]). intros r t1 (K1 & S1) U1.
  apply (seg_known_upto _ _ _ _ U1) in K0. set (h := seg_upd seg0 r) in *.
  destruct (Z.eqb_spec (b_rc r) L8W8JWT_SUCCESS) as [E1|E1]; cbn [negb].
  2:{ apply h_ret. cbn [fst snd]. split; [split; [|split]; assumption|]. unfold b64_err. destruct (Z.eqb_spec (b_rc r) L8W8JWT_OUT_OF_MEM) as [->|]; discriminate. }
  specialize (S1 E1). hl. rename a into next2.
  destruct (_ && _); [apply h_ret; split; [split; [|split]; assumption|discriminate]|].
  hs ltac:(apply (h_segment good t1 b jwt _ (S n1)); [exact G|reflexivity]). intros r2 t2 (K2 & S2) U2.
  apply (seg_known_upto _ _ _ _ U2) in K0. apply (seg_known_upto _ _ _ _ U2) in K1. set (pl := seg_upd seg0 r2) in *.
  destruct (Z.eqb_spec (b_rc r2) L8W8JWT_SUCCESS) as [E2|E2]; cbn [negb].
  2:{ apply h_ret. cbn [fst snd]. split; [split; [|split]; assumption|]. unfold b64_err. destruct (Z.eqb_spec (b_rc r2) L8W8JWT_OUT_OF_MEM) as [->|]; discriminate. }
  specialize (S2 E2). destruct next2 as [n2|].
  - hs ltac:(apply (h_segment good t2 b jwt _ (S n2 + S n1)); [exact G|rewrite skipn_skipn; reflexivity]). intros r3 t3 (K3 & _) U3.
    apply (seg_known_upto _ _ _ _ U3) in K1. apply (seg_known_upto _ _ _ _ U3) in K2. set (sg := seg_upd seg0 r3) in *.
    destruct (Z.eqb_spec (b_rc r3) L8W8JWT_SUCCESS) as [E3|E3]; cbn [negb]; apply h_ret; cbn [fst snd]; (split; [split; [|split]; assumption|]).
    + intros _. split; assumption.
    + unfold b64_err. destruct (Z.eqb_spec (b_rc r3) L8W8JWT_OUT_OF_MEM) as [->|]; discriminate.
  - apply h_ret. cbn [fst snd]. split; [split; [|split]; assumption|]. intros _. split; assumption.
Qed.

(** The claims collected so far. *)
Definition buffer_known (t : list hevent) (b : chillbuff claim) : Prop :=
  In (Got FromBuffer (cb_id b)) t /\ Forall (tidy_claim t) (cb_elems b).
Lemma buffer_known_upto t t' b : upto t t' -> buffer_known t b -> buffer_known t' b.
Proof. intros U [A B]. split; [auto|eapply tidy_claims_upto; eauto]. Qed.

Lemma h_claims_loop (good : way -> source -> content -> Prop) f p e jq aq js a :
  (forall m, zeros m -> good ByFree FromCalloc (Text m)) ->
  forall t r i b, buffer_known t b ->
  holds good t (claims_loop_h f p e jq aq js a r i b) (fun x t' => buffer_known t' (snd x)).
Proof.
  intros G. induction f as [|f IH]; intros t r i b K; cbn [claims_loop_h]; [apply h_ub|].
  destruct (negb (i <? r)%Z); [apply h_ret; exact K|]. hl. hl.
  destruct (_ || _); [apply h_ret; exact K|]. hl. destruct a2 as [[type i']|]; [|apply h_ret; exact K].
  hl. hl. hs ltac:(apply h_unescape; exact G). intros [ur oc] t1 T U. cbn [snd] in T. apply (buffer_known_upto _ _ _ U) in K.
  destruct oc as [c|]; [|apply h_ret; exact K].
  hs ltac:(apply h_push). intros b' ? (-> & I1 & X) _. apply IH. destruct K as [K1 K2]. split; [rewrite I1; exact K1|].
  destruct X as [-> | ->]; [exact K2|]. apply Forall_app. split; [exact K2|]. constructor; [exact T|constructor].
Qed.

Definition tokens_in (e : env) (mem : bytes) (n : N) : Z := fst (e_jsmn e (firstn (N.to_nat n) mem) None).
Lemma h_parse_claims (good : way -> source -> content -> Prop) t p e b blk mem n :
  (forall m, zeros m -> good ByFree FromCalloc (Text m)) ->
  ((64 < tokens_in e mem n)%Z -> good ByFree FromMalloc Tokens) ->
  buffer_known t b ->
  holds good t (parse_claims_h p e b (Ptr blk mem) n)
    (fun x t' => buffer_known t' (snd x)
                 /\ (fst x = L8W8JWT_SUCCESS -> (64 < tokens_in e mem n)%Z -> freed_from FromMalloc t')).
Proof.
  intros G Gk K. unfold parse_claims_h. hl. cbn in E. inversion E; subst a. clear E. hl. rename a into js.
  apply take_inv in E as [_ ->]. destruct (_ <? _)%Z; [apply h_ub|]. cbv zeta. fold (tokens_in e mem n).
  set (r := tokens_in e mem n) in *.
  destruct (Z.eqb_spec r 0) as [E0|E0]; [apply h_ret; split; [exact K|intros _ X; exfalso; lia]|].
  destruct (r <? 0)%Z; [apply h_ret; split; [exact K|discriminate]|].
  eapply (h_bind good t _ _ (fun o t' => match o with Some (Some id) => In (Got FromMalloc id) t' /\ (64 < r)%Z | Some None => (r <= 64)%Z | _ => True end)).
  { destruct (Z.leb_spec r 64) as [L|L]; [apply h_ret; exact L|].
    hs ltac:(apply h_tokens). intros [id|] t1 O _; apply h_ret; cbn; auto. }
  intros [ob|] t1 O U1; [|apply h_ret; split; [eapply buffer_known_upto; eauto|discriminate]]. apply (buffer_known_upto _ _ _ U1) in K.
  destruct (e_jsmn e (firstn (N.to_nat n) mem) (Some r)) as [r2 toks]. destruct (r2 <? 0)%Z; [apply h_ret; split; [exact K|discriminate]|].
  hl. eapply (h_bind good t1 _ _ (fun x t' => buffer_known t' (snd x))).
  { destruct (negb _); [apply h_ret; exact K|apply h_claims_loop; assumption]. }
  intros [rc b'] t2 K2 U2. cbn [snd] in K2.
  eapply (h_bind good t2 _ _ (fun _ t' => (64 < r)%Z -> freed_from FromMalloc t')).
  { destruct ob as [id|]; [|apply h_ret; intros; exfalso; lia]. destruct O as [O L]. apply U2 in O.
    eapply h_imp; [apply (h_release good t2 id _ ByFree FromMalloc Tokens); [|exact O|auto]|].
    - intros w u w' X. apply free_id_inv in X as [_ ->]. reflexivity.
    - cbn beta. intros u t' U X _. exists id, Tokens. auto. }
  intros u t3 F U3. apply h_ret. cbn [fst snd]. split; [eapply buffer_known_upto; eauto|auto].
Qed.

Lemma wiped_zeros b m n : zeros (skipn (N.to_nat n) m) -> exists m', wiped (Ptr b m) n = Ptr b m' /\ zeros m'.
Proof. intros Z. eexists. split; [reflexivity|]. apply zeros_app; [apply zeros_repeat|exact Z]. Qed.

Lemma h_verify (good : way -> source -> content -> Prop) t p e dp res q n :
  (forall m, zeros m -> good ByFree FromCalloc (Text m)) ->
  holds good t (verify_signature_h p e dp res q n) (fun _ _ => True).
Proof.
  intros G. unfold verify_signature_h. pose proof load_key_length as LK. set (K := L8W8JWT_MAX_KEY_SIZE) in *. clearbody K. destruct (_ || _ || _); [apply h_ret; exact I|]. cbv zeta.
  destruct (p_small_stack p).
  2:{ hl. hl. apply h_ret. exact I. }
  hs ltac:(apply h_calloc). intros key t1 Fk _. pose proof (fresh_heap _ _ _ _ _ Fk) as Hk. destruct Fk as [_ Fk].
  eapply (h_bind good t1 _ _ (fun _ _ => True)).
  { destruct (is_null key); [apply h_ret; exact I|]. hl. eapply h_imp; [apply h_lift|auto]. }
  intros v t2 _ U2. carry U2. hs ltac:(apply h_zeroize). intros u t3 -> _.
  set (k := load_key _ _).
  hs ltac:(apply (h_free good _ _ FromCalloc)).
  - destruct key as [|[id|] m]; [exact I| |destruct Hk]. destruct k; exact Hk.
  - intros id m Em. apply G. eapply wiped_key; [exact Hk| |intros kb; apply LK|exact Em]. destruct key as [|[?|] ?]; [exact I|apply Fk|destruct Fk].
  - intros ? ? _ _. apply h_ret. exact I.
Qed.

(** Releasing claims. *)
Lemma h_free_tidy (good : way -> source -> content -> Prop) t q n :
  (forall m, zeros m -> good ByFree FromCalloc (Text m)) -> tidy t q n ->
  holds good t (hfree (wiped q n)) (fun _ _ => True).
Proof.
  intros G [Hh Z]. eapply h_imp; [apply (h_free good _ _ FromCalloc)|auto].
  - destruct q as [|[id|] m]; [exact I|exact Hh|destruct Hh].
  - intros id m Em. destruct q as [|b m0]; [discriminate|]. destruct (wiped_zeros b m0 n Z) as (m' & E & Z').
    rewrite E in Em. inversion Em; subst. auto.
Qed.
Lemma h_free_each (good : way -> source -> content -> Prop) arr cs :
  (forall m, zeros m -> good ByFree FromCalloc (Text m)) ->
  forall t n, Forall (tidy_claim t) cs ->
  holds good t (free_each_h arr cs n) (fun _ _ => (n <= N.of_nat (length cs))%N).
Proof.
  intros G. induction cs as [|c cs IH]; intros t n F; cbn [free_each_h]; destruct (N.eqb_spec n 0) as [->|Hn].
  1,3: apply h_ret; cbn; lia. 1: apply h_ub.
  pose proof (Forall_inv F) as [Ck Cv]. pose proof (Forall_inv_tail F) as F'.
  hs ltac:(apply h_zeroize). intros u1 t1 -> _. hs ltac:(apply h_zeroize). intros u2 t2 -> _.
  hs ltac:(apply h_free_tidy; [exact G|exact Ck]). intros u3 t3 _ U3. apply (tidy_upto _ _ _ _ U3) in Cv. apply (tidy_claims_upto _ _ _ U3) in F'.
  hs ltac:(apply h_free_tidy; [exact G|exact Cv]). intros u4 t4 _ U4. apply (tidy_claims_upto _ _ _ U4) in F'.
  eapply h_imp; [apply IH; exact F'|]. cbn beta. intros _ t5 _ L. cbn [length]. lia.
Qed.
Lemma h_free_claims (good : way -> source -> content -> Prop) t id cs n :
  (forall m, zeros m -> good ByFree FromCalloc (Text m)) ->
  (forall cs, Forall (eq claim0) cs -> good ByFree FromBuffer (Records cs)) ->
  In (Got FromBuffer id) t -> Forall (tidy_claim t) cs -> n = N.of_nat (length cs) ->
  holds good t (free_claims_h (CArr (Some id) cs) n) (fun _ _ => True).
Proof.
  intros G Ga I F ->. unfold free_claims_h. hs ltac:(apply h_free_each; [exact G|exact F]).
  intros u t1 _ U. apply U in I. eapply h_free_id; [exact I|]. apply Ga. rewrite Nat2N.id, skipn_all, app_nil_r.
  apply Forall_forall. intros x Hx. apply repeat_spec in Hx. auto.
Qed.
Lemma h_free_buffer (good : way -> source -> content -> Prop) t p o :
  (forall m, zeros m -> good ByFree FromCalloc (Text m)) ->
  (forall cs, Forall (eq claim0) cs -> good ByFree FromBuffer (Records cs)) ->
  match o with Some b => buffer_known t b | None => True end ->
  holds good t (free_claims_buffer_h p o) (fun _ _ => True).
Proof.
  intros G Ga K. destruct o as [b|]; cbn [free_claims_buffer_h].
  - destruct K as [K1 K2]. apply h_free_claims; auto.
  - destruct (p_cb_init_clears p); [apply h_ret; exact I|apply h_ub].
Qed.

(** A part of the token has more than 64 JSON tokens: more than the array on the stack holds. *)
Definition long_part (e : env) (s : seg) : Prop :=
  exists b m, s_ptr s = Ptr b m /\ (64 < tokens_in e m (s_len s))%Z.
Definition long_token (e : env) (sg : segs) : Prop := long_part e (sg_header sg) \/ long_part e (sg_payload sg).

Section Decoding.
Variable good : way -> source -> content -> Prop.
Hypothesis G : forall m, zeros m -> good ByFree FromCalloc (Text m).
Hypothesis Ga : forall cs, Forall (eq claim0) cs -> good ByFree FromBuffer (Records cs).
Hypothesis Gu : good ByFree FromCalloc Untold.

Lemma h_decode_body t p e dp b0 jwt b :
  ((exists sg, segments_ok p dp sg /\ long_token e sg) -> good ByFree FromMalloc Tokens) ->
  dp_jwt dp = Ptr b0 jwt -> buffer_known t b ->
  holds good t (decode_body_h p e dp b)
    (fun st t' => segs_known t' jwt (ds_segs st) /\ buffer_known t' (ds_claims st)
                  /\ (ds_rc st = L8W8JWT_SUCCESS ->
                      segments_ok p dp (ds_segs st) /\ (long_token e (ds_segs st) -> freed_from FromMalloc t'))).
Proof.
  intros Gk Ej K. unfold decode_body_h. hs ltac:(apply (h_segments good t p dp b0 jwt); assumption).
  intros [r sg] t1 (S1 & S2 & So) U1. cbn [fst snd] in *. apply (buffer_known_upto _ _ _ U1) in K.
  destruct (Z.eqb_spec r L8W8JWT_SUCCESS) as [->|Hr]; cbn [negb].
  2:{ apply h_ret. cbn. split; [exact S1|]. split; [exact K|]. intros X. contradiction. }
  specialize (S2 eq_refl) as [Sh Sp]. specialize (So eq_refl).
  hs ltac:(apply h_verify; exact G). intros [r2 res] t2 _ U2. apply (buffer_known_upto _ _ _ U2) in K. apply (segs_known_upto _ _ _ _ U2) in S1.
  destruct (negb (r2 =? L8W8JWT_SUCCESS)%Z) eqn:E2.
  { apply h_ret. cbn. split; [exact S1|]. split; [exact K|]. intros ->. discriminate. }
  assert (P : forall t s b, (exists part, within part jwt /\ seg_of part s) -> buffer_known t b ->
     (long_part e s -> long_token e sg) ->
     holds good t (parse_claims_h p e b (s_ptr s) (s_len s))
       (fun x t' => buffer_known t' (snd x) /\ (fst x = L8W8JWT_SUCCESS -> long_part e s -> freed_from FromMalloc t'))).
  { intros t' s b' (part & Wp & Hs) K' HL. destruct Hs as (id & o & tail & D & ->). cbn [s_ptr s_len].
    eapply h_imp; [apply h_parse_claims; [exact G| |exact K']|].
    - intros L. apply Gk. exists sg. split; [exact So|]. apply HL. exists (Some id), (o ++ tail). auto.
    - cbn beta. intros x t2' _ [A B]. split; [exact A|]. intros Ex (b1 & m1 & Em & L). cbn in Em, L. inversion Em; subst. auto. }
  hs ltac:(apply (P t2 (sg_header sg)); [exact Sh|exact K|left; assumption]). intros [r3 b3] t3 [K3 F3] U3. cbn [fst snd] in K3, F3. apply (segs_known_upto _ _ _ _ U3) in S1.
  destruct (Z.eqb_spec r3 L8W8JWT_SUCCESS) as [E3|E3]; cbn [negb]; [|apply h_ret; cbn; split; [exact S1|]; split; [exact K3|]; discriminate].
  hs ltac:(apply (P t3 (sg_payload sg)); [exact Sp|exact K3|right; assumption]). intros [r4 b4] t4 [K4 F4] U4. cbn [fst snd] in K4, F4. apply (segs_known_upto _ _ _ _ U4) in S1.
  destruct (Z.eqb_spec r4 L8W8JWT_SUCCESS) as [E4|E4]; cbn [negb]; [|apply h_ret; cbn; split; [exact S1|]; split; [exact K4|]; discriminate].
  hl. apply h_ret. cbn. split; [exact S1|]. split; [exact K4|]. intros _. split; [exact So|]. intros [L|L]; [|auto].
  eapply freed_upto; [exact U4|auto].
Qed.

Variable jwt : bytes.
Hypothesis Gs : forall part o tail, within part jwt -> b64_decodes part o tail -> good ByFree FromCalloc (Text (o ++ tail)).

Lemma h_free_seg t s : seg_known t jwt s ->
  holds good t (hfree (s_ptr s)) (fun _ t' => forall id m, s_ptr s = Ptr (Some id) m -> In (Gone ByFree id (Text m)) t').
Proof.
  intros [Hh K]. apply (h_free good _ _ FromCalloc); [apply heap_owned; exact Hh|]. intros id m E. destruct K as [->|(part & Wp & id' & o & tail & D & ->)]; [discriminate|].
  cbn [s_ptr] in E. inversion E; subst. eapply Gs; eauto.
Qed.
Lemma h_give t nn s : seg_known t jwt s ->
  holds good t (give_or_free_h nn s) (fun o t' => match o with Some s' => nn = true /\ s' = s | None => nn = false end).
Proof.
  intros K. unfold give_or_free_h. destruct nn; [apply h_ret; auto|].
  hs ltac:(apply h_free_seg; exact K). intros u t' _ _. apply h_ret. reflexivity.
Qed.

(** What a decoding gives and releases. *)
Definition claims_known (t : list hevent) (o : option (cptr * N)) : Prop :=
  match o with
  | Some (CArr (Some id) cs, n) => In (Got FromBuffer id) t /\ Forall (tidy_claim t) cs /\ n = N.of_nat (length cs)
  | Some _ => False
  | None => True
  end.
(** A segment has been released as it was decoded. *)
Definition seg_freed (t : list hevent) (s : seg) : Prop :=
  forall id m, s_ptr s = Ptr (Some id) m -> In (Got FromCalloc id) t /\ In (Gone ByFree id (Text m)) t.
Lemma seg_freed_upto t t' s : upto t t' -> seg_freed t s -> seg_freed t' s.
Proof. intros U F id m E. destruct (F id m E). auto. Qed.
Lemma h_free_seg' t s : seg_known t jwt s -> holds good t (hfree (s_ptr s)) (fun _ t' => seg_freed t' s).
Proof.
  intros K. eapply h_imp; [apply h_free_seg; exact K|]. cbn beta. intros _ t' U F id m E. split; [|apply F; exact E].
  destruct K as [K _]. rewrite E in K. cbn in K. auto.
Qed.

Lemma h_decode t p e dp b0 vr_nn claims_nn len_nn :
  ((exists sg, segments_ok p dp sg /\ long_token e sg) -> good ByFree FromMalloc Tokens) ->
  dp_jwt dp = Ptr b0 jwt ->
  holds good t (decode_h p e (Some dp) vr_nn claims_nn len_nn)
    (fun r t' => claims_known t' (dr_claims r)
                 /\ (dr_rc r = L8W8JWT_SUCCESS ->
                     exists sg, segments_ok p dp sg /\ (long_token e sg -> freed_from FromMalloc t') /\ seg_freed t' (sg_header sg) /\ seg_freed t' (sg_payload sg)
                                /\ seg_freed t' (sg_signature sg))).
Proof.
  intros Gk Ej. unfold decode_h.
  destruct (claims_nn && negb len_nn); [apply h_ret; split; [exact I|discriminate]|]. cbv zeta.
  destruct (negb (_ =? _)%Z) eqn:Ev; [apply h_ret; split; [exact I|]; cbn [dr_rc]; intros E0; rewrite E0 in Ev; discriminate|].
  destruct (negb vr_nn); [apply h_ret; split; [exact I|discriminate]|].
  hs ltac:(apply h_init). intros [b|] t1 K _.
  2:{ hs ltac:(apply (h_free_buffer good t1 p None); auto). intros u t2 _ _. apply h_ret. split; [exact I|discriminate]. }
  assert (K1 : buffer_known t1 b) by (destruct K as [A B]; split; [exact A|rewrite B; constructor]). clear K.
  hs ltac:(apply (h_decode_body t1 p e dp b0 jwt b Gk Ej K1)). intros st t2 ((Kh & Kp & Ks) & Kb & S) _.
  hs ltac:(apply h_free_seg'; exact Kh). intros u3 t3 Fh U3. cbv beta in Fh.
  apply (buffer_known_upto _ _ _ U3) in Kb. apply (seg_known_upto _ _ _ _ U3) in Kp, Ks.
  hs ltac:(apply h_free_seg'; exact Kp). intros u4 t4 Fp U4. cbv beta in Fp.
  apply (buffer_known_upto _ _ _ U4) in Kb. apply (seg_known_upto _ _ _ _ U4) in Ks. apply (seg_freed_upto _ _ _ U4) in Fh.
  hs ltac:(apply h_free_seg'; exact Ks). intros u5 t5 Fs U5. cbv beta in Fs.
  apply (buffer_known_upto _ _ _ U5) in Kb. apply (seg_freed_upto _ _ _ U5) in Fh, Fp.
  eapply (h_bind good t5 _ _ (fun _ _ => True)).
  { destruct (_ || _); [apply (h_free_buffer good t5 p (Some (ds_claims st))); auto|apply h_ret; exact I]. }
  intros u6 t6 _ U6. apply (buffer_known_upto _ _ _ U6) in Kb. apply (seg_freed_upto _ _ _ U6) in Fh, Fp, Fs. apply h_ret. cbn. split.
  - destruct (_ && _ && _); [|exact I]. cbn. destruct Kb. auto.
  - intros E. destruct (S E) as [S1 S2]. exists (ds_segs st). split; [exact S1|]. split; [|auto]. intros L.
    eapply freed_upto; [|exact (S2 L)]. intros x X. apply U6, U5, U4, U3, X.
Qed.

(** A segment as a raw decoding gives it. *)
Definition raw_known (t : list hevent) (o : option seg) : Prop :=
  match o with Some s => seg_known t jwt s | None => True end.
Lemma h_decode_raw t p e dp b0 vr_nn h_nn hl_nn p_nn pl_nn s_nn sl_nn :
  ((exists sg, segments_ok p dp sg /\ long_token e sg) -> good ByFree FromMalloc Tokens) ->
  dp_jwt dp = Ptr b0 jwt ->
  holds good t (decode_raw_h p e (Some dp) vr_nn h_nn hl_nn p_nn pl_nn s_nn sl_nn)
    (fun r t' => raw_known t' (rr_header r) /\ raw_known t' (rr_payload r) /\ raw_known t' (rr_signature r)).
Proof.
  intros Gk Ej. unfold decode_raw_h.
  destruct (_ || _ || _ || _); [apply h_ret; cbn; auto|]. cbv zeta.
  destruct (negb (_ =? _)%Z); [apply h_ret; cbn; auto|].
  hs ltac:(apply h_init). intros ob t1 K _.
  eapply (h_bind good t1 _ _ (fun x t' => segs_known t' jwt (snd (fst (fst x))) /\ match snd x with Some b => buffer_known t' b | None => True end)).
  { destruct ob as [b|]; [|apply h_ret; cbn; repeat split; auto using seg0_known].
    assert (K1 : buffer_known t1 b) by (destruct K as [A B]; split; [exact A|rewrite B; constructor]).
    hs ltac:(apply (h_decode_body t1 p e dp b0 jwt b Gk Ej K1)). intros st t2 (A & B & _) _. apply h_ret. cbn. auto. }
  intros [[[rc sg] res] ob'] t2 [(Kh & Kp & Ks) Kb] _. cbn [fst snd] in *.
  assert (B0 : forall t', upto t2 t' -> match ob' with Some b => buffer_known t' b | None => True end).
  { intros t' U. destruct ob'; [eapply buffer_known_upto; eauto|exact I]. }
  hs ltac:(apply h_give; exact Kh). intros h t3 Hh U3. hs ltac:(apply h_give; eapply seg_known_upto; [exact U3|exact Kp]). intros pl t4 Hp U4.
  hs ltac:(apply h_give; eapply seg_known_upto; [exact U4|eapply seg_known_upto; [exact U3|exact Ks]]). intros s t5 Hs U5.
  assert (U : upto t2 t5) by (intros x X; apply U5, U4, U3, X).
  hs ltac:(apply h_free_buffer; [exact G|exact Ga|exact (B0 _ U)]). intros u t6 _ U6. apply h_ret. cbn.
  assert (U' : upto t2 t6) by (intros x X; apply U6, U, X).
  repeat split; [destruct h; [destruct Hh as [_ ->]|]|destruct pl; [destruct Hp as [_ ->]|]|destruct s; [destruct Hs as [_ ->]|]];
    cbn; auto; eapply seg_known_upto; eauto.
Qed.
Lemma h_decode_raw_nv t p dp b0 h_nn hl_nn p_nn pl_nn s_nn sl_nn :
  dp_jwt dp = Ptr b0 jwt ->
  holds good t (decode_raw_no_validation_h p (Some dp) h_nn hl_nn p_nn pl_nn s_nn sl_nn)
    (fun r t' => raw_known t' (rr_header r) /\ raw_known t' (rr_payload r) /\ raw_known t' (rr_signature r)).
Proof.
  intros Ej. unfold decode_raw_no_validation_h.
  destruct (_ || _ || _ || _); [apply h_ret; cbn; auto|]. cbv zeta.
  destruct (negb (_ =? _)%Z); [apply h_ret; cbn; auto|].
  hs ltac:(apply (h_segments good t p dp b0 jwt); assumption). intros [r sg] t2 [(Kh & Kp & Ks) _] _. cbn [fst snd] in *.
  hs ltac:(apply h_give; exact Kh). intros h t3 Hh U3. hs ltac:(apply h_give; eapply seg_known_upto; [exact U3|exact Kp]). intros pl t4 Hp U4.
  hs ltac:(apply h_give; eapply seg_known_upto; [exact U4|eapply seg_known_upto; [exact U3|exact Ks]]). intros s t5 Hs U5.
  assert (U : upto t2 t5) by (intros x X; apply U5, U4, U3, X). apply h_ret. cbn.
  repeat split; [destruct h; [destruct Hh as [_ ->]|]|destruct pl; [destruct Hp as [_ ->]|]|destruct s; [destruct Hs as [_ ->]|]];
    cbn; auto; eapply seg_known_upto; eauto.
Qed.
End Decoding.
