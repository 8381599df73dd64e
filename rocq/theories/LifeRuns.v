(** * Memory is used only while it is held: the functions of Trace.v *)
From Verif Require Import Base BaseProofs HeapProofs Base64 Util UtilProofs Claim ClaimProofs Jsmn Env Encode Decode
  DecodeProofs CodeProofs Trace TraceProofs SpecLife LifeProofs.
From Coq Require Import ZifyBool ZifyNat ZifyN Permutation.
Ltac Zify.zify_post_hook ::= Z.div_mod_to_equations.
Local Opaque L8W8JWT_MAX_KEY_SIZE SIGBUF.

(** The blocks of the caller that a call gets. *)
Definition claims_at (c : cptr) : list nat :=
  match c with CNull => [] | CArr blk cs => opt_at blk ++ texts_at cs end.
Definition given (ep : enc_params) : list nat :=
  at_ (ep_iss ep) ++ at_ (ep_sub ep) ++ at_ (ep_aud ep) ++ at_ (ep_jti ep)
  ++ claims_at (ep_header_claims ep) ++ claims_at (ep_payload_claims ep)
  ++ at_ (ep_secret_key ep) ++ at_ (ep_secret_key_pw ep).
Definition given_dec (dp : dec_params) : list nat :=
  at_ (dp_jwt dp) ++ at_ (dp_verification_key dp) ++ at_ (dp_validate_iss dp) ++ at_ (dp_validate_sub dp)
  ++ at_ (dp_validate_aud dp) ++ at_ (dp_validate_jti dp) ++ at_ (dp_validate_typ dp).
Definition out_at (o : option ptr) : list nat := match o with Some q => at_ q | None => [] end.

Ltac ks r := eapply k_bind; [r|].
Lemma incl_l {A} (a b c : list A) : incl (a ++ b) c -> incl a c /\ incl b c.
Proof. intros H. split; intros x X; apply H, in_or_app; auto. Qed.
(** [incl us (F ++ L)]: the blocks are among the known ones. *)
Ltac inc := unfold cb_at; intros ?i ?Hi; rewrite ?in_app_iff in *; cbn [at_ blk_of opt_at In app] in *; intuition (subst; auto).
Ltac kl t := eapply k_bind; [apply k_lift; t|]; let a := fresh "a" in let E := fresh "E" in intros a ? [-> E]; cbv beta.

Section Encoding.
Variable F : list nat.
Local Notation keeps := (keeps F).

Lemma k_b64enc L p url q n x y : incl (at_ q) (F ++ L) ->
  keeps L (base64_encode_h p url q n x y)
    (fun r L' => (b_rc r = L8W8JWT_SUCCESS -> exists id m, b_out r = Some (Ptr (Some id) m)) /\ L' = out_at (b_out r) ++ L).
Proof.
  intros Hq. assert (R : forall rc L0, rc <> L8W8JWT_SUCCESS -> L0 = L ->
    keeps L0 (hret (B64 rc None None)) (fun r L' => (b_rc r = L8W8JWT_SUCCESS -> exists id m, b_out r = Some (Ptr (Some id) m)) /\ L' = out_at (b_out r) ++ L)).
  { intros rc L0 N ->. eapply k_ret; [apply Permutation_refl|]. cbn. split; [contradiction|reflexivity]. }
  unfold base64_encode_h.
  destruct (_ || _ || _); [apply R; [discriminate|reflexivity]|].
  destruct (n =? 0)%N; [apply R; [discriminate|reflexivity]|]. cbv zeta.
  destruct (_ <? _)%N; [apply R; [discriminate|reflexivity]|].
  ks ltac:(apply k_malloc). intros o L1 Fr. destruct o as [|[id|] m]; cbn in Fr; [| |destruct Fr]; subst L1.
  - eapply k_ret; [apply Permutation_refl|]. cbn. split; [discriminate|reflexivity].
  - assert (Hq' : incl (at_ q) (F ++ id :: L)) by (intros i Hi; apply Hq in Hi; rewrite in_app_iff in *; cbn; tauto).
    assert (Ho : incl [id] (F ++ id :: L)) by (intros i [<-|[]]; rewrite in_app_iff; cbn; auto).
    kl ltac:(intros i []). kl ltac:(exact Hq').
    kl ltac:(apply incl_app; [exact Hq'|exact Ho]). destruct a1 as [buf k].
    eapply k_ret; [apply Permutation_refl|]. cbn. split; [eauto|reflexivity].
Qed.

Lemma k_b64dec L url q n x y : incl (at_ q) (F ++ L) ->
  keeps L (base64_decode_h url q n x y)
    (fun r L' => L' = out_at (b_out r) ++ L /\ match b_out r with Some (Ptr None _) => False | _ => True end).
Proof.
  intros Hq. assert (R : forall rc,
    keeps L (hret (B64 rc None None)) (fun r L' => L' = out_at (b_out r) ++ L /\ match b_out r with Some (Ptr None _) => False | _ => True end)).
  { intros rc. eapply k_ret; [apply Permutation_refl|]. cbn. auto. }
  unfold base64_decode_h.
  destruct (_ || _ || _); [apply R|].
  destruct (n =? 0)%N; [apply R|].
  kl ltac:(intros i []). kl ltac:(exact Hq). cbv zeta. kl ltac:(exact Hq).
  destruct (_ || _); [apply R|].
  ks ltac:(apply k_calloc). intros o L1 Fr. destruct o as [|[id|] m]; cbn in Fr; [| |destruct Fr]; subst L1.
  - eapply k_ret; [apply Permutation_refl|]. cbn. auto.
  - kl ltac:(apply incl_app; [intros i Hi; apply Hq in Hi; rewrite in_app_iff in *; cbn; tauto|intros i [<-|[]]; rewrite in_app_iff; cbn; auto]).
    destruct a2 as [c|].
    + eapply k_ret; [apply Permutation_refl|]. cbn. auto.
    + ks ltac:(apply (k_free_untold F L (Ptr (Some id) m))). intros _ L2 ->. eapply k_ret; [apply Permutation_refl|]. cbn. auto.
Qed.

Lemma k_encseg L p q n : incl (at_ q) (F ++ L) ->
  keeps L (encode_segment_h p q n) (fun r L' => L' = at_ (snd (fst r)) ++ L).
Proof.
  intros Hq. unfold encode_segment_h. ks ltac:(apply k_b64enc; exact Hq). intros r L1 (S & ->).
  destruct (Z.eqb_spec (b_rc r) L8W8JWT_SUCCESS) as [E|E]; cbn [negb].
  - destruct (S E) as (id & m & Eo). rewrite Eo in *. cbn [out_at].
    destruct (b_len r); [|apply k_ub]. kl ltac:(intros i []). kl ltac:(inc). eapply k_ret; [apply Permutation_refl|]. reflexivity.
  - apply k_drop. eapply k_ret; [apply Permutation_refl|]. reflexivity.
Qed.

Lemma k_write_claims L p sb c n : incl (cb_at sb ++ claims_at c) (F ++ L) ->
  keeps L (write_claims_h p sb c n) (fun r L' => L' = L /\ cb_id (snd r) = cb_id sb).
Proof.
  intros Hu. unfold write_claims_h. destruct c as [|blk cs]; [eapply k_ret; [apply Permutation_refl|]; auto|].
  destruct (n =? 0)%N; [eapply k_ret; [apply Permutation_refl|]; auto|].
  ks ltac:(apply k_init). intros [eb|] L1 K; [|subst; eapply k_ret; [apply Permutation_refl|]; auto]. destruct K as [-> _].
  ks ltac:(apply k_write_each).
  { cbn [claims_at] in Hu. intros i Hi. rewrite !in_app_iff in Hi. specialize (Hu i). rewrite !in_app_iff in Hu. rewrite in_app_iff. cbn [cb_at In] in *. tauto. }
  intros sb' ? [-> E]. ks ltac:(apply k_free_id). intros _ L2 ->. eapply k_ret; [apply Permutation_refl|]. auto.
Qed.

Lemma k_header_and_payload L p sb ep : incl (given ep) F -> In (cb_id sb) (F ++ L) ->
  keeps L (write_header_and_payload_h p sb ep) (fun r L' => L' = L /\ cb_id (snd r) = cb_id sb).
Proof.
  intros Hg Hs. unfold write_header_and_payload_h.
  assert (Gh : incl (claims_at (ep_header_claims ep)) F) by (intros i Hi; apply Hg; unfold given; rewrite !in_app_iff; tauto).
  assert (Gp : incl (claims_at (ep_payload_claims ep)) F) by (intros i Hi; apply Hg; unfold given; rewrite !in_app_iff; tauto).
  assert (Gr : forall t, incl (texts_at (registered_claims ep t)) F).
  { intros t. assert (K : forall b n, at_ (key_if b n) = []) by (intros [] n; reflexivity).
    unfold registered_claims, texts_at, text_at. cbn [flat_map c_key c_value]. rewrite !K.
    repeat match goal with |- context [at_ (Ptr None ?m)] => change (at_ (Ptr None m)) with (@nil nat) end. cbn [app].
    intros i Hi. apply Hg. unfold given. rewrite !in_app_iff in *. cbn [In] in Hi. tauto. }
  assert (X : forall us (x : nat) L', incl us F -> In x L' -> incl ([x] ++ us) (F ++ L')).
  { intros us x L' U I i [<-|Hi]; rewrite in_app_iff; auto. }
  assert (Y : forall (x : nat) L', In x L' -> incl [x] (F ++ L')).
  { intros x L' I i [<-|[]]. rewrite in_app_iff; auto. }
  ks ltac:(apply k_init). intros [buff|] L1 K; [|subst; eapply k_ret; [apply Permutation_refl|]; auto]. destruct K as [-> _].
  destruct (header_prefix (ep_alg ep)) as [hp|].
  2:{ ks ltac:(apply k_cb_free). intros _ L2 ->. eapply k_ret; [apply Permutation_refl|]. auto. }
  ks ltac:(apply k_push; apply Y; cbn; auto). intros b1 ? (-> & I1 & _). rewrite <- I1. clear I1 buff.
  eapply (k_bind F _ _ _ (fun b L' => L' = cb_id b1 :: L /\ cb_id b = cb_id b1)).
  { destruct (_ <? _)%N; [|eapply k_ret; [apply Permutation_refl|]; auto].
    ks ltac:(apply k_push; apply Y; cbn; auto). intros b2 ? (-> & I2 & _).
    ks ltac:(apply k_write_claims; apply X; [exact Gh|rewrite I2; cbn; auto]). intros r L2 (-> & I3).
    eapply k_ret; [apply Permutation_refl|]. split; [reflexivity|congruence]. }
  intros b2 ? (-> & I2). rewrite <- I2. clear I2 b1.
  ks ltac:(apply k_push; apply Y; cbn; auto). intros b3 ? (-> & I3 & _). rewrite <- I3. clear I3 b2.
  ks ltac:(apply k_encseg; apply (Y (cb_id b3)); cbn; auto). intros [[r seg] s] ? ->. cbn [fst snd].
  destruct (Z.eqb_spec r L8W8JWT_SUCCESS) as [E|E]; cbn [negb].
  2:{ apply k_drop. ks ltac:(apply k_cb_free). intros _ L2 ->. eapply k_ret; [apply Permutation_refl|]. auto. }
  ks ltac:(apply k_push).
  { intros i Hi. cbn [cb_at app In] in Hi. rewrite !in_app_iff in *. cbn [In]. destruct Hi as [<-|Hi]; tauto. }
  intros sb1 ? (-> & J1 & _). cbv zeta.
  ks ltac:(apply k_free). intros _ ? ->. kl ltac:(intros i []).
  ks ltac:(apply k_push; apply Y; cbn; auto). intros b4 ? (-> & I4 & _). change (cb_id (cb_clear b3)) with (cb_id b3) in I4. rewrite <- I4. clear I4.
  ks ltac:(apply k_write_claims; apply X; [apply Gr|cbn; auto]). intros [r5 b5] ? (-> & I5). cbn [snd] in I5 |- *. rewrite <- I5. clear I5 b4.
  eapply (k_bind F _ _ _ (fun b L' => L' = cb_id b5 :: L /\ cb_id b = cb_id b5)).
  { destruct (_ <? _)%N; [|eapply k_ret; [apply Permutation_refl|]; auto].
    eapply (k_bind F _ _ _ (fun b L' => L' = cb_id b5 :: L /\ cb_id b = cb_id b5)).
    { destruct (_ || _); [|eapply k_ret; [apply Permutation_refl|]; auto]. eapply k_imp; [apply k_push; apply Y; cbn; auto|].
      cbn beta. intros b L' (-> & I6 & _). auto. }
    intros b6 ? (-> & I6). ks ltac:(apply k_write_claims; apply X; [exact Gp|rewrite I6; cbn; auto]). intros r6 ? (-> & I7).
    eapply k_ret; [apply Permutation_refl|]. split; [reflexivity|congruence]. }
  intros b6 ? (-> & I6). rewrite <- I6. clear I6 b5.
  ks ltac:(apply k_push; apply Y; cbn; auto). intros b7 ? (-> & I7 & _). rewrite <- I7. clear I7 b6.
  ks ltac:(apply k_encseg; apply (Y (cb_id b7)); cbn; auto). intros [[r8 seg8] s8] ? ->. cbn [fst snd].
  destruct (Z.eqb_spec r8 L8W8JWT_SUCCESS) as [E8|E8]; cbn [negb].
  2:{ apply k_drop. ks ltac:(apply k_cb_free). intros _ L2 ->. eapply k_ret; [apply Permutation_refl|]. auto. }
  assert (Hs' : In (cb_id sb1) (F ++ at_ seg8 ++ cb_id b7 :: L)) by (rewrite J1, !in_app_iff in *; cbn [In]; tauto).
  ks ltac:(apply k_push; intros i [<-|[]]; exact Hs'). intros sb2 ? (-> & J2 & _).
  ks ltac:(apply k_push; intros i Hi; cbn [cb_at app In] in Hi; destruct Hi as [<-|Hi]; [rewrite J2; exact Hs'|rewrite !in_app_iff; auto]).
  intros sb3 ? (-> & J3 & _).
  ks ltac:(apply k_free). intros _ ? ->. ks ltac:(apply k_cb_free). intros _ ? ->.
  eapply k_ret; [apply Permutation_refl|]. cbn [snd]. split; [reflexivity|congruence].
Qed.

Lemma k_sign_body L p e sb ep kq sq : incl (given ep) F -> incl (cb_at sb ++ at_ kq ++ at_ sq) (F ++ L) ->
  keeps L (write_signature_body_h p e sb ep kq sq)
    (fun r L' => L' = at_ (snd r) ++ L /\ cb_id (snd (fst r)) = cb_id sb).
Proof.
  intros Hg Hu.
  assert (Gk : incl (at_ (ep_secret_key ep)) (F ++ L)) by (intros i Hi; apply in_or_app; left; apply Hg; unfold given; rewrite !in_app_iff; tauto).
  assert (Gw : incl (at_ (ep_secret_key_pw ep)) (F ++ L)) by (intros i Hi; apply in_or_app; left; apply Hg; unfold given; rewrite !in_app_iff; tauto).
  apply incl_l in Hu as [Us Hu]. apply incl_l in Hu as [Uk Uq].
  assert (R : forall r : Z, keeps L (hret (r, sb, Null)) (fun (r : Z * chillbuff byte * ptr) L' => L' = at_ (snd r) ++ L /\ cb_id (snd (fst r)) = cb_id sb)).
  { intros r. eapply k_ret; [apply Permutation_refl|]. auto. }
  unfold write_signature_body_h. kl ltac:(apply incl_app; assumption). kl ltac:(assumption).
  destruct (negb (e_seed_ok e)); [apply R|].
  kl ltac:(repeat (apply incl_app; [assumption|]); assumption). destruct a1 as [[r sigbuf] n]. destruct (negb (r =? L8W8JWT_SUCCESS)%Z); [apply R|].
  destruct (n =? 0)%N; [apply R|].
  ks ltac:(apply k_encseg; exact Uq). intros [[r2 sig] s] ? ->. cbn [fst snd].
  assert (Ex : forall us, incl us (F ++ L) -> incl us (F ++ at_ sig ++ L)) by (intros us U i Hi; apply U in Hi; rewrite !in_app_iff in *; tauto).
  destruct (negb (r2 =? L8W8JWT_SUCCESS)%Z); [apply k_drop; apply R|].
  ks ltac:(apply k_push; apply Ex; assumption). intros sb1 ? (-> & J1 & _).
  ks ltac:(apply k_push; apply incl_app; [unfold cb_at; rewrite J1; apply Ex; exact Us|intros i Hi; rewrite !in_app_iff; auto]). intros sb2 ? (-> & J2 & _).
  eapply k_ret; [apply Permutation_refl|]. cbn [fst snd]. split; [reflexivity|congruence].
Qed.

Lemma at_wiped q n : at_ (wiped q n) = at_ q.
Proof. destruct q; reflexivity. Qed.
Lemma at_holding q k : at_ (holding q k) = at_ q.
Proof. destruct q, k; reflexivity. Qed.
Lemma fresh_at L q L' : fresh L q L' -> L' = at_ q ++ L.
Proof. destruct q as [|[id|] m]; cbn; [auto|auto|intros []]. Qed.

Lemma k_write_signature L p e sb ep : incl (given ep) F -> In (cb_id sb) (F ++ L) ->
  keeps L (write_signature_h p e sb ep) (fun r L' => L' = L /\ cb_id (snd r) = cb_id sb).
Proof.
  intros Hg Hs. unfold write_signature_h. destruct (p_small_stack p).
  - ks ltac:(apply k_calloc). intros sigb L1 F1. apply fresh_at in F1 as ->.
    ks ltac:(apply k_calloc). intros key L2 F2. apply fresh_at in F2 as ->.
    eapply (k_bind F _ _ _ (fun r L' => L' = at_ (snd r) ++ at_ key ++ at_ sigb ++ L /\ cb_id (snd (fst r)) = cb_id sb)).
    { destruct (is_null sigb || is_null key); [eapply k_ret; [apply Permutation_refl|]; auto|].
      apply k_sign_body; [exact Hg|]. intros i Hi. cbn [cb_at app In] in Hi. rewrite !in_app_iff in *. destruct Hi as [<-|Hi]; tauto. }
    intros [[r sb1] sg] ? (-> & J). cbn [fst snd] in J |- *.
    ks ltac:(apply k_zeroize; intros i Hi; rewrite !in_app_iff; auto). intros _ ? ->.
    ks ltac:(apply k_free). intros _ ? ->.
    set (q := wiped _ _). assert (Eq : at_ key = at_ q) by (unfold q; rewrite at_wiped, at_holding; reflexivity).
    rewrite Eq. ks ltac:(apply k_free). intros _ ? ->. ks ltac:(apply k_free_untold). intros _ ? ->.
    eapply k_ret; [apply Permutation_refl|]. auto.
  - ks ltac:(apply k_sign_body; [exact Hg|intros i [<-|[]]; exact Hs]). intros [[r sb1] sg] ? (-> & J). cbn [fst snd] in J |- *.
    ks ltac:(apply k_free). intros _ ? ->. eapply k_ret; [apply Permutation_refl|]. auto.
Qed.

Lemma k_write_token L sb : In (cb_id sb) (F ++ L) ->
  keeps L (write_token_h sb) (fun r L' => L' = out_at (er_out r) ++ L).
Proof.
  intros Hs. unfold write_token_h. ks ltac:(apply k_malloc). intros o L1 Fr. destruct o as [|[id|] m]; cbn in Fr; [| |destruct Fr]; subst L1.
  - eapply k_ret; [apply Permutation_refl|]. reflexivity.
  - assert (Ho : incl [id] (F ++ id :: L)) by (intros i [<-|[]]; rewrite in_app_iff; cbn; auto).
    kl ltac:(apply incl_app; [exact Ho|intros i [<-|[]]; rewrite in_app_iff in *; cbn [In]; tauto]). kl ltac:(exact Ho).
    eapply k_ret; [apply Permutation_refl|]. reflexivity.
Qed.

Lemma k_encode L p e ep : incl (given ep) F ->
  keeps L (encode_h p e (Some ep)) (fun r L' => L' = out_at (er_out r) ++ L).
Proof.
  intros Hg. unfold encode_h. cbv zeta.
  destruct (negb _); [eapply k_ret; [apply Permutation_refl|]; reflexivity|].
  ks ltac:(apply k_init). intros [sb|] L1 K; [|subst; eapply k_ret; [apply Permutation_refl|]; reflexivity]. destruct K as [-> _].
  eapply (k_bind F _ _ _ (fun r L' => L' = out_at (er_out (fst r)) ++ cb_id sb :: L /\ cb_id (snd r) = cb_id sb)).
  { assert (I0 : In (cb_id sb) (F ++ cb_id sb :: L)) by (rewrite in_app_iff; cbn; auto).
    unfold encode_body_h. ks ltac:(apply k_header_and_payload; [exact Hg|exact I0]). intros [r sb1] ? (-> & J). cbn [fst snd] in J |- *.
    destruct (negb _); [eapply k_ret; [apply Permutation_refl|]; auto|].
    eapply (k_bind F _ _ _ (fun r L' => L' = cb_id sb :: L /\ cb_id (snd r) = cb_id sb)).
    { destruct (negb _); [|eapply k_ret; [apply Permutation_refl|]; auto].
      eapply k_imp; [apply k_write_signature; [exact Hg|rewrite J; exact I0]|]. cbn beta. intros a L' [-> J2]. split; [reflexivity|congruence]. }
    intros [r2 sb2] ? (-> & J2). cbn [fst snd] in J2 |- *. destruct (negb _); [eapply k_ret; [apply Permutation_refl|]; auto|].
    ks ltac:(apply k_write_token; rewrite J2; exact I0). intros res ? ->. eapply k_ret; [apply Permutation_refl|]. auto. }
  intros [res sb1] ? (-> & J). cbn [fst snd] in J |- *.
  eapply k_perm; [apply Permutation_sym, Permutation_middle|]. rewrite <- J.
  ks ltac:(apply k_cb_free). intros _ ? ->. eapply k_ret; [apply Permutation_refl|]. reflexivity.
Qed.
End Encoding.

Ltac perm := apply (Permutation_count_occ Nat.eq_dec); intros ?; rewrite ?count_occ_app; lia.

Section Decoding.
Variable F : list nat.
Local Notation keeps := (keeps F).

Lemma k_unescape L p jq type key klen value vlen : incl (at_ jq) (F ++ L) ->
  keeps L (unescape_claim_h p jq type key klen value vlen)
    (fun r L' => L' = match snd r with Some c => text_at c | None => [] end ++ L).
Proof.
  intros Hj. unfold unescape_claim_h.
  ks ltac:(apply k_calloc). intros k L1 F1. assert (Dk := F1). apply fresh_at in F1 as ->.
  ks ltac:(apply k_calloc). intros v L2 F2. assert (Dv := F2). apply fresh_at in F2 as ->.
  assert (Out : keeps (at_ v ++ at_ k ++ L) (_ <-h hfree k ;; _ <-h hfree v ;; hret (L8W8JWT_OUT_OF_MEM, @None claim))
                  (fun r L' => L' = match snd r with Some c => text_at c | None => [] end ++ L)).
  { eapply k_perm; [rewrite !app_assoc; apply Permutation_app_tail, Permutation_app_comm|]. rewrite <- app_assoc.
    ks ltac:(apply k_free). intros _ ? ->. ks ltac:(apply k_free). intros _ ? ->. eapply k_ret; [apply Permutation_refl|]. reflexivity. }
  destruct k as [|[kid|] kb]; [exact Out| |destruct Dk]. destruct v as [|[vid|] vb]; [exact Out| |destruct Dv]. clear Out.
  cbn [at_ blk_of opt_at app].
  assert (Uj : incl (at_ jq) (F ++ vid :: kid :: L)) by (intros i Hi; apply Hj in Hi; rewrite in_app_iff in *; cbn [In]; tauto).
  assert (Uk : incl [kid] (F ++ vid :: kid :: L)) by (intros i [<-|[]]; rewrite in_app_iff; cbn [In]; auto).
  assert (Uv : incl [vid] (F ++ vid :: kid :: L)) by (intros i [<-|[]]; rewrite in_app_iff; cbn [In]; auto).
  fold (at_ jq).
  kl ltac:(exact Uj). kl ltac:(apply incl_app; [exact Uj|exact Uk]). kl ltac:(exact Uk). cbv zeta.
  destruct (type =? L8W8JWT_CLAIM_TYPE_STRING)%Z.
  - kl ltac:(exact Uj). kl ltac:(apply incl_app; [exact Uj|exact Uv]). kl ltac:(exact Uv). eapply k_ret; [apply perm_swap|]. reflexivity.
  - kl ltac:(exact Uj). kl ltac:(apply incl_app; [exact Uj|exact Uv]). kl ltac:(exact Uv). eapply k_ret; [apply perm_swap|]. reflexivity.
Qed.

Lemma k_segment L b m n : incl (opt_at b) (F ++ L) ->
  keeps L (base64_decode_h true (Ptr b m) n true true) (fun r L' => L' = at_ (s_ptr (seg_upd seg0 r)) ++ L).
Proof.
  intros Hb. eapply k_imp; [apply k_b64dec; exact Hb|]. cbn beta. intros r L' [-> _]. unfold seg_upd, out_at. cbn [s_ptr].
  destruct (b_out r); reflexivity.
Qed.
Definition segs_at (sg : segs) : list nat :=
  at_ (s_ptr (sg_signature sg)) ++ at_ (s_ptr (sg_payload sg)) ++ at_ (s_ptr (sg_header sg)).

Lemma k_segments L p dp : incl (given_dec dp) F ->
  keeps L (decode_segments_h p dp) (fun r L' => L' = segs_at (snd r) ++ L).
Proof.
  intros Hg. assert (Gj : forall L', incl (at_ (dp_jwt dp)) (F ++ L')) by (intros L' i Hi; apply in_or_app; left; apply Hg; unfold given_dec; rewrite !in_app_iff; tauto).
  unfold decode_segments_h. cbv zeta. kl ltac:(intros i []). kl ltac:(apply Gj). destruct a0 as [n1|]; [|eapply k_ret; [apply Permutation_refl|]; reflexivity].
  ks ltac:(apply k_segment; apply (Gj L)). intros r ? ->. set (h := seg_upd seg0 r).
  destruct (negb _); [eapply k_ret; [apply Permutation_refl|]; reflexivity|].
  kl ltac:(apply Gj). destruct (_ && _); [eapply k_ret; [apply Permutation_refl|]; reflexivity|].
  ks ltac:(apply k_segment; apply Gj). intros r2 ? ->. set (pl := seg_upd seg0 r2).
  destruct (negb _); [eapply k_ret; [apply Permutation_refl|]; unfold segs_at; cbn; rewrite <- ?app_assoc; reflexivity|].
  destruct a0 as [n2|].
  - ks ltac:(apply k_segment; apply Gj). intros r3 ? ->. set (sg := seg_upd seg0 r3).
    destruct (negb _); (eapply k_ret; [apply Permutation_refl|]; unfold segs_at; cbn [snd sg_header sg_payload sg_signature]; rewrite <- ?app_assoc; reflexivity).
  - eapply k_ret; [apply Permutation_refl|]; unfold segs_at; cbn; rewrite <- ?app_assoc; reflexivity.
Qed.

Lemma texts_app a b : texts_at (a ++ b) = texts_at a ++ texts_at b.
Proof. apply flat_map_app. Qed.

Lemma k_claims_loop f p e jq aq js a L :
  incl (at_ jq ++ opt_at aq) (F ++ L) ->
  forall r i b, In (cb_id b) (F ++ L) ->
  keeps (texts_at (cb_elems b) ++ L) (claims_loop_h f p e jq aq js a r i b)
    (fun x L' => L' = texts_at (cb_elems (snd x)) ++ L /\ cb_id (snd x) = cb_id b).
Proof.
  intros Hu. apply incl_l in Hu as [Uj Ua].
  assert (Ex : forall us M, incl us (F ++ L) -> incl us (F ++ M ++ L)) by (intros us M U i Hi; apply U in Hi; rewrite !in_app_iff in *; tauto).
  induction f as [|f IH]; intros r i b Hb; cbn [claims_loop_h]; [apply k_ub|].
  destruct (negb (i <? r)%Z); [eapply k_ret; [apply Permutation_refl|]; auto|]. kl ltac:(apply Ex; exact Ua). kl ltac:(apply Ex; exact Ua).
  destruct (_ || _); [eapply k_ret; [apply Permutation_refl|]; auto|]. kl ltac:(apply incl_app; apply Ex; assumption).
  destruct a2 as [[type i']|]; [|eapply k_ret; [apply Permutation_refl|]; auto].
  kl ltac:(intros ? []). kl ltac:(intros ? []). ks ltac:(apply k_unescape; apply Ex; exact Uj). intros [ur oc] ? ->. cbn [snd].
  destruct oc as [c|]; [|eapply k_ret; [apply Permutation_refl|]; auto].
  ks ltac:(apply k_push). { intros j [<-|[]]. clear -Hb. rewrite !in_app_iff in *. tauto. }
  intros b' ? (-> & I1 & X). destruct X as [->|X].
  - apply k_drop. apply IH. exact Hb.
  - eapply k_perm; [|eapply k_imp; [apply (IH r (i' + 1)%Z b'); rewrite I1; exact Hb|]].
    + rewrite X, texts_app. cbn [texts_at flat_map]. rewrite app_nil_r, !app_assoc. apply Permutation_app_tail, Permutation_app_comm.
    + cbn beta. intros x L' [-> E']. split; [reflexivity|congruence].
Qed.

Lemma k_parse_claims L p e b q n : incl (cb_at b ++ at_ q) (F ++ L) ->
  keeps (texts_at (cb_elems b) ++ L) (parse_claims_h p e b q n)
    (fun x L' => L' = texts_at (cb_elems (snd x)) ++ L /\ cb_id (snd x) = cb_id b).
Proof.
  intros Hu. apply incl_l in Hu as [Ub Uq].
  assert (Ex : forall us M, incl us (F ++ L) -> incl us (F ++ M ++ L)) by (intros us M U i Hi; apply U in Hi; rewrite !in_app_iff in *; tauto).
  assert (R : forall rc : Z, keeps (texts_at (cb_elems b) ++ L) (hret (rc, b))
     (fun (x : Z * chillbuff claim) L' => L' = texts_at (cb_elems (snd x)) ++ L /\ cb_id (snd x) = cb_id b)).
  { intros rc. eapply k_ret; [apply Permutation_refl|]. auto. }
  unfold parse_claims_h. kl ltac:(intros ? []). kl ltac:(apply Ex; exact Uq). destruct (_ <? _)%Z; [apply k_ub|]. cbv zeta.
  destruct (_ =? 0)%Z; [apply R|]. destruct (_ <? 0)%Z; [apply R|]. set (r := fst _).
  eapply (k_bind F _ _ _ (fun o L' => L' = match o with Some blk => opt_at blk | None => [] end ++ texts_at (cb_elems b) ++ L)).
  { destruct (r <=? 64)%Z; [eapply k_ret; [apply Permutation_refl|]; reflexivity|].
    ks ltac:(apply k_tokens). intros [id|] ? ->; (eapply k_ret; [apply Permutation_refl|]; reflexivity). }
  intros [blk|] ? ->; [|apply R]. destruct (e_jsmn e a0 (Some r)) as [r2 toks].
  destruct (r2 <? 0)%Z; [apply k_drop; apply R|].
  assert (Ut : incl (opt_at blk) (F ++ opt_at blk ++ L)) by (intros i Hi; rewrite !in_app_iff; auto).
  kl ltac:(apply incl_app; intros i Hi; [|apply Uq in Hi]; rewrite !in_app_iff in *; tauto).
  eapply (k_bind F _ _ _ (fun x L' => L' = texts_at (cb_elems (snd x)) ++ opt_at blk ++ L /\ cb_id (snd x) = cb_id b)).
  { eapply k_perm; [rewrite !app_assoc; apply Permutation_app_tail, Permutation_app_comm|]. rewrite <- app_assoc.
    destruct (negb _); [eapply k_ret; [apply Permutation_refl|]; auto|].
    apply k_claims_loop; [apply incl_app; [apply Ex; exact Uq|exact Ut]|]. apply (Ex (cb_at b) _ Ub). cbn; auto. }
  intros [rc b'] ? (-> & I1). cbn [snd] in *.
  eapply (k_bind F _ _ _ (fun _ L' => L' = texts_at (cb_elems b') ++ L)).
  { destruct blk as [id|]; [|eapply k_ret; [apply Permutation_refl|]; reflexivity]. cbn [opt_at app].
    eapply k_perm; [apply Permutation_sym, Permutation_middle|]. apply k_free_id. }
  intros _ ? ->. eapply k_ret; [apply Permutation_refl|]. auto.
Qed.

Lemma k_verify L p e dp res q n : incl (given_dec dp) F -> incl (at_ q) (F ++ L) ->
  keeps L (verify_signature_h p e dp res q n) (fun _ L' => L' = L).
Proof.
  intros Hg Hq.
  assert (Gj : forall L', incl (at_ (dp_jwt dp)) (F ++ L')) by (intros L' i Hi; apply in_or_app; left; apply Hg; unfold given_dec; rewrite !in_app_iff; tauto).
  assert (Gk : forall L', incl (at_ (dp_verification_key dp)) (F ++ L')) by (intros L' i Hi; apply in_or_app; left; apply Hg; unfold given_dec; rewrite !in_app_iff; tauto).
  unfold verify_signature_h. destruct (_ || _ || _); [eapply k_ret; [apply Permutation_refl|]; reflexivity|]. cbv zeta.
  destruct (p_small_stack p).
  2:{ kl ltac:(intros ? []). kl ltac:(repeat (apply incl_app; [auto|]); auto). eapply k_ret; [apply Permutation_refl|]; reflexivity. }
  ks ltac:(apply k_calloc). intros key L1 Fk. apply fresh_at in Fk as ->.
  assert (Uk : incl (at_ key) (F ++ at_ key ++ L)) by (intros i Hi; rewrite !in_app_iff; auto).
  eapply (k_bind F _ _ _ (fun _ L' => L' = at_ key ++ L)).
  { destruct (is_null key); [eapply k_ret; [apply Permutation_refl|]; reflexivity|]. kl ltac:(intros ? []).
    eapply k_imp; [apply k_lift|intros ? ? [-> _]; reflexivity]. repeat (apply incl_app; [auto|]); auto.
    intros i Hi. apply Hq in Hi. rewrite !in_app_iff in *. tauto. }
  intros v ? ->. ks ltac:(apply k_zeroize; exact Uk). intros _ ? ->.
  set (k := wiped _ _). assert (Eq : at_ key = at_ k) by (unfold k; rewrite at_wiped, at_holding; reflexivity). rewrite Eq.
  ks ltac:(apply k_free). intros _ ? ->. eapply k_ret; [apply Permutation_refl|]; reflexivity.
Qed.

(** Releasing claims: the first [n] of them. *)
Lemma k_free_each arr cs : forall L n, incl arr (F ++ L) ->
  keeps (texts_at cs ++ L) (free_each_h arr cs n) (fun _ L' => L' = texts_at (skipn (N.to_nat n) cs) ++ L).
Proof.
  induction cs as [|c cs IH]; intros L n Ha; cbn [free_each_h]; destruct (N.eqb_spec n 0) as [->|Hn].
  1,3: eapply k_ret; [apply Permutation_refl|]; reflexivity. 1: apply k_ub.
  cbn [texts_at flat_map]. fold (texts_at cs). unfold text_at.
  assert (Ex : forall M, incl arr (F ++ M ++ L)) by (intros M i Hi; apply Ha in Hi; rewrite !in_app_iff in *; tauto).
  ks ltac:(apply k_zeroize; apply incl_app; [apply Ex|intros i Hi; rewrite !in_app_iff; auto]). intros _ ? ->.
  ks ltac:(apply k_zeroize; apply incl_app; [apply Ex|intros i Hi; rewrite !in_app_iff; auto]). intros _ ? ->.
  rewrite <- !app_assoc. rewrite <- (at_wiped (c_key c) (c_key_length c)). ks ltac:(apply k_free). intros _ ? ->.
  rewrite <- (at_wiped (c_value c) (c_value_length c)). ks ltac:(apply k_free). intros _ ? ->.
  eapply k_imp; [apply (IH L (n - 1)%N Ha)|]. cbn beta. intros _ L' ->. destruct (N.to_nat n) as [|k] eqn:E; [lia|].
  cbn [skipn]. replace (N.to_nat (n - 1)) with k by lia. reflexivity.
Qed.
Lemma k_free_claims L id cs n :
  keeps (texts_at cs ++ id :: L) (free_claims_h (CArr (Some id) cs) n) (fun _ L' => L' = texts_at (skipn (N.to_nat n) cs) ++ L).
Proof.
  unfold free_claims_h. ks ltac:(apply k_free_each; intros i [<-|[]]; rewrite in_app_iff; cbn; auto). intros _ ? ->.
  eapply k_perm; [apply Permutation_sym, Permutation_middle|]. apply k_free_id.
Qed.
Lemma k_free_buffer L p b :
  keeps (texts_at (cb_elems b) ++ cb_id b :: L) (free_claims_buffer_h p (Some b)) (fun _ L' => L' = L).
Proof.
  cbn [free_claims_buffer_h]. eapply k_imp; [apply k_free_claims|]. cbn beta. intros _ L' ->.
  unfold cb_len. rewrite Nat2N.id, skipn_all. reflexivity.
Qed.

Lemma k_decode_body L p e dp b : incl (given_dec dp) F -> cb_elems b = [] ->
  keeps (cb_id b :: L) (decode_body_h p e dp b)
    (fun st L' => L' = segs_at (ds_segs st) ++ texts_at (cb_elems (ds_claims st)) ++ cb_id b :: L /\ cb_id (ds_claims st) = cb_id b).
Proof.
  intros Hg Hb. unfold decode_body_h. ks ltac:(apply k_segments; exact Hg). intros [r sg] ? ->. cbn [snd].
  assert (R0 : forall (rc : Z) res, keeps (segs_at sg ++ cb_id b :: L) (hret (DecState rc sg b res))
     (fun st L' => L' = segs_at (ds_segs st) ++ texts_at (cb_elems (ds_claims st)) ++ cb_id b :: L /\ cb_id (ds_claims st) = cb_id b)).
  { intros rc res. eapply k_ret; [apply Permutation_refl|]. cbn. rewrite Hb. auto. }
  destruct (negb _); [apply R0|].
  assert (Us : forall M, incl (segs_at sg) (F ++ M ++ segs_at sg ++ cb_id b :: L)) by (intros M i Hi; rewrite !in_app_iff; auto).
  assert (Uh : forall M, incl (at_ (s_ptr (sg_header sg))) (F ++ M ++ segs_at sg ++ cb_id b :: L)) by (intros M i Hi; apply Us; unfold segs_at; rewrite !in_app_iff; auto).
  assert (Up : forall M, incl (at_ (s_ptr (sg_payload sg))) (F ++ M ++ segs_at sg ++ cb_id b :: L)) by (intros M i Hi; apply Us; unfold segs_at; rewrite !in_app_iff; auto).
  assert (Ug : forall M, incl (at_ (s_ptr (sg_signature sg))) (F ++ M ++ segs_at sg ++ cb_id b :: L)) by (intros M i Hi; apply Us; unfold segs_at; rewrite !in_app_iff; auto).
  assert (Uc : forall M, incl [cb_id b] (F ++ M ++ segs_at sg ++ cb_id b :: L)) by (intros M i [<-|[]]; rewrite !in_app_iff; cbn; auto).
  ks ltac:(apply k_verify; [exact Hg|apply (Ug [])]). intros [r2 res] ? ->.
  destruct (negb _); [apply R0|].
  replace (segs_at sg ++ cb_id b :: L) with (texts_at (cb_elems b) ++ segs_at sg ++ cb_id b :: L) by (rewrite Hb; reflexivity).
  ks ltac:(apply k_parse_claims; apply incl_app; [apply (Uc [])|apply (Uh [])]). intros [r3 b3] ? (-> & J3). cbn [snd] in *.
  assert (R : forall (rc : Z) b' res, cb_id b' = cb_id b -> keeps (texts_at (cb_elems b') ++ segs_at sg ++ cb_id b :: L) (hret (DecState rc sg b' res))
     (fun st L' => L' = segs_at (ds_segs st) ++ texts_at (cb_elems (ds_claims st)) ++ cb_id b :: L /\ cb_id (ds_claims st) = cb_id b)).
  { intros rc b' res' J. eapply k_ret; [rewrite !app_assoc; apply Permutation_app_tail, Permutation_app_comm|]. cbn. rewrite <- app_assoc. auto. }
  destruct (negb _); [apply R; exact J3|].
  ks ltac:(apply k_parse_claims; apply incl_app; [unfold cb_at; rewrite J3; apply (Uc [])|apply (Up [])]). intros [r4 b4] ? (-> & J4). cbn [snd] in *.
  destruct (negb _); [apply R; congruence|].
  ks ltac:(apply k_lift).
  { apply incl_app; [unfold cb_at; rewrite J4, J3; apply Uc|]. apply incl_app; [intros i Hi; rewrite !in_app_iff; auto|].
    intros i Hi. apply in_or_app. left. apply Hg. unfold given_dec. rewrite !in_app_iff in *. tauto. }
  intros res' ? [-> _]. apply R. congruence.
Qed.

Definition dec_at (o : option (cptr * N)) : list nat := match o with Some (c, _) => claims_at c | None => [] end.
Lemma k_decode L p e dp v c l : incl (given_dec dp) F ->
  keeps L (decode_h p e (Some dp) v c l) (fun r L' => L' = dec_at (dr_claims r) ++ L).
Proof.
  intros Hg. unfold decode_h.
  destruct (c && negb l); [eapply k_ret; [apply Permutation_refl|]; reflexivity|]. cbv zeta.
  destruct (negb (_ =? _)%Z); [eapply k_ret; [apply Permutation_refl|]; reflexivity|].
  destruct (negb v); [eapply k_ret; [apply Permutation_refl|]; reflexivity|].
  ks ltac:(apply k_init). intros [b|] ? K.
  2:{ subst. cbn [free_claims_buffer_h]. eapply (k_bind F _ _ _ (fun _ L' => L' = L)).
      { destruct (p_cb_init_clears p); [eapply k_ret; [apply Permutation_refl|]; reflexivity|apply k_ub]. }
      intros _ ? ->. eapply k_ret; [apply Permutation_refl|]; reflexivity. }
  destruct K as [-> K]. ks ltac:(apply k_decode_body; assumption). intros st ? (-> & J).
  eapply k_perm with (L' := at_ (s_ptr (sg_header (ds_segs st))) ++ at_ (s_ptr (sg_payload (ds_segs st))) ++ at_ (s_ptr (sg_signature (ds_segs st)))
     ++ texts_at (cb_elems (ds_claims st)) ++ cb_id (ds_claims st) :: L).
  { rewrite J. unfold segs_at. rewrite !app_assoc. do 2 apply Permutation_app_tail.
    rewrite <- app_assoc. eapply perm_trans; [apply Permutation_app_comm|]. apply Permutation_app_tail. apply Permutation_app_comm. }
  ks ltac:(apply k_free). intros _ ? ->. ks ltac:(apply k_free). intros _ ? ->. ks ltac:(apply k_free). intros _ ? ->.
  set (ok := (ds_rc st =? L8W8JWT_SUCCESS)%Z).
  eapply (k_bind F _ _ _ (fun _ L' => L' = (if negb c || negb ok then [] else texts_at (cb_elems (ds_claims st)) ++ [cb_id (ds_claims st)]) ++ L)).
  { destruct (_ || _); [apply k_free_buffer|]. eapply k_ret; [apply Permutation_refl|]. rewrite <- app_assoc. reflexivity. }
  intros _ ? ->. destruct ok, c; cbn [negb orb andb app].
  2,4: (eapply k_ret; [apply Permutation_refl|]; reflexivity). 2: eapply k_ret; [apply Permutation_refl|]; reflexivity.
  destruct l.
  - eapply k_ret; [|reflexivity]. cbn. rewrite <- app_assoc. apply Permutation_sym, Permutation_middle.
  - apply k_drop. eapply k_ret; [apply Permutation_refl|]; reflexivity.
Qed.

Definition part_at (o : option seg) : list nat := match o with Some s => at_ (s_ptr s) | None => [] end.
Definition raw_at (r : raw_res) : list nat := part_at (rr_header r) ++ part_at (rr_payload r) ++ part_at (rr_signature r).
Lemma k_give L nn s : keeps (at_ (s_ptr s) ++ L) (give_or_free_h nn s) (fun o L' => L' = part_at o ++ L).
Proof.
  unfold give_or_free_h. destruct nn; [eapply k_ret; [apply Permutation_refl|]; reflexivity|].
  ks ltac:(apply k_free). intros _ ? ->. eapply k_ret; [apply Permutation_refl|]; reflexivity.
Qed.
(** Handing out or releasing the three parts. *)
Lemma k_give3 {B} L h_nn p_nn s_nn sg (k : option seg -> option seg -> option seg -> H B) Q :
  (forall h p s, keeps (part_at h ++ part_at p ++ part_at s ++ L) (k h p s) Q) ->
  keeps (segs_at sg ++ L)
    (h <-h give_or_free_h h_nn (sg_header sg) ;; p <-h give_or_free_h p_nn (sg_payload sg) ;;
     s <-h give_or_free_h s_nn (sg_signature sg) ;; k h p s) Q.
Proof.
  intros Hk. unfold segs_at. set (x := at_ (s_ptr (sg_signature sg))). set (y := at_ (s_ptr (sg_payload sg))). set (z := at_ (s_ptr (sg_header sg))).
  eapply k_perm with (L' := z ++ x ++ y ++ L).
  { perm. }
  ks ltac:(apply k_give). intros h ? ->. eapply k_perm with (L' := y ++ x ++ part_at h ++ L).
  { perm. }
  ks ltac:(apply k_give). intros pl ? ->. eapply k_perm with (L' := x ++ part_at pl ++ part_at h ++ L).
  { perm. }
  ks ltac:(apply k_give). intros s ? ->. eapply k_perm; [|apply Hk].
  perm.
Qed.

Lemma k_decode_raw L p e dp v a b c d f g : incl (given_dec dp) F ->
  keeps L (decode_raw_h p e (Some dp) v a b c d f g) (fun r L' => L' = raw_at r ++ L).
Proof.
  intros Hg. unfold decode_raw_h.
  destruct (_ || _ || _ || _); [eapply k_ret; [apply Permutation_refl|]; reflexivity|]. cbv zeta.
  destruct (negb (_ =? _)%Z); [eapply k_ret; [apply Permutation_refl|]; reflexivity|].
  ks ltac:(apply k_init). intros ob L1 K.
  eapply (k_bind F _ _ _ (fun x L' => L' = segs_at (snd (fst (fst x))) ++
     match snd x with Some b => texts_at (cb_elems b) ++ [cb_id b] | None => [] end ++ L)).
  { destruct ob as [b0|]; [|subst; eapply k_ret; [apply Permutation_refl|]; reflexivity]. destruct K as [-> K].
    ks ltac:(apply k_decode_body; assumption). intros st ? (-> & J). eapply k_ret; [apply Permutation_refl|]. cbn [fst snd]. rewrite J, <- app_assoc. reflexivity. }
  intros [[[rc sg] res] ob'] ? ->. cbn [fst snd]. apply k_give3. intros h pl s.
  eapply k_bind with (R := fun _ L' => L' = part_at h ++ part_at pl ++ part_at s ++ L).
  - destruct ob' as [b0|].
    + eapply k_perm with (L' := texts_at (cb_elems b0) ++ cb_id b0 :: part_at h ++ part_at pl ++ part_at s ++ L); [|apply k_free_buffer].
      replace (texts_at (cb_elems b0) ++ cb_id b0 :: part_at h ++ part_at pl ++ part_at s ++ L)
        with ((texts_at (cb_elems b0) ++ [cb_id b0]) ++ (part_at h ++ part_at pl ++ part_at s) ++ L) by (rewrite <- !app_assoc; reflexivity).
      perm.
    + cbn [free_claims_buffer_h]. destruct (p_cb_init_clears p); [eapply k_ret; [apply Permutation_refl|]; reflexivity|apply k_ub].
  - intros _ ? ->. eapply k_ret; [apply Permutation_refl|]. unfold raw_at. cbn. rewrite <- !app_assoc. reflexivity.
Qed.
Lemma k_decode_raw_nv L p dp a b c d f g : incl (given_dec dp) F ->
  keeps L (decode_raw_no_validation_h p (Some dp) a b c d f g) (fun r L' => L' = raw_at r ++ L).
Proof.
  intros Hg. unfold decode_raw_no_validation_h.
  destruct (_ || _ || _ || _); [eapply k_ret; [apply Permutation_refl|]; reflexivity|]. cbv zeta.
  destruct (negb (_ =? _)%Z); [eapply k_ret; [apply Permutation_refl|]; reflexivity|].
  ks ltac:(apply k_segments; exact Hg). intros [r sg] ? ->. cbn [snd]. apply k_give3. intros h pl s.
  eapply k_ret; [apply Permutation_refl|]. unfold raw_at. cbn. rewrite <- !app_assoc. reflexivity.
Qed.
End Decoding.
