(** * Lemmas about claim parsing and the heap over a whole decode call *)
From Verif Require Import Base BaseProofs HeapProofs Util UtilProofs Claim Base64 SpecB64
  Base64EncApi Base64DecProofs Base64Api Jsmn Env Encode Decode SpecJson SpecJwa ClaimProofs UnescapeProofs
  SignProofs DecodeProofs DecodeInv JsmnProofs.
From Coq Require Import ZifyBool ZifyNat ZifyN Permutation.
Ltac Zify.zify_post_hook ::= Z.div_mod_to_equations.
Local Opaque L8W8JWT_MAX_KEY_SIZE.

(** ** Ownership *)
Lemma cur_put_inv c x c' : cur_put c x = OK c' -> length (cur_buf c') = length (cur_buf c)
  /\ length (c_done c') = S (length (c_done c)).
Proof.
  unfold cur_put, cur_buf. destruct c as [d [|y t]]; cbn [c_rest c_done]; [discriminate|].
  intros H. inversion H; subst. cbn [c_done c_rest rev length]. rewrite !app_length, !rev_length. cbn [length]. lia.
Qed.
Lemma cur_set_inv c x c' : cur_set c x = OK c' -> length (cur_buf c') = length (cur_buf c)
  /\ c_done c' = c_done c.
Proof.
  unfold cur_set, cur_buf. destruct c as [d [|y t]]; cbn [c_rest c_done]; [discriminate|].
  intros H. inversion H; subst. cbn [c_done c_rest length]. rewrite !app_length. cbn [length]. auto.
Qed.
Lemma cur_puts_inv s : forall c c', cur_puts c s = OK c' -> length (cur_buf c') = length (cur_buf c)
  /\ length (c_done c') = (length (c_done c) + length s)%nat.
Proof.
  induction s as [|x s IH]; intros c c' H; cbn [cur_puts] in H.
  - inversion H; subst. cbn [length]. lia.
  - apply ubind_inv in H as (c1 & H1 & H). apply cur_put_inv in H1. apply IH in H. cbn [length]. lia.
Qed.
Lemma unescape_string_inv s : forall c c', l8w8jwt_unescape_string c s = OK c' ->
  length (cur_buf c') = length (cur_buf c).
Proof.
  induction s as [s IH] using len_ind. intros c c' H. destruct s as [|x t]; cbn [l8w8jwt_unescape_string] in H.
  - inversion H; reflexivity.
  - assert (G : forall y t', (length t' < length (x :: t))%nat ->
      (c1 <-u cur_put c y ;; l8w8jwt_unescape_string c1 t') = OK c' -> length (cur_buf c') = length (cur_buf c)).
    { intros y t' Hl H'. apply ubind_inv in H' as (c1 & H1 & H'). apply cur_put_inv in H1 as [H1 _].
      apply IH in H'; [congruence|exact Hl]. }
    destruct (Byte.eqb x x5c); [|(refine (G _ _ _ H); cbn [length]; lia)].
    destruct t as [|e t']; [apply cur_put_inv in H; apply H|].
    destruct (unescape_char e); (refine (G _ _ _ H); cbn [length]; lia).
Qed.
Lemma strncpy_len n : forall src s, strncpy_bytes src n = OK s -> length s = n.
Proof.
  induction n as [|n IH]; intros src s H; destruct src as [|c t]; cbn [strncpy_bytes] in H;
    try discriminate; try (inversion H; reflexivity).
  destruct (is_nul c).
  - inversion H; subst. apply (repeat_length x00 (S n)).
  - apply ubind_inv in H as (r & H1 & H). inversion H; subst. cbn [length]. f_equal. eapply IH; eauto.
Qed.
Lemma cur_off_buf c : (cur_off c <= N.of_nat (length (cur_buf c)))%N.
Proof. unfold cur_off, cur_buf. rewrite app_length, rev_length. lia. Qed.
Lemma cur_start_buf m : cur_buf (cur_start m) = m.
Proof. reflexivity. Qed.

Lemma unescape_claim_inv p type key klen value vlen w rc oc w' :
  wf w -> l8w8jwt_unescape_claim p type key klen value vlen w = Ret (rc, oc) w' ->
  (rc = L8W8JWT_OUT_OF_MEM /\ oc = None /\ adds w w' [])
  \/ (rc = L8W8JWT_SUCCESS /\ exists c, oc = Some c /\ heap_claim c /\ c_type c = type
      /\ adds w w' (claim_blocks c)).
Proof.
  intros Hwf H. unfold l8w8jwt_unescape_claim in H.
  minvas H as k w1 H1. rewrite calloc_eq in H1. minvas H as v w2 H2. rewrite calloc_eq in H2.
  destruct (w_alloc w (w_next w)) eqn:Ea; inversion H1; subst; clear H1;
    cbn [w_ok w_no w_alloc w_next] in H2; destruct (w_alloc w (S (w_next w))) eqn:Eb; inversion H2; subst; clear H2.
  - right.
    assert (Ad : adds w (w_ok (w_ok w)) [w_next w; S (w_next w)]).
    { apply (adds_trans w (w_ok w) (w_ok (w_ok w)) [w_next w] [S (w_next w)]); [apply adds_ok|].
      apply (adds_ok (w_ok w)). }
    minvas H as ks w1 H1. apply lift_inv in H1 as [_ ->].
    minvas H as c1 w1 H1. apply lift_inv in H1 as [H1 ->].
    minvas H as c2 w1 H2. apply lift_inv in H2 as [H2 ->].
    apply unescape_string_inv in H1. apply cur_set_inv in H2 as [H2 H2'].
    rewrite cur_start_buf in H1.
    pose proof (cur_off_buf c2) as Hk.
    destruct (type =? L8W8JWT_CLAIM_TYPE_STRING)%Z.
    + minvas H as vs w1 H3. apply lift_inv in H3 as [_ ->].
      minvas H as c3 w1 H3. apply lift_inv in H3 as [H3 ->].
      minvas H as c4 w1 H4. apply lift_inv in H4 as [H4 ->]. inversion H; subst. clear H.
      split; [reflexivity|]. eexists. split; [reflexivity|]. split; [|split; [reflexivity|exact Ad]].
      exists (w_next w), (cur_buf c2), (S (w_next w)), (cur_buf c4). cbn [c_key c_value c_key_length c_value_length].
      split; [reflexivity|]. split; [reflexivity|]. split; [exact Hk|apply cur_off_buf].
    + minvas H as vs w1 H3. apply lift_inv in H3 as [H3 ->].
      minvas H as c3 w1 H4. apply lift_inv in H4 as [H4 ->].
      minvas H as c4 w1 H5. apply lift_inv in H5 as [H5 ->]. inversion H; subst. clear H.
      split; [reflexivity|]. eexists. split; [reflexivity|]. split; [|split; [reflexivity|exact Ad]].
      exists (w_next w), (cur_buf c2), (S (w_next w)), (cur_buf c4). cbn [c_key c_value c_key_length c_value_length].
      split; [reflexivity|]. split; [reflexivity|]. split; [exact Hk|].
      apply strncpy_len in H3. apply cur_puts_inv in H4 as [H4 H4']. apply cur_set_inv in H5 as [H5 H5'].
      pose proof (cur_off_buf c3) as Hv. unfold cur_off in Hv. rewrite H5. cbn [cur_start c_done length] in H4'. lia.
  - left. minvas H as u w1 H1. cbn [free] in H1. apply free_id_inv in H1 as [_ ->].
    minvas H as u2 w1 H1. cbn [free] in H1. inversion H1; subst. inversion H; subst.
    split; [reflexivity|]. split; [reflexivity|].
    apply (adds_cons_free w (w_no (w_ok w)) (w_next w) [] Hwf).
    apply (adds_trans w (w_ok w) _ [w_next w] []); [apply adds_ok|apply adds_no].
  - left. minvas H as u w1 H1. cbn [free] in H1. inversion H1; subst. clear H1.
    minvas H as u2 w1 H1. cbn [free] in H1. apply free_id_inv in H1 as [_ ->]. inversion H; subst.
    split; [reflexivity|]. split; [reflexivity|].
    apply (adds_cons_free w (w_ok (w_no w)) (S (w_next w)) [] Hwf).
    apply (adds_trans w (w_no w) _ [] [S (w_next w)]); [apply adds_no|apply (adds_ok (w_no w))].
  - left. minvas H as u w1 H1. cbn [free] in H1. inversion H1; subst. clear H1.
    minvas H as u2 w1 H1. cbn [free] in H1. inversion H1; subst. inversion H; subst.
    split; [reflexivity|]. split; [reflexivity|].
    apply (adds_trans w (w_no w) _ [] []); apply adds_no.
Qed.

(** [took w w' c c' new lost]: the claims buffer grew from [c] to [c'] by [new], and what is new on
    the heap are the blocks of [new] and [lost]. *)
Definition took (w w' : world) (c c' : chillbuff claim) (new : list claim) (lost : list nat) : Prop :=
  cb_id c' = cb_id c /\ cb_elems c' = cb_elems c ++ new /\ Forall heap_claim new
  /\ adds w w' (array_blocks new ++ lost).
Lemma took_nil w w' c : adds w w' [] -> took w w' c c [] [].
Proof. intros H. split; [reflexivity|]. split; [symmetry; apply app_nil_r|]. split; [constructor|exact H]. Qed.
Lemma took_trans a b d c1 c2 c3 n1 l1 n2 l2 :
  took a b c1 c2 n1 l1 -> took b d c2 c3 n2 l2 -> took a d c1 c3 (n1 ++ n2) (l1 ++ l2).
Proof.
  intros (I1 & E1 & F1 & A1) (I2 & E2 & F2 & A2). split; [congruence|].
  split; [rewrite E2, E1, app_assoc; reflexivity|]. split; [apply Forall_app; auto|].
  eapply adds_perm; [|eapply adds_trans; eauto].
  unfold array_blocks. rewrite flat_map_app, <- !app_assoc. apply Permutation_app_head.
  rewrite !app_assoc. apply Permutation_app_tail. apply Permutation_app_comm.
Qed.

Lemma claims_loop_inv fuel p e json a r : forall i c w rc c' w',
  wf w -> claims_loop fuel p e json a r i c w = Ret (rc, c') w' ->
  exists new lost, took w w' c c' new lost /\ (grows w -> lost = []).
Proof.
  induction fuel as [|fuel IH]; intros i c w rc c' w' Hwf H; [discriminate|]. cbn [claims_loop] in H.
  destruct (negb (i <? r)%Z).
  { inversion H; subst. exists [], []. split; [apply took_nil, adds_refl|auto]. }
  minvas H as key w1 H1. apply lift_inv in H1 as [_ ->].
  minvas H as value w1 H1. apply lift_inv in H1 as [_ ->].
  destruct (_ || _). { inversion H; subst. exists [], []. split; [apply took_nil, adds_refl|auto]. }
  minvas H as ct w1 H1. apply lift_inv in H1 as [_ ->].
  destruct ct as [[type i']|]. 2:{ inversion H; subst. exists [], []. split; [apply took_nil, adds_refl|auto]. }
  minvas H as km w1 H1. apply lift_inv in H1 as [_ ->].
  minvas H as vm w1 H1. apply lift_inv in H1 as [_ ->].
  minvas H as [ur oc] w1 H1. apply unescape_claim_inv in H1 as [(-> & -> & Ha)|(-> & x & -> & Hx & _ & Ha)]; [| |exact Hwf].
  { inversion H; subst. exists [], []. split; [apply took_nil; exact Ha|auto]. }
  minvas H as c1 w2 H2. apply cb_push_inv in H2 as (-> & Hid & Hel & Hg).
  assert (Hwf2 : wf (w_push w1)).
  { eapply wf_quiet; [apply quiet_push|]. eapply adds_wf; eauto. }
  destruct (IH _ _ _ _ _ _ Hwf2 H) as (new & lost & Ht & Hl).
  assert (Ha' : adds w (w_push w1) (claim_blocks x)).
  { rewrite <- (app_nil_r (claim_blocks x)). eapply adds_trans; [exact Ha|apply adds_quiet, quiet_push]. }
  pose proof (adds_later _ _ _ Ha') as L.
  destruct Hel as [->|Hel].
  - exists ([] ++ new), (claim_blocks x ++ lost). split.
    + eapply took_trans; [|exact Ht]. split; [reflexivity|]. split; [symmetry; apply app_nil_r|].
      split; [constructor|exact Ha'].
    + intros G. exfalso. pose proof (adds_later _ _ _ Ha) as L1.
      assert (E : c = CB (cb_id c) (cb_elems c ++ [x])) by (apply Hg; eapply grows_later; eauto).
      apply (f_equal (fun b => length (cb_elems b))) in E. cbn [cb_elems] in E. rewrite app_length in E.
      cbn [length] in E. lia.
  - exists ([x] ++ new), ([] ++ lost). split.
    + eapply took_trans; [|exact Ht]. split; [exact Hid|]. split; [exact Hel|].
      split; [constructor; [exact Hx|constructor]|]. unfold array_blocks. cbn [flat_map]. rewrite !app_nil_r. exact Ha'.
    + intros G. apply Hl. eapply grows_later; eauto.
Qed.

(** The token array is released: it is only for more than 64 tokens, and then the second pass
    succeeds. *)
Definition tokens_released (e : env) (js : bytes) : Prop :=
  let r := fst (e_jsmn e js None) in
  (64 < r)%Z -> (0 <= fst (e_jsmn e js (Some r)))%Z.

Lemma parse_claims_inv p e c q n w rc c' w' :
  wf w -> l8w8jwt_parse_claims p e c q n w = Ret (rc, c') w' ->
  exists b mem new lost, q = Ptr b mem /\ (n <= N.of_nat (length mem))%N
    /\ took w w' c c' new lost
    /\ (grows w -> tokens_released e (firstn (N.to_nat n) mem) -> lost = []).
Proof.
  intros Hwf H. unfold l8w8jwt_parse_claims in H.
  minvas H as mem w1 H1. apply lift_inv in H1 as [H1 ->]. destruct q as [|b mem']; [discriminate|].
  inversion H1; subst mem'. clear H1.
  minvas H as js w1 H1. apply lift_inv in H1 as [H1 ->]. apply take_inv in H1 as [Hn ->].
  set (js := firstn (N.to_nat n) mem) in *.
  assert (Nil : forall rc0 w0 lost, adds w w0 lost -> mret (rc0, c) w0 = Ret (rc, c') w' ->
     (grows w -> tokens_released e js -> lost = []) ->
     exists b0 mem0 new lost, Ptr b mem = Ptr b0 mem0 /\ (n <= N.of_nat (length mem0))%N
    /\ took w w' c c' new lost
    /\ (grows w -> tokens_released e (firstn (N.to_nat n) mem0) -> lost = [])).
  { intros rc0 w0 lost A E G. inversion E; subst. exists b, mem, [], lost. split; [reflexivity|].
    split; [exact Hn|]. split; [|exact G]. split; [reflexivity|]. split; [symmetry; apply app_nil_r|].
    split; [constructor|exact A]. }
  destruct (INT_MAX <? Z.of_N n)%Z; [discriminate|]. cbv zeta in H.
  destruct (fst (e_jsmn e js None) =? 0)%Z; [apply (Nil _ _ [] (adds_refl w) H); auto|].
  destruct (fst (e_jsmn e js None) <? 0)%Z; [apply (Nil _ _ [] (adds_refl w) H); auto|].
  minvas H as o w1 H1.
  assert (Ho : (o = Some None /\ w1 = w /\ (fst (e_jsmn e js None) <= 64)%Z)
    \/ ((64 < fst (e_jsmn e js None))%Z /\ ((o = Some (Some (w_next w)) /\ adds w w1 [w_next w]) \/ (o = None /\ adds w w1 [])))).
  { destruct (Z.leb_spec (fst (e_jsmn e js None)) 64) as [Hr|Hr]; [inversion H1; subst; auto|].
    right. split; [exact Hr|]. minvas H1 as o' w2 H2. rewrite alloc_eq in H2.
    destruct (w_alloc w (w_next w)); inversion H2; subst; inversion H1; subst; [left|right]; split; auto.
    - apply adds_ok.
    - apply adds_no. }
  clear H1. destruct (e_jsmn e js (Some (fst (e_jsmn e js None)))) as [r2 toks] eqn:Ej.
  assert (Hrel : tokens_released e js -> (64 < fst (e_jsmn e js None))%Z -> (0 <= r2)%Z).
  { intros T Hr. specialize (T Hr). rewrite Ej in T. exact T. }
  destruct Ho as [(-> & -> & Hr)|(Hr & [(-> & A)|(-> & A)])].
  - destruct (r2 <? 0)%Z; [apply (Nil _ _ [] (adds_refl w) H); auto|].
    minvas H as t0 w1 H1. apply lift_inv in H1 as [_ ->].
    minvas H as [rc1 c1] w1 H1. minvas H as u w2 H2. inversion H2; subst w2. inversion H; subst. clear H H2.
    destruct (negb _); [inversion H1; subst; exists b, mem, [], []; split; [reflexivity|];
      split; [exact Hn|]; split; [apply took_nil, adds_refl|auto]|].
    apply claims_loop_inv in H1 as (new & lost & T & G); [|exact Hwf].
    exists b, mem, new, lost. auto.
  - destruct (Z.ltb_spec r2 0) as [Hr2|Hr2].
    { apply (Nil _ _ _ A H). intros _ T. specialize (Hrel T Hr). lia. }
    assert (Hwf1 : wf w1) by (eapply adds_wf; eauto).
    minvas H as t0 w2 H1. apply lift_inv in H1 as [_ ->].
    minvas H as [rc1 c1] w2 H1. minvas H as u w3 H2. apply free_id_inv in H2 as [_ ->]. inversion H; subst. clear H.
    destruct (negb _).
    + inversion H1; subst. exists b, mem, [], []. split; [reflexivity|]. split; [exact Hn|].
      split; [|auto]. apply took_nil. apply adds_cons_free; auto.
    + apply claims_loop_inv in H1 as (new & lost & (T1 & T2 & T3 & T4) & G); [|exact Hwf1].
      exists b, mem, new, lost. split; [reflexivity|]. split; [exact Hn|]. split.
      * split; [exact T1|]. split; [exact T2|]. split; [exact T3|].
        apply adds_cons_free; auto. apply (adds_trans w w1 w2 [w_next w] (array_blocks new ++ lost)); auto.
      * intros Hg _. apply G. eapply grows_later; [|exact Hg]. eapply adds_later; eauto.
  - apply (Nil _ _ [] A H). auto.
Qed.

(** ** Ownership over a whole decode call *)
Definition seg_released (e : env) (s : seg) : Prop :=
  forall b mem, s_ptr s = Ptr b mem -> tokens_released e (firstn (N.to_nat (s_len s)) mem).
Definition all_released (p : platform) (e : env) (dp : dec_params) : Prop :=
  forall sg, segments_ok p dp sg -> seg_released e (sg_header sg) /\ seg_released e (sg_payload sg).

Lemma decode_body_own p e dp c0 w st w' :
  wf w -> decode_body p e dp c0 w = Ret st w' ->
  exists new lost,
    cb_id (ds_claims st) = cb_id c0 /\ cb_elems (ds_claims st) = cb_elems c0 ++ new /\ Forall heap_claim new
    /\ segs_heap (ds_segs st) /\ adds w w' (segs_blocks (ds_segs st) ++ array_blocks new ++ lost)
    /\ (grows w -> all_released p e dp -> lost = []).
Proof.
  intros Hwf H. unfold decode_body in H.
  minvas H as [r sg] w1 H1. apply decode_segments_inv in H1 as (A1 & Hh & Hok); [|exact Hwf].
  assert (W1 : wf w1) by (eapply adds_wf; eauto).
  assert (End : forall rc res cl new lost wz, mret (DecState rc sg cl res) wz = Ret st w' ->
    cb_id cl = cb_id c0 /\ cb_elems cl = cb_elems c0 ++ new /\ Forall heap_claim new
    /\ adds w1 wz (array_blocks new ++ lost) -> (grows w -> all_released p e dp -> lost = []) ->
    exists new lost,
    cb_id (ds_claims st) = cb_id c0 /\ cb_elems (ds_claims st) = cb_elems c0 ++ new /\ Forall heap_claim new
    /\ segs_heap (ds_segs st) /\ adds w w' (segs_blocks (ds_segs st) ++ array_blocks new ++ lost)
    /\ (grows w -> all_released p e dp -> lost = [])).
  { intros rc res cl new lost wz E (I & L & F & A) G. inversion E; subst. cbn [ds_claims ds_segs].
    exists new, lost. split; [exact I|]. split; [exact L|]. split; [exact F|]. split; [exact Hh|].
    split; [eapply adds_trans; eauto|exact G]. }
  destruct (Z.eqb_spec r L8W8JWT_SUCCESS) as [Er|Er]; cbn [negb] in H.
  2:{ apply (End _ _ _ [] [] _ H); [|auto]. split; [reflexivity|]. split; [symmetry; apply app_nil_r|].
      split; [constructor|apply adds_refl]. }
  specialize (Hok Er). clear r Er.
  minvas H as [r res] w2 H2. apply verify_signature_inv in H2 as [Q _]; [|exact W1].
  destruct (negb (r =? L8W8JWT_SUCCESS)%Z).
  { apply (End _ _ _ [] [] _ H); [|auto]. split; [reflexivity|]. split; [symmetry; apply app_nil_r|].
    split; [constructor|apply adds_quiet; exact Q]. }
  assert (W2 : wf w2) by (eapply wf_quiet; eauto).
  minvas H as [r3 c1] w3 H3.
  apply parse_claims_inv in H3 as (b1 & m1 & n1 & l1 & Eq1 & _ & T1 & G1); [|exact W2].
  assert (T1' : took w1 w3 c0 c1 n1 l1).
  { apply (took_trans w1 w2 w3 c0 c0 c1 [] [] n1 l1); [|exact T1]. apply took_nil, adds_quiet, Q. }
  assert (Lo : grows w -> all_released p e dp -> l1 = []).
  { intros G R. apply G1.
    - eapply grows_later; [|exact G]. pose proof (adds_later _ _ _ A1) as L1.
      pose proof (adds_later _ _ _ (adds_quiet _ _ Q)) as L2. eapply later_trans; eauto.
    - exact (proj1 (R _ Hok) _ _ Eq1). }
  destruct (negb (r3 =? L8W8JWT_SUCCESS)%Z); [apply (End _ _ _ _ _ _ H T1' Lo)|].
  assert (W3 : wf w3) by (destruct T1' as (_ & _ & _ & T); eapply adds_wf; eauto).
  minvas H as [r4 c2] w4 H4.
  apply parse_claims_inv in H4 as (b2 & m2 & n2 & l2 & Eq2 & _ & T2 & G2); [|exact W3].
  pose proof (took_trans _ _ _ _ _ _ _ _ _ _ T1' T2) as T.
  assert (Lo2 : grows w -> all_released p e dp -> l1 ++ l2 = []).
  { intros G R. rewrite (Lo G R), G2; [reflexivity| |exact (proj2 (R _ Hok) _ _ Eq2)].
    eapply grows_later; [|exact G]. destruct T1' as (_ & _ & _ & T').
    eapply later_trans; eapply adds_later; eauto. }
  destruct (negb (r4 =? L8W8JWT_SUCCESS)%Z); [apply (End _ _ _ _ _ _ H T Lo2)|].
  minvas H as res2 w5 H5. apply lift_inv in H5 as [_ ->]. apply (End _ _ _ _ _ _ H T Lo2).
Qed.

Lemma free_seg_inv w0 w s l1 l2 u w' : wf w0 -> seg_heap s -> adds w0 w (l1 ++ seg_blocks s ++ l2) ->
  free (s_ptr s) w = Ret u w' -> adds w0 w' (l1 ++ l2).
Proof.
  unfold seg_heap, seg_blocks. intros Hwf Hh A H. destruct (s_ptr s) as [|[id|] mem]; cbn [free] in H.
  - inversion H; subst. exact A.
  - apply free_id_inv in H as [_ ->]. apply (adds_free w0 w l1 id l2 Hwf A).
  - contradiction.
Qed.
Lemma adds_nodup w w' l : adds w w' l -> NoDup l.
Proof. intros (_ & H & _). exact H. Qed.
Lemma adds_live w w' l i : adds w w' l -> In i l -> w_live w' i = true.
Proof. intros (_ & _ & _ & H) Hi. apply H. auto. Qed.
Lemma adds_free_all w0 l : forall w l2, wf w0 -> adds w0 w (l ++ l2) -> adds w0 (w_free_all w l) l2.
Proof.
  induction l as [|x l IH]; intros w l2 Hwf A; [exact A|].
  cbn [w_free_all fold_left]. change (fold_left w_free l (w_free w x)) with (w_free_all (w_free w x) l).
  apply IH; [exact Hwf|]. apply (adds_cons_free w0 w x (l ++ l2) Hwf A).
Qed.
Lemma nodup_app_l {A} (a b : list A) : NoDup (a ++ b) -> NoDup a.
Proof.
  induction a as [|x a IH]; intros H; [constructor|]. inversion H; subst. constructor; [|auto].
  intros Hi. apply H2. apply in_app_iff. auto.
Qed.
Lemma free_claims_adds w0 w id cs lost : wf w0 -> Forall heap_claim cs ->
  adds w0 w (id :: array_blocks cs ++ lost) ->
  exists w', l8w8jwt_free_claims (CArr (Some id) cs) (N.of_nat (length cs)) w = Ret tt w' /\ adds w0 w' lost.
Proof.
  intros Hwf Hh A. pose proof (adds_nodup _ _ _ A) as Nd.
  exists (w_free (w_free_all w (array_blocks cs)) id). split.
  - apply free_claims_eq; [exact Hh| |].
    + inversion Nd as [|? ? N1 N2]; subst. constructor.
      * intros Hi. apply N1. apply in_app_iff. auto.
      * apply nodup_app_l in N2. exact N2.
    + intros i Hi. apply (adds_live _ _ _ _ A). destruct Hi as [->|Hi]; [left; reflexivity|right; apply in_app_iff; auto].
  - assert (A2 : adds w0 w (array_blocks cs ++ id :: lost)).
    { eapply adds_perm; [|exact A]. apply Permutation_middle. }
    apply adds_free_all in A2; [|exact Hwf]. apply (adds_cons_free _ _ id lost Hwf A2).
Qed.

(** The claims array handed out, or what remains live. *)
Definition handed (o : option (cptr * N)) (l : list nat) : Prop :=
  match o with
  | None => l = []
  | Some (a, n) => exists id cs, a = CArr (Some id) cs /\ n = N.of_nat (length cs) /\ Forall heap_claim cs
                     /\ l = id :: array_blocks cs
  end.

Lemma decode_own p e params vn cn ln w r w' :
  wf w -> l8w8jwt_decode p e params vn cn ln w = Ret r w' ->
  exists own lost, handed (dr_claims r) own /\ adds w w' (own ++ lost)
    /\ (grows w -> (forall dp, params = Some dp -> all_released p e dp) -> lost = []).
Proof.
  intros Hwf H. unfold l8w8jwt_decode in H.
  assert (Z0 : forall rc v w0, adds w w0 [] -> mret (DecRes rc v None) w0 = Ret r w' ->
    exists own lost, handed (dr_claims r) own /\ adds w w' (own ++ lost)
    /\ (grows w -> (forall dp, params = Some dp -> all_released p e dp) -> lost = [])).
  { intros rc v w0 A E. exists [], []. unfold mret in E.
    assert (E1 : r = DecRes rc v None) by congruence. assert (E2 : w' = w0) by congruence. subst w'.
    rewrite E1. split; [reflexivity|]. split; [exact A|auto]. }
  destruct params as [dp|]; [|apply (Z0 _ _ _ (adds_refl w) H)].
  destruct (cn && negb ln) eqn:Ecn; [apply (Z0 _ _ _ (adds_refl w) H)|].
  destruct (negb (l8w8jwt_validate_decoding_params p (Some dp) =? L8W8JWT_SUCCESS)%Z);
    [apply (Z0 _ _ _ (adds_refl w) H)|].
  destruct vn; cbn [negb] in H; [|apply (Z0 _ _ _ (adds_refl w) H)].
  minvas H as o w1 H1. apply cb_init_inv in H1 as [(-> & Ha & ->)|(-> & Ha & ->)].
  2:{ minvas H as u w1 H1. cbn [free_claims_buffer] in H1. destruct (p_cb_init_clears p); [|discriminate].
      inversion H1; subst. apply (Z0 _ _ _ (adds_no w) H). }
  pose proof (adds_ok w) as A0. assert (W0 : wf (w_ok w)) by (eapply adds_wf; eauto).
  minvas H as st w1 H1. apply decode_body_own in H1 as (new & lost & Hid & Hel & Hn & (S1 & S2 & S3) & A & G); [|exact W0].
  assert (A1 : adds w w1 ((w_next w :: nil) ++ seg_blocks (sg_header (ds_segs st)) ++
     (seg_blocks (sg_payload (ds_segs st)) ++ seg_blocks (sg_signature (ds_segs st)) ++ array_blocks new ++ lost))).
  { pose proof (adds_trans _ _ _ _ _ A0 A) as A'. unfold segs_blocks in A'.
    rewrite <- !app_assoc in A'. exact A'. }
  minvas H as u2 w2 H2. minvas H as u3 w3 H3. minvas H as u4 w4 H4.
  apply (free_seg_inv w w1 _ _ _ _ _ Hwf S1 A1) in H2.
  apply (free_seg_inv w w2 _ _ _ _ _ Hwf S2 H2) in H3.
  apply (free_seg_inv w w3 _ _ _ _ _ Hwf S3 H3) in H4.
  cbn [app] in H4. cbn [cb_id cb_elems] in Hid, Hel. cbn [app] in Hel.
  assert (Lo : grows w -> (forall dp0, Some dp = Some dp0 -> all_released p e dp0) -> lost = []).
  { intros Gw R. apply G; [|apply R; reflexivity]. eapply grows_later; [|exact Gw]. eapply adds_later; eauto. }
  minvas H as u5 w5 H5.
  assert (Fr : free_claims_buffer p (Some (ds_claims st)) w4 = Ret u5 w5 -> adds w w5 lost).
  { intros E. cbn [free_claims_buffer] in E. unfold cb_len in E. rewrite Hid, Hel in E.
    destruct (free_claims_adds w w4 (w_next w) new lost Hwf Hn H4) as (w6 & E6 & A6).
    rewrite E6 in E. inversion E; subst. exact A6. }
  unfold mret in H; injection H as <- <-. cbn [dr_claims].
  destruct (Z.eqb_spec (ds_rc st) L8W8JWT_SUCCESS) as [Er|Er]; [destruct cn|]; cbn [negb orb andb] in *.
  - destruct ln; [|discriminate]. unfold mret in H5; injection H5 as _ <-.
    exists (w_next w :: array_blocks new), lost. unfold cb_len. rewrite Hid, Hel.
    split; [|split; [exact H4|exact Lo]]. exists (w_next w), new. auto.
  - exists [], lost. split; [reflexivity|]. split; [exact (Fr H5)|exact Lo].
  - exists [], lost. split; [reflexivity|]. rewrite orb_true_r in H5. split; [exact (Fr H5)|exact Lo].
Qed.

(** What the raw functions hand out. *)
Definition handed_seg (o : option seg) : list nat := match o with Some s => seg_blocks s | None => [] end.
Lemma give_or_free_inv w0 w nn s l1 l2 o w' : wf w0 -> seg_heap s -> adds w0 w (l1 ++ seg_blocks s ++ l2) ->
  give_or_free nn s w = Ret o w' ->
  adds w0 w' (l1 ++ handed_seg o ++ l2) /\ (forall x, o = Some x -> seg_heap x).
Proof.
  intros Hwf Hh A H. unfold give_or_free in H. destruct nn.
  - inversion H; subst. split; [exact A|]. intros x E. inversion E; subst. exact Hh.
  - minvas H as u w1 H1. inversion H; subst. split; [|discriminate]. cbn [handed_seg app].
    eapply free_seg_inv; eauto.
Qed.

Definition handed_raw (r : raw_res) : list nat :=
  handed_seg (rr_header r) ++ handed_seg (rr_payload r) ++ handed_seg (rr_signature r).
Definition raw_heap (r : raw_res) : Prop :=
  forall s, rr_header r = Some s \/ rr_payload r = Some s \/ rr_signature r = Some s -> seg_heap s.

Lemma decode_raw_own p e params vn hn hl pn pl sn sl w r w' :
  wf w -> l8w8jwt_decode_raw p e params vn hn hl pn pl sn sl w = Ret r w' ->
  exists lost, adds w w' (handed_raw r ++ lost) /\ raw_heap r
    /\ (grows w -> (forall dp, params = Some dp -> all_released p e dp) -> lost = []).
Proof.
  intros Hwf H. unfold l8w8jwt_decode_raw in H.
  assert (Z0 : forall rc v w0, adds w w0 [] -> mret (RawRes rc v None None None) w0 = Ret r w' ->
    exists lost, adds w w' (handed_raw r ++ lost) /\ raw_heap r
    /\ (grows w -> (forall dp, params = Some dp -> all_released p e dp) -> lost = [])).
  { intros rc v w0 A E. exists []. unfold mret in E.
    assert (E1 : r = RawRes rc v None None None) by congruence. assert (E2 : w' = w0) by congruence. subst w'.
    rewrite E1. split; [exact A|]. split; [|auto]. intros s [K|[K|K]]; discriminate. }
  destruct params as [dp|]; [|apply (Z0 _ _ _ (adds_refl w) H)].
  destruct (_ || _ || _ || _); [apply (Z0 _ _ _ (adds_refl w) H)|].
  destruct (negb (l8w8jwt_validate_decoding_params p (Some dp) =? L8W8JWT_SUCCESS)%Z);
    [apply (Z0 _ _ _ (adds_refl w) H)|].
  minvas H as o w1 H1. apply cb_init_inv in H1 as [(-> & Ha & ->)|(-> & Ha & ->)].
  2:{ minvas H as [[[rc sg] res] b] w1 H1. inversion H1; subst. clear H1.
      minvas H as h w1 H1. minvas H as q w2 H2. minvas H as s w3 H3. minvas H as u w4 H4.
      cbn [free_claims_buffer] in H4. destruct (p_cb_init_clears p); [|discriminate]. inversion H4; subst.
      assert (G : forall nn o wa wb, give_or_free nn seg0 wa = Ret o wb -> wb = wa /\ (o = None \/ o = Some seg0)).
      { clear. intros nn o wa wb E. unfold give_or_free in E. destruct nn; inversion E; auto. }
      cbn [sg_header sg_payload sg_signature] in *.
      apply G in H1 as [-> E1]. apply G in H2 as [-> E2]. apply G in H3 as [-> E3]. inversion H; subst. clear H.
      exists []. unfold handed_raw, raw_heap. cbn [rr_header rr_payload rr_signature].
      split; [|split; [|auto]].
      - destruct E1, E2, E3; subst; apply adds_no.
      - intros s0 [K|[K|K]]; subst; [destruct E1 as [E|E]|destruct E2 as [E|E]|destruct E3 as [E|E]]; inversion E; subst; exact I. }
  pose proof (adds_ok w) as A0. assert (W0 : wf (w_ok w)) by (eapply adds_wf; eauto).
  minvas H as [[[rc sg] res] b] w1 H1. minvas H1 as st w2 H2. inversion H1; subst. clear H1.
  rewrite decode_raw_body_eq in H2.
  apply decode_body_own in H2 as (new & lost & Hid & Hel & Hn & (S1 & S2 & S3) & A & G); [|exact W0].
  assert (A1 : adds w w1 ((w_next w :: nil) ++ seg_blocks (sg_header (ds_segs st)) ++
     (seg_blocks (sg_payload (ds_segs st)) ++ seg_blocks (sg_signature (ds_segs st)) ++ array_blocks new ++ lost))).
  { pose proof (adds_trans _ _ _ _ _ A0 A) as A'. unfold segs_blocks in A'.
    rewrite <- !app_assoc in A'. exact A'. }
  minvas H as h w2 H2. minvas H as q w3 H3. minvas H as s w4 H4. minvas H as u w5 H5.
  apply (give_or_free_inv w w1 _ _ _ _ _ _ Hwf S1 A1) in H2 as [H2 B2].
  rewrite app_assoc in H2.
  apply (give_or_free_inv w w2 _ _ _ _ _ _ Hwf S2 H2) in H3 as [H3 B3].
  rewrite app_assoc in H3.
  apply (give_or_free_inv w w3 _ _ _ _ _ _ Hwf S3 H3) in H4 as [H4 B4].
  cbn [cb_id cb_elems] in Hid, Hel. cbn [app] in Hel.
  cbn [free_claims_buffer] in H5. unfold cb_len in H5. rewrite Hid, Hel in H5.
  assert (A4 : adds w w4 (w_next w :: array_blocks new ++ ((handed_seg h ++ handed_seg q ++ handed_seg s) ++ lost))).
  { eapply adds_perm; [|exact H4]. rewrite <- !app_assoc. cbn [app]. constructor.
    rewrite !app_assoc. apply Permutation_app_tail. rewrite <- !app_assoc.
    eapply Permutation_trans; [|apply Permutation_app_comm]. rewrite <- !app_assoc. reflexivity. }
  destruct (free_claims_adds w w4 (w_next w) new _ Hwf Hn A4) as (w6 & E6 & A6).
  rewrite E6 in H5. injection H5 as _ <-. unfold mret in H; injection H as <- <-.
  exists lost. split; [exact A6|]. split.
  - intros s0 [K|[K|K]]; cbn [rr_header rr_payload rr_signature] in K; auto.
  - intros Gw R. apply G; [|apply R; reflexivity]. eapply grows_later; [|exact Gw]. eapply adds_later; eauto.
Qed.

Lemma decode_raw_nv_own p params hn hl pn pl sn sl w r w' :
  wf w -> l8w8jwt_decode_raw_no_validation p params hn hl pn pl sn sl w = Ret r w' ->
  adds w w' (handed_raw r) /\ raw_heap r.
Proof.
  intros Hwf H. unfold l8w8jwt_decode_raw_no_validation in H.
  assert (Z0 : forall rc v w0, adds w w0 [] -> mret (RawRes rc v None None None) w0 = Ret r w' ->
    adds w w' (handed_raw r) /\ raw_heap r).
  { intros rc v w0 A E. unfold mret in E.
    assert (E1 : r = RawRes rc v None None None) by congruence. assert (E2 : w' = w0) by congruence. subst w'.
    rewrite E1. split; [exact A|]. intros s [K|[K|K]]; discriminate. }
  destruct params as [dp|]; [|apply (Z0 _ _ _ (adds_refl w) H)].
  destruct (_ || _ || _ || _); [apply (Z0 _ _ _ (adds_refl w) H)|].
  destruct (negb (l8w8jwt_validate_decoding_params p (Some dp) =? L8W8JWT_SUCCESS)%Z);
    [apply (Z0 _ _ _ (adds_refl w) H)|].
  minvas H as [rc sg] w1 H1. apply decode_segments_inv in H1 as (A & (S1 & S2 & S3) & _); [|exact Hwf].
  unfold segs_blocks in A.
  minvas H as h w2 H2. minvas H as q w3 H3. minvas H as s w4 H4.
  apply (give_or_free_inv w w1 _ _ [] _ _ _ Hwf S1 A) in H2 as [H2 B2]. cbn [app] in H2.
  apply (give_or_free_inv w w2 _ _ _ _ _ _ Hwf S2 H2) in H3 as [H3 B3].
  rewrite app_assoc in H3. rewrite <- (app_nil_r (seg_blocks (sg_signature sg))) in H3.
  apply (give_or_free_inv w w3 _ _ _ _ _ _ Hwf S3 H3) in H4 as [H4 B4].
  inversion H; subst. split.
  - unfold handed_raw. cbn [rr_header rr_payload rr_signature]. rewrite app_nil_r, <- app_assoc in H4. exact H4.
  - intros s0 [K|[K|K]]; cbn [rr_header rr_payload rr_signature] in K; auto.
Qed.
