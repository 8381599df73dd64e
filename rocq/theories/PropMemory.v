(** * Property C65: decoding takes memory in proportion to the token *)
From Verif Require Import Base BaseProofs HeapProofs Base64 Base64DecProofs Base64Api SpecB64 Util Claim ClaimProofs Jsmn Env
  Encode Decode DecodeProofs DecodeInv ParseProofs JsmnProofs Nesting DecodeTotal SpecJson SpecJwa PropEncode PropVerify PropValidate PropJson.
From Coq Require Import ZifyBool ZifyNat ZifyN.
Ltac Zify.zify_post_hook ::= Z.div_mod_to_equations.
Local Opaque L8W8JWT_MAX_KEY_SIZE.

(** The bytes a pointer gives access to. *)
Definition memory (q : ptr) : nat := match q with Null => 0 | Ptr _ m => length m end.
Definition claim_memory (c : claim) : nat := memory (c_key c) + memory (c_value c).
Definition claims_memory (cs : list claim) : nat := list_sum (map claim_memory cs).
Definition segment_memory (o : option seg) : nat := match o with Some s => memory (s_ptr s) | None => 0 end.
(** Calls of malloc and calloc between two states, successful or not. *)
Definition allocations (w w' : world) : nat := w_next w' - w_next w.

Lemma to_size_le p z : (0 <= z)%Z -> (Z.of_N (to_size p z) <= z)%Z.
Proof.
  intros H. unfold to_size. assert (0 < Z.of_N (size_mod p))%Z by (unfold size_mod; lia).
  pose proof (Z.mod_le z _ H H0). pose proof (Z.mod_pos_bound z _ H0). lia.
Qed.

Lemma unescape_claim_memory p type key klen value vlen w rc oc w' :
  wf w -> l8w8jwt_unescape_claim p type key klen value vlen w = Ret (rc, oc) w' ->
  w_next w' = (w_next w + 2)%nat
  /\ forall c, oc = Some c -> (N.of_nat (claim_memory c) <= klen + vlen + 2)%N.
Proof.
  intros Hwf H. unfold l8w8jwt_unescape_claim in H.
  minvas H as k w1 H1. rewrite calloc_eq in H1. minvas H as v w2 H2. rewrite calloc_eq in H2.
  assert (Nx : w_next w2 = (w_next w + 2)%nat).
  { destruct (w_alloc w (w_next w)); inversion H1; subst; clear H1;
      cbn [w_ok w_no w_alloc w_next] in H2; destruct (w_alloc w (S (w_next w))); inversion H2; subst; cbn; lia. }
  destruct k as [|kid kbuf].
  { minvas H as u w3 H3. inversion H3; subst. minvas H as u2 w4 H4. inversion H; subst.
    assert (w_next w' = w_next w3).
    { destruct v as [|[id|] m]; cbn [free] in H4; [inversion H4; reflexivity| |discriminate].
      apply free_id_inv in H4 as [_ ->]. reflexivity. }
    split; [lia|discriminate]. }
  destruct v as [|vid vbuf].
  { minvas H as u w3 H3. minvas H as u2 w4 H4. cbn [free] in H4. inversion H4; subst. inversion H; subst.
    assert (w_next w' = w_next w2).
    { destruct kid as [id|]; cbn [free] in H3; [|discriminate]. apply free_id_inv in H3 as [_ ->]. reflexivity. }
    split; [lia|discriminate]. }
  assert (Lk : (N.of_nat (length kbuf) <= klen + 1)%N).
  { destruct (w_alloc w (w_next w)); inversion H1; subst. rewrite repeat_length, N2Nat.id.
    apply N.mod_le. unfold size_mod. lia. }
  assert (Lv : (N.of_nat (length vbuf) <= vlen + 1)%N).
  { destruct (w_alloc w1 (w_next w1)); inversion H2; subst. rewrite repeat_length, N2Nat.id.
    apply N.mod_le. unfold size_mod. lia. }
  clear H1 H2.
  minvas H as ks w3 H1. apply lift_inv in H1 as [_ ->].
  minvas H as c1 w3 H1. apply lift_inv in H1 as [H1 ->].
  minvas H as c2 w3 H2. apply lift_inv in H2 as [H2 ->].
  apply unescape_string_inv in H1. apply cur_set_inv in H2 as [H2 _]. rewrite cur_start_buf in H1.
  destruct (type =? L8W8JWT_CLAIM_TYPE_STRING)%Z.
  - minvas H as vs w3 H3. apply lift_inv in H3 as [_ ->].
    minvas H as c3 w3 H3. apply lift_inv in H3 as [H3 ->].
    minvas H as c4 w3 H4. apply lift_inv in H4 as [H4 ->]. inversion H; subst. clear H.
    split; [exact Nx|]. intros c E. inversion E; subst. unfold claim_memory. cbn [c_key c_value memory].
    apply unescape_string_inv in H3. apply cur_set_inv in H4 as [H4 _]. rewrite cur_start_buf in H3. lia.
  - minvas H as vs w3 H3. apply lift_inv in H3 as [_ ->].
    minvas H as c3 w3 H3. apply lift_inv in H3 as [H3 ->].
    minvas H as c4 w3 H4. apply lift_inv in H4 as [H4 ->]. inversion H; subst. clear H.
    split; [exact Nx|]. intros c E. inversion E; subst. unfold claim_memory. cbn [c_key c_value memory].
    apply cur_puts_inv in H3 as [H3 _]. apply cur_set_inv in H4 as [H4 _]. rewrite cur_start_buf in H3. lia.
Qed.

Lemma claims_memory_cons c cs : claims_memory (c :: cs) = (claim_memory c + claims_memory cs)%nat.
Proof. reflexivity. Qed.
Lemma claims_memory_app a b : claims_memory (a ++ b) = (claims_memory a + claims_memory b)%nat.
Proof. unfold claims_memory. rewrite map_app, list_sum_app. reflexivity. Qed.

(** ** The loop over the tokens *)
Lemma skip_nested_end fuel a r vend : forall i i', skip_nested fuel a r vend i = OK i' ->
  (i <= i')%Z /\ ((r <= i')%Z \/ exists t, tok_at a (i' + 1) = OK t /\ (vend < t_end t)%Z).
Proof.
  induction fuel as [|f IH]; intros i i' H; [discriminate|]. cbn [skip_nested] in H.
  apply ubind_inv in H as (t & Ht & H).
  destruct (Z.leb_spec (t_end t) vend) as [He|He]; cbn [andb] in H.
  - destruct (Z.ltb_spec i r) as [Hi|Hi].
    + apply IH in H as [A B]. split; [lia|exact B].
    + inversion H; subst. split; [lia|left; lia].
  - inversion H; subst. split; [lia|]. right. exists t. auto.
Qed.

Section Loop.
  Context (toks : list tok) (cap : Z) (junk : Z -> tok) (n : nat).
  Context (Hin : Forall (tok_in n) toks) (Hnest : ForallOrdPairs behind_or_inside toks).
  Let a := TokArr toks cap junk.
  Let r := Z.of_nat (length toks).

  Lemma tok_nth i t : tok_at a i = OK t -> (i < r)%Z -> (0 <= i)%Z /\ nth_error toks (Z.to_nat i) = Some t.
  Proof.
    unfold tok_at, a. cbn [ta_cap ta_toks ta_junk]. intros H Hi.
    destruct (Z.ltb_spec i 0); [discriminate|]. destruct (cap <=? i)%Z; [discriminate|]. cbn [orb] in H.
    split; [lia|]. inversion H. apply nth_error_nth'. unfold r in Hi. lia.
  Qed.
  Lemma nth_pairs i j t u : (i < j)%nat -> nth_error toks i = Some t -> nth_error toks j = Some u -> behind_or_inside t u.
  Proof.
    revert i j. induction Hnest as [|x l Hx P IH]; intros i j Hij Hi Hj; [destruct i; discriminate|].
    inversion Hin as [|? ? _ Hl]; subst.
    destruct j as [|j]; [lia|]. cbn [nth_error] in Hj. destruct i as [|i]; cbn [nth_error] in Hi.
    - inversion Hi; subst. rewrite Forall_forall in Hx. apply Hx. eapply nth_error_In; eauto.
    - apply (IH Hl P i j); [lia|assumption..].
  Qed.
  Lemma nth_in i t : nth_error toks i = Some t -> tok_in n t.
  Proof. intros H. rewrite Forall_forall in Hin. apply Hin. eapply nth_error_In; eauto. Qed.

  (** All tokens from index [i] on start at [low] or later. *)
  Definition above (i low : Z) : Prop :=
    forall j t, (i <= Z.of_nat j)%Z -> nth_error toks j = Some t -> (low <= t_start t)%Z.

  Lemma claims_loop_memory fuel p e json : forall i low c w rc c' w', wf w -> (0 <= i)%Z ->
    (0 <= low <= Z.of_nat n)%Z -> above i low ->
    claims_loop fuel p e json a r i c w = Ret (rc, c') w' ->
    exists new, cb_elems c' = cb_elems c ++ new
      /\ (Z.of_nat (claims_memory new) <= Z.of_nat n - low + 2 * Z.of_nat (length new))%Z
      /\ (2 * Z.of_nat (length new) <= Z.max 0 (r - i))%Z
      /\ (Z.of_nat (w_next w') <= Z.of_nat (w_next w) + Z.max 0 (r - i))%Z.
  Proof.
    induction fuel as [|fuel IH]; intros i low c w rc c' w' Hwf Hi0 Hlow Hab H; [discriminate|]. cbn [claims_loop] in H.
    assert (Z0 : forall rc0, mret (rc0, c) w = Ret (rc, c') w' ->
      exists new, cb_elems c' = cb_elems c ++ new
      /\ (Z.of_nat (claims_memory new) <= Z.of_nat n - low + 2 * Z.of_nat (length new))%Z
      /\ (2 * Z.of_nat (length new) <= Z.max 0 (r - i))%Z
      /\ (Z.of_nat (w_next w') <= Z.of_nat (w_next w) + Z.max 0 (r - i))%Z).
    { intros rc0 E. inversion E; subst. exists []. split; [symmetry; apply app_nil_r|]. cbn. lia. }
    destruct (Z.ltb_spec i r) as [Hi|Hi]; cbn [negb] in H; [|eapply Z0; eauto].
    minvas H as key w1 H1. apply lift_inv in H1 as [Hk ->].
    minvas H as value w1 H1. apply lift_inv in H1 as [Hv ->].
    destruct (Z.leb_spec r (i + 1)) as [Hi1|Hi1]; cbn [orb] in H; [eapply Z0; eauto|].
    destruct (jtype_eqb (t_type key) JString) eqn:Ek; cbn [negb] in H; [|eapply Z0; eauto].
    assert (Kt : t_type key = JString) by (destruct (t_type key); try discriminate; reflexivity).
    apply tok_nth in Hk as [_ Hk]; [|lia]. apply tok_nth in Hv as [_ Hv]; [|lia].
    minvas H as ct w1 H1. apply lift_inv in H1 as [Hct ->].
    destruct ct as [[type i']|]; [|eapply Z0; eauto].
    destruct (nth_in _ _ Hk) as (_ & K1 & K2 & _). destruct (nth_in _ _ Hv) as (_ & V1 & V2 & _).
    assert (KV : (t_end key <= t_start value)%Z).
    { destruct (nth_pairs (Z.to_nat i) (Z.to_nat (i + 1)) _ _ ltac:(lia) Hk Hv) as (_ & [B|[[B|B] _]]); [exact B|congruence..]. }
    assert (Kl : (low <= t_start key)%Z) by (apply (Hab (Z.to_nat i)); [lia|exact Hk]).
    assert (Next : (i + 1 <= i')%Z /\ above (i' + 1) (t_end value)).
    { assert (Flat : t_type value <> JObject -> t_type value <> JArray -> i' = (i + 1)%Z -> (i + 1 <= i')%Z /\ above (i' + 1) (t_end value)).
      { intros N1 N2 ->. split; [lia|]. intros j t Hj Ht.
        destruct (nth_pairs (Z.to_nat (i + 1)) j _ _ ltac:(lia) Hv Ht) as (_ & [B|[[B|B] _]]); [exact B|congruence..]. }
      assert (Nested : skip_nested (S (S (Z.to_nat r))) a r (t_end value) (i + 1) = OK i' ->
        (i + 1 <= i')%Z /\ above (i' + 1) (t_end value)).
      { intros Hs. apply skip_nested_end in Hs as [S1 S2]. split; [exact S1|]. intros j t Hj Ht.
        assert (Hjr : (Z.of_nat j < r)%Z).
        { unfold r. assert (j < length toks)%nat; [|lia]. apply nth_error_Some. congruence. }
        destruct S2 as [S2|(u & Hu & S2)]; [lia|]. apply tok_nth in Hu as [_ Hu]; [|lia].
        destruct (nth_pairs (Z.to_nat (i + 1)) (Z.to_nat (i' + 1)) _ _ ltac:(lia) Hv Hu) as (_ & [B|[_ B]]); [|lia].
        destruct (Nat.eq_dec j (Z.to_nat (i' + 1))) as [->|Nj]; [congruence|].
        destruct (nth_pairs (Z.to_nat (i' + 1)) j _ _ ltac:(lia) Hu Ht) as (B' & _). lia. }
      unfold claim_type in Hct. destruct (t_type value) eqn:Vt.
      - inversion Hct; subst. apply Flat; congruence.
      - apply ubind_inv in Hct as (x & Hx & E). inversion E; subst. apply Nested. exact Hx.
      - apply ubind_inv in Hct as (x & Hx & E). inversion E; subst. apply Nested. exact Hx.
      - inversion Hct; subst. apply Flat; congruence.
      - apply Flat; [congruence|congruence|].
        apply ubind_inv in Hct as (m & _ & E). apply ubind_inv in E as (b1 & _ & E).
        destruct b1; [inversion E; reflexivity|]. apply ubind_inv in E as (b2 & _ & E).
        destruct b2; [inversion E; reflexivity|]. apply ubind_inv in E as (s & _ & E).
        destruct (_ =? 1)%Z; [inversion E; reflexivity|]. destruct (_ =? 2)%Z; inversion E; reflexivity. }
    destruct Next as [Ni Na].
    minvas H as km w1 H1. apply lift_inv in H1 as [_ ->].
    minvas H as vm w1 H1. apply lift_inv in H1 as [_ ->].
    minvas H as [ur oc] w1 H1. pose proof (unescape_claim_memory _ _ _ _ _ _ _ _ _ _ Hwf H1) as [Nw Sz].
    apply unescape_claim_inv in H1 as Hu; [|exact Hwf].
    assert (Hwf1 : wf w1).
    { destruct Hu as [(_ & _ & Ha)|(_ & x & _ & _ & _ & Ha)]; eapply adds_wf; eauto. }
    destruct oc as [x|].
    2:{ inversion H; subst. exists []. split; [symmetry; apply app_nil_r|]. cbn. lia. }
    specialize (Sz x eq_refl). pose proof (to_size_le p (t_end key - t_start key) ltac:(lia)) as T1.
    pose proof (to_size_le p (t_end value - t_start value) ltac:(lia)) as T2.
    minvas H as c1 w2 H2. apply cb_push_inv in H2 as (-> & _ & Hel & _).
    apply (IH _ (t_end value)) in H as (new & E & B1 & B2 & B3);
      [|apply wf_push; exact Hwf1|lia|lia|exact Na].
    cbn [w_push w_next] in B3.
    destruct Hel as [->|Hel].
    - exists new. split; [exact E|]. lia.
    - exists (x :: new). split; [rewrite E, Hel, <- app_assoc; reflexivity|].
      rewrite claims_memory_cons. cbn [length]. lia.
  Qed.
End Loop.

Lemma parse_claims_memory p e c q n w rc c' w' : uses_jsmn e ->
  wf w -> l8w8jwt_parse_claims p e c q n w = Ret (rc, c') w' ->
  exists new, cb_elems c' = cb_elems c ++ new
    /\ (claims_memory new <= 2 * N.to_nat n)%nat
    /\ (2 * length new <= N.to_nat n)%nat
    /\ (w_next w' <= w_next w + N.to_nat n)%nat.
Proof.
  intros Hj Hwf H. unfold l8w8jwt_parse_claims in H.
  minvas H as mem w1 H1. apply lift_inv in H1 as [H1 ->]. destruct q as [|b mem']; [discriminate|].
  inversion H1; subst mem'. clear H1.
  minvas H as js w1 H1. apply lift_inv in H1 as [H1 ->]. apply take_inv in H1 as [Hn ->].
  set (js := firstn (N.to_nat n) mem) in *.
  assert (Ln : length js = N.to_nat n) by (unfold js; rewrite firstn_length; lia).
  assert (Nil : forall rc0 w0, (w_next w0 <= w_next w + N.to_nat n)%nat -> mret (rc0, c) w0 = Ret (rc, c') w' ->
     exists new, cb_elems c' = cb_elems c ++ new /\ (claims_memory new <= 2 * N.to_nat n)%nat
    /\ (2 * length new <= N.to_nat n)%nat /\ (w_next w' <= w_next w + N.to_nat n)%nat).
  { intros rc0 w0 A E. inversion E; subst. exists []. split; [symmetry; apply app_nil_r|]. cbn. lia. }
  destruct (INT_MAX <? Z.of_N n)%Z; [discriminate|]. cbv zeta in H. rewrite !Hj in H.
  pose proof (jsmn_at_most js None) as Hm.
  destruct (Z.eqb_spec (fst (jsmn_parse js None)) 0) as [R0|R0]; [apply (Nil _ w ltac:(lia) H)|].
  destruct (Z.ltb_spec (fst (jsmn_parse js None)) 0) as [R1|R1]; [apply (Nil _ w ltac:(lia) H)|].
  minvas H as o w1 H1.
  assert (Ho : ((o = Some None /\ w1 = w) \/ (o = Some (Some (w_next w)) /\ w1 = w_ok w) \/ (o = None /\ w1 = w_no w))).
  { destruct (fst (jsmn_parse js None) <=? 64)%Z; [inversion H1; subst; auto|].
    minvas H1 as o' w2 H2. rewrite alloc_eq in H2.
    destruct (w_alloc w (w_next w)); inversion H2; subst; inversion H1; subst; auto. }
  clear H1.
  assert (Hw1 : (w_next w1 <= w_next w + 1)%nat /\ wf w1).
  { destruct Ho as [(_ & ->)|[(_ & ->)|(_ & ->)]]; (split; [cbn; lia|]); auto using wf_ok, wf_no. }
  destruct Hw1 as [N1 Hwf1].
  destruct o as [blk|]; [|apply (Nil _ w1 ltac:(lia) H)]. clear Ho.
  destruct (jsmn_parse js (Some (fst (jsmn_parse js None)))) as [r2 toks] eqn:Ej.
  destruct (Z.ltb_spec r2 0) as [R2|R2]; [apply (Nil _ w1 ltac:(lia) H)|].
  pose proof (jsmn_at_most js (Some (fst (jsmn_parse js None)))) as Hm2. rewrite Ej in Hm2. cbn [fst] in Hm2.
  destruct (jsmn_tokens _ _ _ _ Ej R2) as [Hr Hin]. pose proof (jsmn_nested _ _ _ _ Ej R2) as Hnest.
  assert (Hin' : Forall (tok_in (length js)) toks).
  { eapply Forall_impl; [|exact Hin]. intros t (A & B & C & D). split; [exact A|]. split; [exact B|]. split; [|exact D].
    assert (length (before_nul js) <= length js)%nat; [|lia].
    clear. induction js as [|x l IH]; [reflexivity|]. cbn [before_nul]. destruct (is_nul x); cbn [length]; lia. }
  minvas H as t0 w2 H1. apply lift_inv in H1 as [_ ->].
  minvas H as [rc1 c1] w2 H1. minvas H as u w3 H2.
  assert (N3 : w_next w3 = w_next w2).
  { destruct blk as [id|]; [apply free_id_inv in H2 as [_ ->]; reflexivity|inversion H2; reflexivity]. }
  inversion H; subst. clear H H2.
  destruct (negb _).
  { inversion H1; subst. exists []. split; [symmetry; apply app_nil_r|]. cbn. lia. }
  apply (claims_loop_memory toks _ _ (length js) Hin' Hnest _ p e mem 1 0) in H1 as (new & E & B1 & B2 & B3);
    [|exact Hwf1|lia|lia|].
  - exists new. split; [exact E|]. lia.
  - intros j t _ Ht. rewrite Forall_forall in Hin'. apply nth_error_In in Ht. apply Hin' in Ht. destruct Ht as (_ & A & _). lia.
Qed.

(** ** Segments *)
Lemma filter_length_le {A} (f : A -> bool) l : (length (filter f l) <= length l)%nat.
Proof. induction l as [|x l IH]; cbn [filter length]; [lia|]. destruct (f x); cbn [length]; lia. Qed.
Lemma b64_decodes_memory t o tail : b64_decodes t o tail ->
  (4 * length (o ++ tail) <= 3 * length t + 64)%nat /\ (4 * length o <= 3 * length t + 9)%nat.
Proof.
  intros (_ & Hb & lf & Hd & ->). pose proof (dec_len_bound _ _ _ _ Hb Hd) as [_ H1].
  pose proof (dec_room _ _ _ _ _ eq_refl Hb Hd) as H2.
  assert (L : (length (syms true t) <= length t)%nat) by (unfold syms; apply filter_length_le).
  rewrite !app_length, repeat_length. unfold dec_size in *. lia.
Qed.

Lemma free_next q w u w' : free q w = Ret u w' -> w_next w' = w_next w.
Proof.
  destruct q as [|[id|] m]; cbn [free]; intros H; [inversion H; reflexivity| |discriminate].
  apply free_id_inv in H as [_ ->]. reflexivity.
Qed.

Lemma b64_decode_next q n w r w' :
  l8w8jwt_base64_decode true q n true true w = Ret r w' -> (w_next w' <= S (w_next w))%nat.
Proof.
  unfold l8w8jwt_base64_decode. destruct (_ || _ || _); [intros H; inversion H; subst; lia|].
  destruct (n =? 0)%N; [intros H; inversion H; subst; lia|]. intros H.
  minvas H as m w1 H1. apply lift_inv in H1 as [_ ->]. minvas H as l w1 H1. apply lift_inv in H1 as [_ ->].
  minvas H as i w1 H1. apply lift_inv in H1 as [_ ->].
  destruct (_ || _); [inversion H; subst; lia|].
  minvas H as o w1 H1. rewrite calloc_eq in H1.
  destruct (w_alloc w (w_next w)); inversion H1; subst; [|inversion H; subst; cbn; lia].
  minvas H as d w1 H2. apply lift_inv in H2 as [_ ->].
  destruct d; [inversion H; subst; cbn; lia|].
  minvas H as u w1 H2. apply free_next in H2. inversion H; subst. cbn in H2. lia.
Qed.

(** A segment decoded from [n] characters. *)
Definition small_seg (n : nat) (s : seg) : Prop :=
  (4 * memory (s_ptr s) <= 3 * n + 64)%nat /\ (4 * N.to_nat (s_len s) <= 3 * n + 9)%nat.
Lemma small_seg0 n : small_seg n seg0.
Proof. split; cbn; lia. Qed.
Lemma seg_upd_small b mem n w r w' :
  wf w -> l8w8jwt_base64_decode true (Ptr b mem) n true true w = Ret r w' ->
  wf w' /\ (w_next w' <= S (w_next w))%nat /\ (N.to_nat n <= length mem)%nat /\ small_seg (N.to_nat n) (seg_upd seg0 r).
Proof.
  intros Hwf H. pose proof (b64_decode_next _ _ _ _ _ H) as Nx. apply (seg_upd_inv _ _ _ _ _ _ Hwf) in H.
  cbv zeta in H. destruct H as (A & _ & L & F & S). split; [eapply adds_wf; eauto|]. split; [exact Nx|].
  split; [lia|]. destruct (Z.eq_dec (b_rc r) L8W8JWT_SUCCESS) as [E|E].
  - destruct (S E) as (id & o & tail & Hd & ->). apply b64_decodes_memory in Hd as [H1 H2].
    rewrite firstn_length in H1, H2. split; cbn [s_ptr s_len memory]; lia.
  - rewrite (F E). apply small_seg0.
Qed.

Lemma decode_segments_memory p dp w rc sg w' :
  wf w -> l8w8jwt_decode_segments p dp w = Ret (rc, sg) w' ->
  wf w' /\ (w_next w' <= w_next w + 3)%nat
  /\ (4 * (memory (s_ptr (sg_header sg)) + memory (s_ptr (sg_payload sg)) + memory (s_ptr (sg_signature sg)))
      <= 3 * memory (dp_jwt dp) + 192)%nat
  /\ (4 * (N.to_nat (s_len (sg_header sg)) + N.to_nat (s_len (sg_payload sg))) <= 3 * memory (dp_jwt dp) + 18)%nat.
Proof.
  intros Hwf H. unfold l8w8jwt_decode_segments in H.
  minvas H as jwt w1 H1. apply lift_inv in H1 as [Hj ->].
  destruct (dp_jwt dp) as [|b jwt'] eqn:Ej; inversion Hj; subst jwt'. clear Hj. cbn [memory].
  minvas H as o w1 H1. apply lift_inv in H1 as [Ho ->]. apply strchr_inv in Ho; [|discriminate].
  destruct o as [n1|].
  2:{ inversion H; subst. split; [exact Hwf|]. cbn. lia. }
  destruct Ho as (h & r1 & -> & <- & _ & _). rewrite app_length. cbn [length].
  minvas H as r w1 H1. apply (seg_upd_small _ _ _ _ _ _ Hwf) in H1 as (Hwf1 & N1 & _ & S1).
  rewrite Nat2N.id in S1. destruct S1 as [S1 S1'].
  destruct (negb _).
  { inversion H; subst. split; [exact Hwf1|]. cbn [sg_header sg_payload sg_signature seg0 s_ptr s_len memory] in *. lia. }
  replace (skipn (S (length h)) (h ++ x2e :: r1)) with r1 in H
    by (rewrite skipn_app, skipn_all2 by lia; replace (S (length h) - length h)%nat with 1%nat by lia; reflexivity).
  minvas H as o w2 H1. apply lift_inv in H1 as [Ho ->]. apply strchr_inv in Ho; [|discriminate].
  destruct (_ && _).
  { inversion H; subst. split; [exact Hwf1|]. cbn [sg_header sg_payload sg_signature seg0 s_ptr s_len memory] in *. lia. }
  minvas H as r2 w2 H1. apply (seg_upd_small _ _ _ _ _ _ Hwf1) in H1 as (Hwf2 & N2 & L2 & S2). destruct S2 as [S2 S2'].
  destruct (negb _).
  { inversion H; subst. split; [exact Hwf2|]. cbn [sg_header sg_payload sg_signature seg0 s_ptr s_len memory] in *. lia. }
  destruct o as [n2|].
  2:{ inversion H; subst. split; [exact Hwf2|]. cbn [sg_header sg_payload sg_signature seg0 s_ptr s_len memory] in *. lia. }
  destruct Ho as (pl & rest & -> & <- & _ & _). rewrite Nat2N.id in *.
  replace (skipn (S (length pl)) (pl ++ x2e :: rest)) with rest in H
    by (rewrite skipn_app, skipn_all2 by lia; replace (S (length pl) - length pl)%nat with 1%nat by lia; reflexivity).
  minvas H as r3 w3 H1. apply (seg_upd_small _ _ _ _ _ _ Hwf2) in H1 as (Hwf3 & N3 & L3 & S3). destruct S3 as [S3 S3'].
  rewrite app_length in *. cbn [length] in *.
  assert (R : wf w3 /\ rc = rc /\ (w_next w3 <= w_next w + 3)%nat) by (split; [exact Hwf3|split; [reflexivity|lia]]).
  destruct (negb _); inversion H; subst; cbn [sg_header sg_payload sg_signature]; (split; [exact Hwf3|]); lia.
Qed.

Lemma verify_next p e dp res q n w rc res' w' :
  l8w8jwt_verify_signature p e dp res q n w = Ret (rc, res') w' -> (w_next w' <= S (w_next w))%nat.
Proof.
  intros H. unfold l8w8jwt_verify_signature in H. destruct (_ || _ || _); [inversion H; subst; lia|].
  cbv zeta in H. destruct (p_small_stack p).
  - minvas H as k w1 H1. rewrite calloc_eq in H1.
    assert (N1 : w_next w1 = S (w_next w)) by (destruct (w_alloc w (w_next w)); inversion H1; reflexivity).
    minvas H as v w2 H2. assert (w2 = w1).
    { destruct (is_null k); [inversion H2; reflexivity|]. minvas H2 as s w3 H3. apply lift_inv in H3 as [_ ->].
      apply lift_inv in H2 as [_ ->]. reflexivity. }
    subst w2. minvas H as u w2 Hz.
    assert (N2 : w_next w2 = w_next w1).
    { destruct k as [|[id|] m]; cbn [zeroize] in Hz; [discriminate| |];
        repeat match type of Hz with context [if ?b then _ else _] => destruct b end; try discriminate; inversion Hz; reflexivity. }
    minvas H as u3 w3 Hf. apply free_next in Hf. inversion H; subst. lia.
  - minvas H as s w1 H1. apply lift_inv in H1 as [_ ->]. minvas H as v w1 H1. apply lift_inv in H1 as [_ ->].
    inversion H; subst. lia.
Qed.

Lemma zeroize_next q n w u w' : zeroize q n w = Ret u w' -> w' = w.
Proof.
  destruct q as [|[id|] m]; unfold zeroize; intros Hz;
    repeat match type of Hz with context [if ?b then _ else _] => destruct b end; try discriminate; inversion Hz; reflexivity.
Qed.
Lemma free_claims_next cs n w u w' : l8w8jwt_free_claims cs n w = Ret u w' -> w_next w' = w_next w.
Proof.
  destruct cs as [|blk l]; cbn [l8w8jwt_free_claims]; intros H; [inversion H; reflexivity|].
  minvas H as u1 w1 H1.
  assert (E : w_next w' = w_next w1).
  { destruct blk; [apply free_id_inv in H as [_ ->]; reflexivity|discriminate]. }
  rewrite E. clear E H. revert n w H1. induction l as [|c l IH]; intros n w H; cbn [free_each] in H.
  - destruct (n =? 0)%N; [inversion H; reflexivity|discriminate].
  - destruct (n =? 0)%N; [inversion H; reflexivity|].
    minvas H as a1 v1 E1. apply zeroize_next in E1. minvas H as a2 v2 E2. apply zeroize_next in E2.
    minvas H as a3 v3 E3. apply free_next in E3. minvas H as a4 v4 E4. apply free_next in E4.
    apply IH in H. subst. congruence.
Qed.
Lemma free_buffer_next p b w u w' : free_claims_buffer p b w = Ret u w' -> w_next w' = w_next w.
Proof.
  destruct b; cbn [free_claims_buffer]; [apply free_claims_next|].
  destruct (p_cb_init_clears p); [|discriminate]. intros H. inversion H. reflexivity.
Qed.

Lemma decode_body_memory p e dp c w st w' : uses_jsmn e ->
  wf w -> decode_body p e dp c w = Ret st w' ->
  exists new, cb_elems (ds_claims st) = cb_elems c ++ new
    /\ (claims_memory new <= 2 * memory (dp_jwt dp) + 9)%nat
    /\ (2 * length new <= memory (dp_jwt dp) + 4)%nat
    /\ (w_next w' <= w_next w + memory (dp_jwt dp) + 8)%nat
    /\ (4 * (memory (s_ptr (sg_header (ds_segs st))) + memory (s_ptr (sg_payload (ds_segs st)))
             + memory (s_ptr (sg_signature (ds_segs st)))) <= 3 * memory (dp_jwt dp) + 192)%nat.
Proof.
  intros Hj Hwf H. unfold decode_body in H.
  minvas H as [r sg] w1 H1. apply decode_segments_memory in H1 as (W1 & N1 & M1 & L1); [|exact Hwf].
  assert (End : forall rc res cl new wz, mret (DecState rc sg cl res) wz = Ret st w' ->
    cb_elems cl = cb_elems c ++ new -> (claims_memory new <= 2 * memory (dp_jwt dp) + 9)%nat ->
    (2 * length new <= memory (dp_jwt dp) + 4)%nat ->
    (w_next wz <= w_next w + memory (dp_jwt dp) + 8)%nat ->
    exists new, cb_elems (ds_claims st) = cb_elems c ++ new
    /\ (claims_memory new <= 2 * memory (dp_jwt dp) + 9)%nat
    /\ (2 * length new <= memory (dp_jwt dp) + 4)%nat
    /\ (w_next w' <= w_next w + memory (dp_jwt dp) + 8)%nat
    /\ (4 * (memory (s_ptr (sg_header (ds_segs st))) + memory (s_ptr (sg_payload (ds_segs st)))
             + memory (s_ptr (sg_signature (ds_segs st)))) <= 3 * memory (dp_jwt dp) + 192)%nat).
  { intros rc res cl new wz E A B B' C. inversion E; subst. exists new. cbn [ds_claims ds_segs]. auto. }
  destruct (negb _); [apply (End _ _ _ [] _ H); [symmetry; apply app_nil_r|cbn; lia|cbn; lia|lia]|].
  minvas H as [r2 res] w2 H2. pose proof (verify_next _ _ _ _ _ _ _ _ _ _ H2) as N2.
  apply verify_signature_inv in H2 as [Q _]; [|exact W1]. assert (W2 : wf w2) by (eapply wf_quiet; eauto).
  destruct (negb _); [apply (End _ _ _ [] _ H); [symmetry; apply app_nil_r|cbn; lia|cbn; lia|lia]|].
  minvas H as [r3 c1] w3 H3. pose proof H3 as H3'.
  apply parse_claims_memory in H3 as (new1 & E1 & B1 & C1 & N3); [|exact Hj|exact W2].
  apply parse_claims_inv in H3' as (? & ? & ? & ? & _ & _ & (_ & _ & _ & A3) & _); [|exact W2].
  assert (W3 : wf w3) by (eapply adds_wf; eauto).
  destruct (negb _); [apply (End _ _ _ new1 _ H); [exact E1|lia|lia|lia]|].
  minvas H as [r4 c2] w4 H4. apply parse_claims_memory in H4 as (new2 & E2 & B2 & C2 & N4); [|exact Hj|exact W3].
  assert (E : cb_elems c2 = cb_elems c ++ (new1 ++ new2)) by (rewrite E2, E1, app_assoc; reflexivity).
  destruct (negb _); [apply (End _ _ _ _ _ H E); [rewrite claims_memory_app; lia|rewrite app_length; lia|lia]|].
  minvas H as res2 w5 H5. apply lift_inv in H5 as [_ ->].
  apply (End _ _ _ _ _ H E); [rewrite claims_memory_app; lia|rewrite app_length; lia|lia].
Qed.

(** ** C65 *)
(** Whatever the token (also if it is no token at all), the key, the requested checks, the build,
    the crypto backend and the outcomes of allocations, l8w8jwt_decode
    - hands out claims whose names and values take at most twice the memory of the token's text,
      plus 9 bytes;
    - hands out at most half as many claims as the text has bytes, plus 2;
    - calls malloc or calloc at most as often as the text has bytes, plus 9. *)
Theorem C65_decode_memory : forall p e dp vn cn ln w r w', uses_jsmn e -> wf w ->
  l8w8jwt_decode p e (Some dp) vn cn ln w = Ret r w' ->
  (forall b cs n, dr_claims r = Some (CArr b cs, n) -> (claims_memory cs <= 2 * memory (dp_jwt dp) + 9)%nat
     /\ (2 * length cs <= memory (dp_jwt dp) + 4)%nat)
  /\ (allocations w w' <= memory (dp_jwt dp) + 9)%nat.
Proof.
  intros p e dp vn cn ln w r w' Hj Hwf H. unfold allocations. unfold l8w8jwt_decode in H.
  assert (Z0 : forall rc v w0, (w_next w0 <= S (w_next w))%nat -> mret (DecRes rc v None) w0 = Ret r w' ->
    (forall b cs n, dr_claims r = Some (CArr b cs, n) -> (claims_memory cs <= 2 * memory (dp_jwt dp) + 9)%nat
     /\ (2 * length cs <= memory (dp_jwt dp) + 4)%nat)
    /\ (w_next w' - w_next w <= memory (dp_jwt dp) + 9)%nat).
  { intros rc v w0 A E. inversion E; subst. split; [discriminate|lia]. }
  destruct (cn && negb ln) eqn:Ecn; [apply (Z0 _ _ w ltac:(lia) H)|].
  destruct (negb (l8w8jwt_validate_decoding_params p (Some dp) =? L8W8JWT_SUCCESS)%Z); [apply (Z0 _ _ w ltac:(lia) H)|].
  destruct vn; cbn [negb] in H; [|apply (Z0 _ _ w ltac:(lia) H)].
  minvas H as o w1 H1. apply cb_init_inv in H1 as [(-> & Ha & ->)|(-> & Ha & ->)].
  2:{ minvas H as u w1 H1. apply free_buffer_next in H1. cbn [w_no w_next] in H1. apply (Z0 _ _ w1 ltac:(lia) H). }
  minvas H as st w1 H1. apply decode_body_memory in H1 as (new & E & B & C & N1 & _); [|exact Hj|apply wf_ok; exact Hwf].
  cbn [cb_elems app w_ok w_next] in E, N1.
  minvas H as u2 w2 H2. apply free_next in H2. minvas H as u3 w3 H3. apply free_next in H3.
  minvas H as u4 w4 H4. apply free_next in H4. minvas H as u5 w5 H5.
  assert (N5 : w_next w5 = w_next w4).
  { destruct (negb cn || _); [eapply free_buffer_next; eauto|inversion H5; reflexivity]. }
  unfold mret in H; injection H as <- <-. split; [|lia]. cbn [dr_claims]. intros b cs n Hc.
  destruct (_ && _ && _); [|discriminate]. inversion Hc; subst. split; [exact B|exact C].
Qed.
Print Assumptions C65_decode_memory.

(** The token array allocated for large segments has at most as many elements as the segment has
    bytes. *)
Theorem C65_token_array : forall js, (fst (jsmn_parse js None) <= Z.of_nat (length js))%Z.
Proof. intros js. apply jsmn_at_most. Qed.
Print Assumptions C65_token_array.

(** Non-vacuous: a payload that jsmn accepts although it is not JSON, with nested arrays. The nested
    values are not counted again. *)
Definition odd_payload : string := "{""a"" [[1 2] [3 [4 5]]] ""b"" {""c"" ""d""}}"%string.
Example C65_example :
  let dp := dp_plain (signed plain_header odd_payload) 0 (zstr "secret") 6 in
  uses_jsmn toy_num /\ wf we
  /\ match l8w8jwt_decode pe toy_num (Some dp) true true true we with
     | Ret r w' => dr_rc r = L8W8JWT_SUCCESS /\ allocations we w' = 12%nat
         /\ exists b cs n, dr_claims r = Some (CArr b cs, n) /\ length cs = 4%nat /\ claims_memory cs = 50%nat
            /\ memory (dp_jwt dp) = 132%nat
     | Undef _ => False
     end.
Proof.
  cbv zeta. split; [intros js cap; reflexivity|]. split; [apply we_wf|]. vm_compute.
  split; [reflexivity|]. split; [reflexivity|]. do 3 eexists. split; [reflexivity|]. auto.
Qed.

Lemma give_or_free_next nn s w o w' : give_or_free nn s w = Ret o w' ->
  w_next w' = w_next w /\ (segment_memory o <= memory (s_ptr s))%nat.
Proof.
  unfold give_or_free. destruct nn; intros H; [inversion H; subst; split; [reflexivity|apply le_n]|].
  minvas H as u w1 H1. apply free_next in H1. inversion H; subst. split; [exact H1|apply Nat.le_0_l].
Qed.

(** The other two decoding functions: the decoded segments they hand out together take at most
    3/4 of the memory of the token's text, plus 16 bytes each. *)
Theorem C65_decode_raw_memory : forall p e dp vn hn hl pn pl sn sl w r w', uses_jsmn e -> wf w ->
  l8w8jwt_decode_raw p e (Some dp) vn hn hl pn pl sn sl w = Ret r w' ->
  (4 * (segment_memory (rr_header r) + segment_memory (rr_payload r) + segment_memory (rr_signature r))
   <= 3 * memory (dp_jwt dp) + 192)%nat
  /\ (allocations w w' <= memory (dp_jwt dp) + 9)%nat.
Proof.
  intros p e dp vn hn hl pn pl sn sl w r w' Hj Hwf H. unfold allocations. unfold l8w8jwt_decode_raw in H.
  destruct (_ || _ || _ || _); [inversion H; subst; cbn; lia|]. cbv zeta in H.
  destruct (negb _); [unfold mret in H; injection H as <- <-; cbn; lia|].
  minvas H as o w1 H1.
  assert (W1 : (w_next w1 <= S (w_next w))%nat /\ wf w1).
  { apply cb_init_inv in H1 as [(_ & _ & ->)|(_ & _ & ->)]; (split; [cbn; lia|]); auto using wf_ok, wf_no. }
  destruct W1 as [N1 W1]. clear H1.
  minvas H as [[[rc sg] res] b] w2 H2.
  assert (B2 : (w_next w2 <= w_next w + memory (dp_jwt dp) + 9)%nat
    /\ (4 * (memory (s_ptr (sg_header sg)) + memory (s_ptr (sg_payload sg)) + memory (s_ptr (sg_signature sg)))
        <= 3 * memory (dp_jwt dp) + 192)%nat).
  { destruct o as [claims|].
    - minvas H2 as st w3 H3. rewrite decode_raw_body_eq in H3.
      apply decode_body_memory in H3 as (new & _ & _ & _ & N3 & M3); [|exact Hj|exact W1].
      inversion H2; subst. split; [lia|exact M3].
    - inversion H2; subst. cbn. lia. }
  destruct B2 as [N2 M2].
  minvas H as h w3 H3. apply give_or_free_next in H3 as [E3 M3].
  minvas H as q w4 H4. apply give_or_free_next in H4 as [E4 M4].
  minvas H as s w5 H5. apply give_or_free_next in H5 as [E5 M5].
  minvas H as u w6 H6. apply free_buffer_next in H6.
  unfold mret in H; injection H as <- <-. cbn [rr_header rr_payload rr_signature]. lia.
Qed.
Print Assumptions C65_decode_raw_memory.

Theorem C65_no_validation_memory : forall p dp hn hl pn pl sn sl w r w', wf w ->
  l8w8jwt_decode_raw_no_validation p (Some dp) hn hl pn pl sn sl w = Ret r w' ->
  (4 * (segment_memory (rr_header r) + segment_memory (rr_payload r) + segment_memory (rr_signature r))
   <= 3 * memory (dp_jwt dp) + 192)%nat
  /\ (allocations w w' <= 3)%nat.
Proof.
  intros p dp hn hl pn pl sn sl w r w' Hwf H. unfold allocations. unfold l8w8jwt_decode_raw_no_validation in H.
  destruct (_ || _ || _ || _); [inversion H; subst; cbn; lia|]. cbv zeta in H.
  destruct (negb _); [unfold mret in H; injection H as <- <-; cbn; lia|].
  minvas H as [rc sg] w2 H2. apply decode_segments_memory in H2 as (_ & N2 & M2 & _); [|exact Hwf].
  minvas H as h w3 H3. apply give_or_free_next in H3 as [E3 M3].
  minvas H as q w4 H4. apply give_or_free_next in H4 as [E4 M4].
  minvas H as s w5 H5. apply give_or_free_next in H5 as [E5 M5].
  unfold mret in H; injection H as <- <-. cbn [rr_header rr_payload rr_signature]. lia.
Qed.
Print Assumptions C65_no_validation_memory.
