(** * Definedness of encoding: no undefined behaviour under stated preconditions *)
From Verif Require Import Base BaseProofs HeapProofs Util UtilProofs Claim Base64 SpecB64
  Base64EncApi Base64Api UnescapeProofs Jsmn Env Encode SpecJson SpecJwa ClaimProofs EncodeProofs
  SignProofs.
From Coq Require Import ZifyBool ZifyNat ZifyN.
Ltac Zify.zify_post_hook ::= Z.div_mod_to_equations.

(** [sized p cs n]: the claims [cs] can be read (those with a key: key and value readable, and
    characters escape_table can be indexed with), and [n] bounds their size: one more than the
    bytes of key and value, summed. *)
Inductive sized (p : platform) : list claim -> N -> Prop :=
| Sized_nil : sized p [] 0
| Sized_skip c cs n : c_key c = Null -> sized p cs n -> sized p (c :: cs) n
| Sized_cons c cs n k v :
    given (c_key c) (c_key_length c) k -> given (c_value c) (c_value_length c) v ->
    Forall (plain p) k -> (c_type c = L8W8JWT_CLAIM_TYPE_STRING -> Forall (plain p) v) ->
    sized p cs n -> sized p (c :: cs) (N.of_nat (length k + length v) + 1 + n).

Lemma sized_readable p cs n : sized p cs n -> Forall (readable p) cs.
Proof.
  induction 1; constructor; auto; [left; auto|]. right. exists k, v.
  repeat split; auto. intros E. apply H2. unfold is_str in E. lia.
Qed.

Lemma cb_push_len A (b : chillbuff A) e w b' w' :
  cb_push b e w = Ret b' w' -> (length (cb_elems b') <= length (cb_elems b) + length e)%nat.
Proof.
  intros H. apply cb_push_inv in H as (_ & _ & [->| ->] & _); [lia|]. rewrite app_length. lia.
Qed.
Lemma esc_len c : (length (esc c) <= 6)%nat.
Proof.
  assert (H : forall c, (length (esc c) <=? 6)%nat = true).
  { apply (sweep1 (fun c => (length (esc c) <=? 6)%nat)). vm_compute. reflexivity. }
  specialize (H c). lia.
Qed.
Lemma escape_each_len p s : forall sb w sb' w',
  escape_each p sb s w = Ret sb' w' ->
  (length (cb_elems sb') <= length (cb_elems sb) + 6 * length s)%nat.
Proof.
  induction s as [|c s IH]; intros sb w sb' w' H.
  - inversion H; subst. lia.
  - cbn [escape_each] in H. minvas H as e ? Hm. apply lift_inv in Hm as [He ->].
    apply escape_lookup_inv in He as [_ ->]. minvas H as b ? Hm. apply cb_push_len in Hm.
    apply IH in H. pose proof (esc_len c) as Hc. 
    match type of Hm with (_ <= _ + length ?x)%nat => change x with (esc c) in Hm end.
    cbn [length]. lia.
Qed.
Lemma escape_string_len p sb q k w sb' w' :
  l8w8jwt_escape_claim_string p sb q k w = Ret sb' w' ->
  (length (cb_elems sb') <= length (cb_elems sb) + 6 * N.to_nat k)%nat.
Proof.
  unfold l8w8jwt_escape_claim_string. destruct (N.eqb_spec k 0) as [->|Hk]; intros H.
  - inversion H; subst. lia.
  - minvas H as m ? Hm. apply lift_inv in Hm as [Hd ->]. minvas H as s ? Hm.
    apply lift_inv in Hm as [Ht ->]. apply take_inv in Ht as [Ht ->].
    apply escape_each_len in H. rewrite firstn_length in H. lia.
Qed.
Lemma write_each_len p : forall cs tot sb eb n first w sb' w',
  write_each p sb eb cs n first w = Ret sb' w' ->
  sized p (firstn (N.to_nat n) cs) tot ->
  (N.of_nat (length (cb_elems sb')) <= N.of_nat (length (cb_elems sb)) + 6 * tot)%N.
Proof.
  induction cs as [|c cs IH]; intros tot sb eb n first w sb' w' H Hs.
  - cbn [write_each] in H. destruct (n =? 0)%N; inversion H; subst. lia.
  - cbn [write_each] in H. destruct (N.eqb_spec n 0) as [->|Hn]; [inversion H; subst; lia|].
    replace (N.to_nat n) with (S (N.to_nat (n - 1))) in Hs by lia. cbn [firstn] in Hs.
    inversion Hs as [|? ? ? Hk Hs'|? ? ? k v Hk Hv _ _ Hs']; subst.
    + rewrite Hk in H. cbn [is_null] in H. eapply IH; eauto.
    + assert (Hnn : is_null (c_key c) = false) by (destruct (c_key c); [contradiction|reflexivity]).
      rewrite Hnn in H. minvas H as b0 w0 Hm.
      assert (L0 : (length (cb_elems b0) <= length (cb_elems sb) + 1)%nat).
      { destruct first; [inversion Hm; subst; lia|]. apply cb_push_len in Hm. simpl in Hm. lia. }
      clear Hm.
      minvas H as kl ? Hm. apply lift_inv in Hm as [Hkl ->]. rewrite (given_len _ _ _ Hk) in Hkl.
      injection Hkl as <-.
      minvas H as vl ? Hm. apply lift_inv in Hm as [Hvl ->]. rewrite (given_len _ _ _ Hv) in Hvl.
      injection Hvl as <-.
      minvas H as e1 w1 Hm. apply escape_string_len in Hm. cbn [cb_clear cb_elems length] in Hm.
      rename Hm into L1.
      minvas H as b1 ? Hm. apply cb_push_len in Hm. rename Hm into L2.
      minvas H as b2 ? Hm. apply cb_push_len in Hm. rename Hm into L3.
      minvas H as b3 ? Hm. apply cb_push_len in Hm. rename Hm into L4. 
      minvas H as [b4 e4] w5 Hm.
      assert (L5 : (length (cb_elems b4) <= length (cb_elems b3) + 2 + 6 * length v)%nat).
      { destruct (c_type c =? L8W8JWT_CLAIM_TYPE_STRING)%Z.
        - minvas Hm as d0 ? Hx. apply cb_push_len in Hx. rename Hx into K1.
          minvas Hm as d1 ? Hx. apply escape_string_len in Hx. cbn [cb_clear cb_elems length] in Hx. rename Hx into K2.
          minvas Hm as d2 ? Hx. apply cb_push_len in Hx. rename Hx into K3.
          minvas Hm as d3 ? Hx. apply cb_push_len in Hx. inversion Hm; subst.
          rewrite Nat2N.id in K2. simpl in K1, Hx. lia.
        - destruct (N.of_nat (length v) =? 0)%N; [inversion Hm; subst; lia|].
          minvas Hm as d0 ? Hx. apply lift_inv in Hx as [_ ->].
          minvas Hm as d1 ? Hx. apply lift_inv in Hx as [Ht ->].
          apply take_inv in Ht as [Ht ->].
          minvas Hm as d2 ? Hx. apply cb_push_len in Hx. inversion Hm; subst.
          rewrite firstn_length in Hx. lia. }
      apply (IH n0) in H; [|exact Hs'].
      rewrite Nat2N.id in L1. change (length (lit """")) with 1%nat in *.
      change (length (lit """:")) with 2%nat in *. lia.
Qed.
Lemma write_claims_len p sb claims n w rc sb' w' tot :
  l8w8jwt_write_claims p sb claims n w = Ret (rc, sb') w' ->
  (forall b cs, claims = CArr b cs -> sized p (firstn (N.to_nat n) cs) tot) ->
  (N.of_nat (length (cb_elems sb')) <= N.of_nat (length (cb_elems sb)) + 6 * tot)%N.
Proof.
  intros H Hs. unfold l8w8jwt_write_claims in H. destruct claims as [|b cs].
  - inversion H; subst. lia.
  - destruct (n =? 0)%N; [inversion H; subst; lia|].
    minvas H as o w1 Hm. destruct o as [eb|]; [|inversion H; subst; lia].
    minvas H as s1 w2 Hw. minvas H as u w3 Hf. inversion H; subst.
    eapply write_each_len; eauto.
Qed.

(** ** Claims parameters *)
(** The first [n] claims are readable and of total size at most [tot]. *)
Definition claims_ok (p : platform) (claims : cptr) (n : N) (tot : N) : Prop :=
  match claims with
  | CNull => True
  | CArr _ cs => (n <= N.of_nat (length cs))%N
      /\ exists t, sized p (firstn (N.to_nat n) cs) t /\ (t <= tot)%N
  end.
(** A registered claim: absent, or a readable string of at most [tot] bytes. *)
Definition string_ok (p : platform) (q : ptr) (n : N) (tot : N) : Prop :=
  q = Null \/ exists s, given q n s /\ Forall (plain p) s /\ (N.of_nat (length s) <= tot)%N.

(** 2^25 bytes: the base64 text then stays below INT_MAX. *)
Definition LIMIT : N := 33554432.
Definition enc_readable (p : platform) (ep : enc_params) : Prop :=
  claims_ok p (ep_header_claims ep) (ep_header_claims_count ep) LIMIT
  /\ claims_ok p (ep_payload_claims ep) (ep_payload_claims_count ep) LIMIT
  /\ string_ok p (ep_sub ep) (ep_sub_length ep) LIMIT
  /\ string_ok p (ep_iss ep) (ep_iss_length ep) LIMIT
  /\ string_ok p (ep_aud ep) (ep_aud_length ep) LIMIT
  /\ string_ok p (ep_jti ep) (ep_jti_length ep) LIMIT.

Lemma digit_plain p s : Forall digit s -> Forall (plain p) s.
Proof.
  intros H. eapply Forall_impl; [|exact H]. intros c Hc _. apply digit_facts in Hc. lia.
Qed.
Lemma sized_time p c name t cs n :
  length name = 3%nat -> Forall (plain p) name -> time_fact c name t -> sized p cs n ->
  exists m, sized p (c :: cs) m /\ (m <= n + 24)%N.
Proof.
  intros Hl Hp (Hty & [(_ & Hk)|(_ & Hk & Hv)]) Hs.
  - exists n. split; [constructor; auto|lia].
  - pose proof (print_u64_digits (to_u64 t)) as [Hd Hd'].
    eexists. split; [eapply Sized_cons; eauto|lia].
    intros E. rewrite Hty in E. discriminate.
Qed.
Lemma sized_str p c name q k cs n tot :
  length name = 3%nat -> Forall (plain p) name -> str_fact c name q k -> string_ok p q k tot ->
  sized p cs n -> exists m, sized p (c :: cs) m /\ (m <= n + 4 + tot)%N.
Proof.
  intros Hl Hp (Hty & [(_ & Hk)|(Hq & Hk & Hv & Hvl)]) Hok Hs.
  - exists n. split; [constructor; auto|lia].
  - destruct Hok as [->|(s & Hg & Hps & Hle)]; [contradiction|].
    eexists. split; [eapply Sized_cons; eauto|lia]. rewrite Hv, Hvl. exact Hg.
Qed.
Lemma plain_name p s : forallb (fun c => (b2n c <? 128)%N) s = true -> Forall (plain p) s.
Proof.
  intros H. apply Forall_forall. intros c Hc _. rewrite forallb_forall in H. apply H in Hc. lia.
Qed.
Lemma registered_sized p ep tbuf :
  iatnbfexp ep = OK tbuf -> enc_readable p ep ->
  exists tot, sized p (firstn (N.to_nat 7) (registered_claims ep tbuf)) tot
    /\ (tot <= 88 + 4 * LIMIT)%N.
Proof.
  intros H (_ & _ & H4 & H5 & H6 & H7).
  destruct (registered_facts _ _ H) as (c1 & c2 & c3 & c4 & c5 & c6 & c7 & -> & F1 & F2 & F3 & F4 & F5 & F6 & F7).
  change (firstn (N.to_nat 7) [c1; c2; c3; c4; c5; c6; c7]) with [c1; c2; c3; c4; c5; c6; c7].
  assert (P : forall s, forallb (fun c => (b2n c <? 128)%N) (lit s) = true -> Forall (plain p) (lit s))
    by (intros; apply plain_name; auto).
  edestruct (sized_str p c7) as (m7 & S7 & L7); [| |exact F7|exact H7|apply Sized_nil|]; [reflexivity|apply P; reflexivity|].
  edestruct (sized_str p c6) as (m6 & S6 & L6); [| |exact F6|exact H6|exact S7|]; [reflexivity|apply P; reflexivity|].
  edestruct (sized_str p c5) as (m5 & S5 & L5); [| |exact F5|exact H5|exact S6|]; [reflexivity|apply P; reflexivity|].
  edestruct (sized_str p c4) as (m4 & S4 & L4); [| |exact F4|exact H4|exact S5|]; [reflexivity|apply P; reflexivity|].
  edestruct (sized_time p c3) as (m3 & S3 & L3); [| |exact F3|exact S4|]; [reflexivity|apply P; reflexivity|].
  edestruct (sized_time p c2) as (m2 & S2 & L2); [| |exact F2|exact S3|]; [reflexivity|apply P; reflexivity|].
  edestruct (sized_time p c1) as (m1 & S1 & L1); [| |exact F1|exact S2|]; [reflexivity|apply P; reflexivity|].
  exists m1. split; [exact S1|]. lia.
Qed.

Lemma header_prefix_len alg h : header_prefix alg = Some h -> (length h <= 56)%nat.
Proof.
  intros H. destruct (header_prefix_inv _ _ H) as (j & Hj & _). apply supported_range in Hj.
  revert H. pattern alg. apply range_cases; auto; intros H; inversion H; subst; simpl; lia.
Qed.

(** Any claims array that is readable can be written, with the size bound. *)
Lemma claims_total p sb claims n w tot :
  wf w -> claims_ok p claims n tot ->
  exists rc sb' w', l8w8jwt_write_claims p sb claims n w = Ret (rc, sb') w' /\ quiet w w'
    /\ cb_id sb' = cb_id sb
    /\ (N.of_nat (length (cb_elems sb')) <= N.of_nat (length (cb_elems sb)) + 6 * tot)%N.
Proof.
  intros Hwf Hok.
  assert (H : exists rc sb' w', l8w8jwt_write_claims p sb claims n w = Ret (rc, sb') w').
  { destruct claims as [|b cs]; [do 3 eexists; reflexivity|]. destruct Hok as [Hn (t & Hs & Ht)].
    destruct (write_claims_total p sb b cs n w Hn (sized_readable _ _ _ Hs) Hwf) as ((rc & sb') & w' & H).
    eauto. }
  destruct H as (rc & sb' & w' & H). exists rc, sb', w'. split; [exact H|].
  pose proof H as H'. apply write_claims_inv in H' as (Q & Hid & _); auto.
  split; [exact Q|]. split; [exact Hid|].
  assert (K : exists t, (t <= tot)%N /\ forall b cs, claims = CArr b cs -> sized p (firstn (N.to_nat n) cs) t).
  { destruct claims as [|b cs].
    - exists 0%N. split; [lia|]. discriminate.
    - destruct Hok as (_ & t & Ht & Hle). exists t. split; [exact Hle|]. intros b' cs' E.
      inversion E; subst. exact Ht. }
  destruct K as (t & Ht & K). pose proof (write_claims_len _ _ _ _ _ _ _ _ _ H K). lia.
Qed.
Lemma opt_claims_total p buff claims n (sep : bool) w tot :
  wf w -> claims_ok p claims n tot ->
  exists buff' w',
  (if (0 <? n)%N
   then (buff <- (if sep then cb_push buff (lit ",") else mret buff) ;;
         r <- l8w8jwt_write_claims p buff claims n ;; mret (snd r))
   else mret buff) w = Ret buff' w' /\ quiet w w' /\ cb_id buff' = cb_id buff
   /\ (N.of_nat (length (cb_elems buff')) <= N.of_nat (length (cb_elems buff)) + 1 + 6 * tot)%N.
Proof.
  intros Hwf Hok. destruct (0 <? n)%N.
  2:{ exists buff, w. split; [reflexivity|]. split; [apply quiet_refl|]. split; [reflexivity|lia]. }
  assert (H : exists b1 w1, (if sep then cb_push buff (lit ",") else mret buff) w = Ret b1 w1
     /\ quiet w w1 /\ cb_id b1 = cb_id buff
     /\ (length (cb_elems b1) <= length (cb_elems buff) + 1)%nat).
  { destruct sep.
    - destruct (cb_push_total _ buff (lit ",") w) as (b & Hb). exists b, (w_push w).
      split; [exact Hb|]. split; [apply quiet_push|]. pose proof Hb as Hb'.
      apply cb_push_inv in Hb as (_ & Hid & _). split; [exact Hid|]. apply cb_push_len in Hb'.
      exact Hb'.
    - exists buff, w. split; [reflexivity|]. split; [apply quiet_refl|]. split; [reflexivity|lia]. }
  destruct H as (b1 & w1 & H & Q1 & Hid1 & L1). unfold mbind at 1. rewrite H.
  destruct (claims_total p b1 claims n w1 tot (wf_quiet _ _ Q1 Hwf) Hok) as (rc & b2 & w2 & H2 & Q2 & Hid2 & L2).
  unfold mbind at 1. rewrite H2. exists b2, w2. split; [reflexivity|].
  split; [eapply quiet_trans; eauto|]. split; [congruence|]. lia.
Qed.

Ltac mstep H := unfold mbind at 1; rewrite H; cbn beta iota.
Lemma push_step A (b : chillbuff A) e w :
  exists b', cb_push b e w = Ret b' (w_push w) /\ cb_id b' = cb_id b
    /\ (length (cb_elems b') <= length (cb_elems b) + length e)%nat.
Proof.
  destruct (cb_push_total _ b e w) as (b' & H). exists b'. split; [exact H|].
  pose proof H as H'. apply cb_push_inv in H as (_ & Hid & _). apply cb_push_len in H'. auto.
Qed.
Lemma quiet_live w w' i : quiet w w' -> w_live w i = true -> w_live w' i = true.
Proof. intros [_ H] E. rewrite H. exact E. Qed.

Lemma whp_total p sb ep w :
  (6 <= p_size_bits p)%N -> wf w -> enc_readable p ep ->
  exists r w', write_header_and_payload p sb ep w = Ret r w'.
Proof.
  intros Hp Hwf Hr. unfold write_header_and_payload.
  unfold mbind at 1. rewrite cb_init_eq. destruct (w_alloc w (w_next w)).
  2:{ do 2 eexists. reflexivity. }
  set (w0 := w_ok w). assert (W0 : wf w0) by (apply wf_ok; auto).
  assert (Hlive : w_live w0 (w_next w) = true) by (unfold w0; cbn; apply upd_live_same).
  assert (Hfree : forall w1 A (k : M A), quiet w0 w1 ->
            (forall w2, exists r w', k w2 = Ret r w') ->
            exists r w', (_ <- free_id (w_next w) ;; k) w1 = Ret r w').
  { intros w1 A k Q K. unfold mbind. rewrite free_id_eq by (eapply quiet_live; eauto). apply K. }
  assert (Hret : forall A (a : A) w2, exists r w', mret a w2 = Ret r w') by (intros; do 2 eexists; reflexivity).
  destruct (header_prefix (ep_alg ep)) as [h|] eqn:Eh.
  2:{ apply Hfree; [apply quiet_refl|]. intros. apply Hret. }
  apply header_prefix_len in Eh.
  destruct Hr as (Hh & Hpl & Hrest).
  destruct (push_step _ (CB (w_next w) []) h w0) as (b1 & H & I1 & L1). mstep H. clear H.
  destruct (opt_claims_total p b1 (ep_header_claims ep) (ep_header_claims_count ep) true (w_push w0) LIMIT)
    as (b2 & w2 & H & Q2 & I2 & L2); [apply wf_push; auto|auto|].
  cbn iota in H. mstep H. clear H.
  destruct (push_step _ b2 (lit "}") w2) as (b3 & H & I3 & L3). mstep H. clear H.
  assert (Q3 : quiet w0 (w_push w2)).
  { eapply quiet_trans; [apply quiet_push|]. eapply quiet_trans; [exact Q2|apply quiet_push]. }
  assert (W3 : wf (w_push w2)) by (eapply wf_quiet; eauto).
  set (w3 := w_push w2) in *. clearbody w3.
  cbn [cb_elems length] in L1. change (length (lit "}")) with 1%nat in L3. cbn [cb_id] in I1.
  destruct (encode_seg_total p (Some (cb_id b3)) (cb_elems b3) (cb_len b3) w3 Hp)
    as (((r1 & seg1) & s1) & w4 & H); [unfold cb_len; lia|unfold cb_len, LIMIT, INT_MAX in *; lia|].
  unfold cb_ptr. mstep H. apply encode_seg_inv in H; auto.
  destruct H as [(Hr & -> & -> & Q4)|(-> & _ & _ & _ & _ & -> & (m1 & ->) & ->)].
  { destruct (Z.eqb_spec r1 L8W8JWT_SUCCESS) as [E|_]; [congruence|]. cbn [negb].
    unfold cb_free. replace (cb_id b3) with (w_next w) by congruence.
    apply Hfree; [eapply quiet_trans; eauto|]. intros. apply Hret. }
  cbn [negb Z.eqb L8W8JWT_SUCCESS].
  match goal with |- context [cb_push sb ?x] => destruct (push_step _ sb x (w_ok w3)) as (sb1 & H & _ & _) end.
  mstep H. clear H.
  cbn [free]. unfold mbind at 1. rewrite free_id_eq by (cbn; apply upd_live_same).
  set (w5 := w_free (w_push (w_ok w3)) (w_next w3)).
  assert (Q5 : quiet w0 w5).
  { eapply quiet_trans; [exact Q3|]. apply quiet_alloc_free; [exact W3|apply quiet_push]. }
  clearbody w5.
  pose proof (iatnbfexp_eq ep) as Htb.
  set (tbuf := field (dec_time (ep_iat ep)) 21 ++ field (dec_time (ep_nbf ep)) 21
                     ++ field (dec_time (ep_exp ep)) 21 ++ [x00]) in Htb.
  clearbody tbuf. unfold mbind at 1. rewrite Htb. cbn [lift].
  destruct (push_step _ (cb_clear b3) (lit "{") w5) as (b4 & H & I4 & L4). mstep H. clear H.
  assert (Q6 : quiet w0 (w_push w5)) by (eapply quiet_trans; [exact Q5|apply quiet_push]).
  assert (W6 : wf (w_push w5)) by (eapply wf_quiet; eauto).
  set (w6 := w_push w5) in *. clearbody w6.
  destruct (registered_sized p ep tbuf Htb) as (tot & St & Lt).
  { unfold enc_readable. tauto. }
  destruct (claims_total p b4 (CArr None (registered_claims ep tbuf)) 7 w6 tot W6)
    as (r5 & b5 & w7 & H & Q7 & I5 & L5).
  { split; [simpl; lia|]. exists tot. split; [exact St|lia]. }
  mstep H. clear H. cbn [snd].
  assert (Q7' : quiet w0 w7) by (eapply quiet_trans; eauto).
  match goal with |- context [if ?c then cb_push b5 (lit ",") else mret b5] =>
    destruct (opt_claims_total p b5 (ep_payload_claims ep) (ep_payload_claims_count ep) c w7 LIMIT)
      as (b6 & w8 & H & Q8 & I6 & L6); [eapply wf_quiet; eauto|auto|] end.
  mstep H. clear H.
  destruct (push_step _ b6 (lit "}") w8) as (b7 & H & I7 & L7). mstep H. clear H.
  assert (Q9 : quiet w0 (w_push w8)).
  { eapply quiet_trans; [exact Q7'|]. eapply quiet_trans; [exact Q8|apply quiet_push]. }
  assert (W9 : wf (w_push w8)) by (eapply wf_quiet; eauto).
  set (w9 := w_push w8) in *. clearbody w9.
  cbn [cb_clear cb_elems length cb_id] in L4, I4.
  change (length (lit "}")) with 1%nat in L7. change (length (lit "{")) with 1%nat in L4.
  destruct (encode_seg_total p (Some (cb_id b7)) (cb_elems b7) (cb_len b7) w9 Hp)
    as (((r2 & seg2) & s2) & w10 & H); [unfold cb_len; lia|unfold cb_len, LIMIT, INT_MAX in *; lia|].
  mstep H. apply encode_seg_inv in H; auto.
  assert (I : cb_id b7 = w_next w) by congruence.
  destruct H as [(Hr & -> & -> & Q10)|(-> & _ & _ & _ & _ & -> & (m2 & ->) & ->)].
  { destruct (Z.eqb_spec r2 L8W8JWT_SUCCESS) as [E|_]; [congruence|]. cbn [negb].
    unfold cb_free. rewrite I. apply Hfree; [eapply quiet_trans; eauto|]. intros. apply Hret. }
  cbn [negb Z.eqb L8W8JWT_SUCCESS].
  destruct (push_step _ sb1 (lit ".") (w_ok w9)) as (sb2 & H & _ & _). mstep H. clear H.
  match goal with |- context [cb_push sb2 ?x] =>
    destruct (push_step _ sb2 x (w_push (w_ok w9))) as (sb3 & H & _ & _) end.
  mstep H. clear H.
  cbn [free]. unfold mbind at 1. rewrite free_id_eq by (cbn; apply upd_live_same).
  unfold cb_free. rewrite I. apply Hfree; [|intros; apply Hret].
  eapply quiet_trans; [exact Q9|]. apply quiet_alloc_free; [exact W9|].
  eapply quiet_trans; apply quiet_push.
Qed.

(** ** Signing *)
(** What mbedtls guarantees about a parsed private key: only RSA contexts claim RSASSA_PSS, only
    EC contexts claim ECDSA, and an RSA modulus fits the 4096-byte signature buffer. *)
Definition lawful_keys (e : env) : Prop :=
  forall k pw n key, e_parse_key e k pw n = Some key ->
    (e_can_do e key PK_RSASSA_PSS = true ->
       e_pk_rsa e key = true /\ (e_rsa_len e key <= 4096)%N /\ (e_bitlen e key <= 32768)%N)
    /\ (e_can_do e key PK_ECDSA = true -> e_pk_ec e key = true).
(** The key is readable, of acceptable length, and there is room for its terminating NUL. *)
Definition key_ok (q : ptr) (n : N) : Prop :=
  (0 < n <= 8192)%N /\ exists k, caller_key q n k /\ (n < 8192 \/ is_nul (last k x01) = true)%N.
(** The caller's part of it: NULL, or a readable key that ends in a NUL if it is of the maximal length.
    It may be empty or too long. *)
Definition key_given (q : ptr) (n : N) : Prop :=
  q = Null \/ exists k, caller_key q n k /\ (n = 8192%N -> is_nul (last k x01) = true).
Lemma key_given_ok q n : key_given q n -> q <> Null -> (0 < n <= 8192)%N -> key_ok q n.
Proof.
  intros [H|(k & H & L)] Hq Hn; [contradiction|]. split; [exact Hn|]. exists k. split; [exact H|].
  destruct (N.eqb_spec n 8192); [right; auto|left; lia].
Qed.
Lemma key_ok_given q n : key_ok q n -> key_given q n.
Proof. intros (H & k & Hk & L). right. exists k. split; [exact Hk|]. intros E. destruct L; [lia|assumption]. Qed.

Lemma sign_switch_total p e ep key kl msg :
  key_ok (ep_secret_key ep) (ep_secret_key_length ep) -> lawful_keys e ->
  load_key (ep_secret_key ep) (ep_secret_key_length ep) = OK key ->
  adjust_key_length key (ep_secret_key_length ep) = OK kl ->
  exists r buf n, sign_switch p e ep key kl msg = OK (r, buf, n)
    /\ (r = L8W8JWT_SUCCESS -> n <= N.of_nat (length buf) <= 4096)%N.
Proof.
  intros (Hn & k & (b & m & Eq & Hm & Ek) & Hlast) Hlaw Hload Hadj.
  set (n := ep_secret_key_length ep) in *.
  assert (Hk : length k = N.to_nat n) by (rewrite Ek, firstn_length; lia).
  rewrite Eq, load_key_ok in Hload by lia. rewrite <- Ek in Hload.
  assert (Ekey : key = k ++ repeat x00 (N.to_nat (L8W8JWT_MAX_KEY_SIZE - n))) by congruence.
  clear Hload. subst key.
  destruct (adjust_key_eq k n Hk Hn) as (kl' & Ha & Ekl & Ht1 & Ht2).
  rewrite Ha in Hadj. assert (E0 : kl = kl') by congruence. subst kl. clear Hadj.
  assert (Hkl : (kl' <=? 8192)%N = true).
  { apply N.leb_le. rewrite Ekl. destruct (is_nul (last k x01)); [lia|].
    destruct Hlast; [lia|discriminate]. }
  rewrite Hkl in Ht2.
  assert (Hfail : forall z, z <> L8W8JWT_SUCCESS -> exists r buf n, OK (sig_fail z) = OK (r, buf, n)
    /\ (r = L8W8JWT_SUCCESS -> n <= N.of_nat (length buf) <= 4096)%N).
  { intros z Hz. do 3 eexists. split; [reflexivity|]. intros E. contradiction. }
  assert (Hgood : forall s len, (len <= 4096)%N ->
    exists r buf n, OK (L8W8JWT_SUCCESS, fit SIGBUF s, len) = OK (r, buf, n)
    /\ (r = L8W8JWT_SUCCESS -> n <= N.of_nat (length buf) <= 4096)%N).
  { intros s len Hl. do 3 eexists. split; [reflexivity|]. intros _. rewrite fit_length. unfold SIGBUF. lia. }
  destruct (Z_le_dec 0 (ep_alg ep)); [destruct (Z_le_dec (ep_alg ep) 13)|];
    try (rewrite sign_switch_none by lia; apply Hfail; discriminate).
  destruct (supported_exists (ep_alg ep)) as (j & Hj); [lia|].
  set (key := k ++ repeat x00 (N.to_nat (L8W8JWT_MAX_KEY_SIZE - n))) in *. clearbody key.
  assert (Hf : match j_family j with
               | HS => sign_switch p e ep = sign_hs e (ep_alg ep)
                       /\ md_info_from_alg (ep_alg ep) = Some (j_hash j)
                       /\ (Z.to_N (32 + 16 * ep_alg ep) <= 4096)%N
               | RS => sign_switch p e ep = sign_rs e ep /\ md_info_from_alg (ep_alg ep) = Some (j_hash j)
               | PS => sign_switch p e ep = sign_ps e ep /\ md_info_from_alg (ep_alg ep) = Some (j_hash j)
               | ES _ _ _ => sign_switch p e ep = sign_es e ep
               | ED => forall key kl, sign_switch p e ep key kl = sign_ed p e ep
               end).
  { unfold sign_switch. pose proof Hj as [Hin E]. rewrite <- E. simpl in Hin.
    decompose [or] Hin; try contradiction; subst j; simpl; repeat split; reflexivity || lia. }
  destruct (j_family j) as [| | |curve bits width|] eqn:Ef.
  - destruct Hf as (-> & Hmd & Hsz). unfold sign_hs. rewrite Hmd, Ht1. cbn [ubind].
    destruct (e_hmac _ _ _ _); [|apply Hfail; discriminate]. apply Hgood. exact Hsz.
  - destruct Hf as (-> & Hmd). unfold sign_rs. rewrite Hmd, Ht2. cbn [ubind].
    destruct (e_parse_key _ _ _ _) as [pk|]; [|apply Hfail; discriminate].
    destruct (negb _ && negb _); [apply Hfail; discriminate|].
    destruct (_ <? _)%N; [apply Hfail; discriminate|].
    destruct (e_md _ _ _); [|apply Hfail; discriminate].
    destruct (e_pk_sign _ _ _ _); [|apply Hfail; discriminate].
    apply Hgood. rewrite firstn_length. unfold SIGBUF. lia.
  - destruct Hf as (-> & Hmd). unfold sign_ps. rewrite Hmd, Ht2. cbn [ubind].
    destruct (e_parse_key _ _ _ _) as [pk|] eqn:Epk; [|apply Hfail; discriminate].
    destruct (e_can_do e pk PK_RSASSA_PSS) eqn:Ec; [|apply Hfail; discriminate].
    cbn [negb]. destruct (_ <? _)%N; [apply Hfail; discriminate|].
    destruct (Hlaw _ _ _ _ Epk) as [Hl _]. destruct (Hl Ec) as (Hrsa & Hrl & Hbl).
    destruct (e_md _ _ _); [|apply Hfail; discriminate].
    rewrite Hrsa. cbn [negb]. destruct (N.ltb_spec SIGBUF (e_rsa_len e pk)) as [Hx|Hx];
      [unfold SIGBUF in Hx; lia|].
    destruct (e_pss_sign _ _ _ _); [|apply Hfail; discriminate].
    apply Hgood. lia.
  - rewrite Hf. destruct (es_table ep j curve bits width Hj Ef) as (Hmd & Hes & Hw).
    unfold sign_es. rewrite Hmd, Ht2. cbn [ubind].
    destruct (e_parse_key _ _ _ _) as [pk|] eqn:Epk; [|apply Hfail; discriminate].
    destruct (e_can_do e pk PK_ECDSA) eqn:Ec; [|apply Hfail; discriminate].
    destruct (Hlaw _ _ _ _ Epk) as [_ Hl]. rewrite (Hl Ec). cbn [negb].
    destruct (negb _); [apply Hfail; discriminate|].
    destruct (e_md _ _ _); [|apply Hfail; discriminate].
    rewrite Hes. destruct (negb _); [apply Hfail; discriminate|].
    destruct (negb _); [apply Hfail; discriminate|].
    destruct (e_ecdsa_sign _ _ _) as [[r s]|]; [|apply Hfail; discriminate].
    destruct (mpi_write_binary r _); [|apply Hfail; discriminate].
    destruct (mpi_write_binary s _); [|apply Hfail; discriminate].
    apply Hgood. lia.
  - rewrite Hf. unfold sign_ed. destruct (p_eddsa p); [|apply Hfail; discriminate].
    rewrite Eq. cbn [negb deref ubind]. fold n.
    assert (Hok : exists ok, (if (n =? 128)%N then OK true
          else if (n =? 129)%N then (b <-u read_at m 128 ;; OK (is_nul b)) else OK false) = OK ok).
    { destruct (n =? 128)%N; [eauto|]. destruct (N.eqb_spec n 129); [|eauto].
      rewrite read_at_ok by lia. cbn [ubind]. eauto. }
    destruct Hok as (ok & ->). cbn [ubind]. destruct ok; [|apply Hfail; discriminate]. cbn [negb].
    rewrite hexstr2bin_cases by (rewrite ?repeat_length; lia).
    destruct (negb (Nat.eqb _ 0)); [cbn [ubind]; apply Hfail; discriminate|].
    destruct (N.ltb_spec 65 (N.of_nat (length (without_final_nul (firstn (N.to_nat n) m)) / 2) + 1)) as [Hs|Hs];
      [cbn [ubind]; apply Hfail; discriminate|].
    destruct (hex_loop_ok p (without_final_nul (firstn (N.to_nat n) m)) [] (repeat x00 65)) as (o & Ho & _).
    { rewrite repeat_length. lia. }
    unfold cur_start. rewrite Ho. cbn [ubind negb Z.eqb]. apply Hgood. lia.
Qed.

Lemma wsb_total p e sb ep w :
  (6 <= p_size_bits p)%N -> wf w ->
  key_ok (ep_secret_key ep) (ep_secret_key_length ep) -> lawful_keys e ->
  exists rc sb' sg w', write_signature_body p e sb ep w = Ret (rc, sb', sg) w'.
Proof.
  intros Hp Hwf Hk Hlaw. unfold write_signature_body.
  pose proof Hk as (Hn & k & (b & m & Eq & Hm & Ek) & Hlast).
  assert (Hload : exists key, load_key (ep_secret_key ep) (ep_secret_key_length ep) = OK key
    /\ exists kl, adjust_key_length key (ep_secret_key_length ep) = OK kl).
  { rewrite Eq. eexists. split; [apply load_key_ok; lia|]. rewrite <- Ek.
    destruct (adjust_key_eq k (ep_secret_key_length ep)) as (kl & Ha & _); [rewrite Ek, firstn_length; lia|lia|].
    eauto. }
  destruct Hload as (key & Hload & kl & Hadj).
  unfold mbind at 1. rewrite Hload. cbn [lift]. unfold mbind at 1. rewrite Hadj. cbn [lift].
  destruct (e_seed_ok e); cbn [negb]; [|do 4 eexists; reflexivity].
  destruct (sign_switch_total p e ep key kl (cb_elems sb) Hk Hlaw Hload Hadj) as (r & buf & n & Hs & Hsz).
  unfold mbind at 1. rewrite Hs. cbn [lift].
  destruct (Z.eqb_spec r L8W8JWT_SUCCESS) as [->|Hr]; cbn [negb]; [|do 4 eexists; reflexivity].
  specialize (Hsz eq_refl). destruct (n =? 0)%N; [do 4 eexists; reflexivity|].
  destruct (encode_seg_total p None buf n w Hp) as (((r1 & seg) & s) & w1 & H);
    [lia|unfold INT_MAX; lia|].
  mstep H. destruct (negb _); [do 4 eexists; reflexivity|].
  destruct (push_step _ sb (lit ".") w1) as (sb1 & H1 & _). mstep H1.
  destruct (push_step _ sb1 s (w_push w1)) as (sb2 & H2 & _). mstep H2.
  do 4 eexists. reflexivity.
Qed.

Local Opaque L8W8JWT_MAX_KEY_SIZE SIGBUF.
(** Outside small-stack builds, or if the two buffers can be allocated, nothing goes wrong. *)
Definition buffers_ok (p : platform) (w : world) : Prop := p_small_stack p = false \/ allocs w.
Lemma ws_total p e sb ep w :
  (6 <= p_size_bits p)%N -> wf w ->
  key_ok (ep_secret_key ep) (ep_secret_key_length ep) -> lawful_keys e -> buffers_ok p w ->
  exists r w', write_signature p e sb ep w = Ret r w'.
Proof.
  intros Hp Hwf Hk Hlaw Hb. unfold write_signature.
  assert (Hbody : forall w, wf w -> exists rc sb' sg w1,
    write_signature_body p e sb ep w = Ret (rc, sb', sg) w1
    /\ exists w2, free sg w1 = Ret tt w2 /\ quiet w w2).
  { clear -Hp Hk Hlaw. intros w Hwf.
    destruct (wsb_total p e sb ep w Hp Hwf Hk Hlaw) as (rc & sb' & sg & w1 & H).
    exists rc, sb', sg, w1. split; [exact H|]. apply wsb_inv in H; auto.
    destruct H as [(_ & _ & -> & Q)|(_ & _ & Q & (m & ->) & _)].
    - exists w1. split; [reflexivity|exact Q].
    - exists (w_free w1 (w_next w)). cbn [free]. split; [|apply quiet_alloc_free; auto].
      apply free_id_eq. eapply quiet_live; [exact Q|]. cbn. apply upd_live_same. }
  destruct (p_small_stack p) eqn:Es.
  - destruct Hb as [Hb|Hb]; [congruence|].
    unfold mbind at 1. rewrite calloc_eq, Hb. unfold mbind at 1.
    rewrite calloc_eq. change (w_alloc (w_ok w)) with (w_alloc w). rewrite Hb. cbn [is_null orb].
    destruct (Hbody (w_ok (w_ok w)) (wf_ok _ (wf_ok _ Hwf))) as (rc & sb' & sg & w1 & H1 & w2 & H2 & Q).
    mstep H1. unfold mbind at 1. unfold zeroize.
    replace (negb _) with false by (rewrite repeat_length; symmetry; apply negb_false_iff, N.leb_le; lia).
    assert (L1 : w_live w1 (w_next (w_ok w)) = true).
    { apply wsb_inv in H1; auto using wf_ok. 
      destruct H1 as [(_ & _ & _ & Q1)|(_ & _ & Q1 & _)]; eapply quiet_live; try exact Q1.
      - cbn. apply upd_live_same.
      - cbn. unfold upd_live. rewrite Nat.eqb_refl. destruct (Nat.eqb _ _); reflexivity. }
    rewrite L1. mstep H2.
    cbn [free]. unfold mbind at 1. rewrite free_id_eq.
    2:{ eapply quiet_live; [exact Q|]. cbn. apply upd_live_same. }
    unfold mbind at 1. rewrite free_id_eq.
    2:{ cbn [w_free w_live]. rewrite upd_live_other by (cbn; lia).
        eapply quiet_live; [exact Q|]. cbn [w_ok w_live w_next]. rewrite upd_live_other by lia.
        apply upd_live_same. }
    do 2 eexists. reflexivity.
  - destruct (Hbody w Hwf) as (rc & sb' & sg & w1 & H1 & w2 & H2 & Q).
    mstep H1. mstep H2. do 2 eexists. reflexivity.
Qed.

Lemma write_token_total sb w : exists r w', write_token sb w = Ret r w'.
Proof.
  unfold write_token, mbind at 1. rewrite malloc_eq.
  destruct (w_alloc w (w_next w)); [|do 2 eexists; reflexivity].
  set (mem := junk_bytes w (w_next w) (cb_len sb + 1)).
  assert (Hl : length mem = (length (cb_elems sb) + 1)%nat).
  { unfold mem. rewrite junk_length. unfold cb_len. lia. }
  unfold mbind at 1, cur_start. rewrite cur_puts_eq by lia. cbn [lift].
  unfold mbind, cur_set. cbn [c_rest c_done].
  destruct (skipn (length (cb_elems sb)) mem) eqn:Es.
  - apply (f_equal (@length byte)) in Es. rewrite skipn_length in Es. simpl in Es. lia.
  - do 2 eexists. reflexivity.
Qed.

Lemma encode_total p e ep w :
  (6 <= p_size_bits p)%N -> wf w -> enc_readable p ep ->
  (l8w8jwt_validate_encoding_params (Some ep) = L8W8JWT_SUCCESS ->
     key_ok (ep_secret_key ep) (ep_secret_key_length ep)) ->
  lawful_keys e -> buffers_ok p w ->
  exists r w', l8w8jwt_encode p e (Some ep) w = Ret r w'.
Proof.
  intros Hp Hwf Hr Hk Hlaw Hb. unfold l8w8jwt_encode.
  destruct (Z.eqb_spec (l8w8jwt_validate_encoding_params (Some ep)) L8W8JWT_SUCCESS) as [Ev|Ev];
    cbn [negb]; [|do 2 eexists; reflexivity].
  specialize (Hk Ev). unfold mbind at 1. rewrite cb_init_eq.
  destruct (w_alloc w (w_next w)); [|do 2 eexists; reflexivity].
  pose proof (wf_ok _ Hwf) as W1.
  assert (Hbody : exists res sb' w', encode_body p e (CB (w_next w) []) ep (w_ok w) = Ret (res, sb') w'
    /\ cb_id sb' = w_next w /\ (quiet (w_ok w) w' \/ exists w1, quiet (w_ok w) w1 /\ w' = w_ok w1)).
  { unfold encode_body.
    destruct (whp_total p (CB (w_next w) []) ep (w_ok w) Hp W1 Hr) as ((r1 & sb1) & w2 & H1).
    mstep H1. apply whp_inv in H1 as (Q1 & I1 & _); auto. cbn [cb_id] in I1.
    destruct (negb _).
    { do 3 eexists. split; [reflexivity|]. auto. }
    assert (W2 : wf w2) by (eapply wf_quiet; eauto).
    assert (H2 : exists r2 sb2 w3, (if negb (ep_alg ep =? -1)%Z then write_signature p e sb1 ep
                 else mret (L8W8JWT_SUCCESS, sb1)) w2 = Ret (r2, sb2) w3
                 /\ quiet w2 w3 /\ cb_id sb2 = cb_id sb1).
    { destruct (negb (ep_alg ep =? -1)%Z).
      - destruct (ws_total p e sb1 ep w2 Hp W2 Hk Hlaw) as ((r2 & sb2) & w3 & H2).
        { destruct Hb as [Hb|Hb]; [left; auto|right]. eapply allocs_later; [|exact Hb].
          eapply later_trans; [apply later_ok|apply quiet_later, Q1]. }
        exists r2, sb2, w3. split; [exact H2|]. apply ws_inv in H2; auto. tauto.
      - do 3 eexists. split; [reflexivity|]. split; [apply quiet_refl|reflexivity]. }
    destruct H2 as (r2 & sb2 & w3 & H2 & Q2 & I2). mstep H2.
    assert (Q3 : quiet (w_ok w) w3) by (eapply quiet_trans; eauto).
    clear H2. destruct (negb (r2 =? L8W8JWT_SUCCESS)%Z).
    { do 3 eexists. split; [reflexivity|]. split; [congruence|auto]. }
    destruct (write_token_total sb2 w3) as (res & w4 & H3). mstep H3.
    do 3 eexists. split; [reflexivity|]. split; [congruence|].
    apply write_token_inv in H3 as [(_ & _ & ->)|(_ & _ & ->)]; [left|right; eauto].
    eapply quiet_trans; [exact Q3|apply quiet_no]. }
  destruct Hbody as (res & sb' & w' & H & I & Q). mstep H. unfold cb_free. rewrite I.
  unfold mbind. rewrite free_id_eq; [do 2 eexists; reflexivity|].
  assert (L : w_live (w_ok w) (w_next w) = true) by (cbn; apply upd_live_same).
  destruct Q as [Q|(w1 & Q & ->)]; [eapply quiet_live; eauto|].
  cbn [w_ok w_live]. unfold upd_live at 1. destruct (Nat.eqb _ _); [reflexivity|].
  eapply quiet_live; eauto.
Qed.
