(** * Property C72: encoding takes memory in proportion to the request *)
From Verif Require Import Base BaseProofs HeapProofs Util UtilProofs Claim Base64 SpecB64 Base64EncProofs
  Base64EncApi Base64Api UnescapeProofs Jsmn Env Encode SpecJson SpecJwa ClaimProofs EncodeProofs
  SignProofs EncodeTotal SpecEnc DecodeProofs EncCodeProofs PropEncode PropMemory.
From Coq Require Import ZifyBool ZifyNat ZifyN.
Ltac Zify.zify_post_hook ::= Z.div_mod_to_equations.
Local Opaque L8W8JWT_MAX_KEY_SIZE.

(** ** The size of a request *)
(** A text given by pointer and length; length 0 stands for the C string. *)
Definition text_bytes (q : ptr) (n : N) : N :=
  match q with
  | Null => 0
  | Ptr _ m => if (n =? 0)%N then N.of_nat (length (before_nul m)) else n
  end.
(** A claim: the bytes of its name and value, and one more; nothing without a name. *)
Definition claim_bytes (c : claim) : N :=
  match c_key c with
  | Null => 0
  | _ => text_bytes (c_key c) (c_key_length c) + text_bytes (c_value c) (c_value_length c) + 1
  end.
Fixpoint claims_bytes (cs : list claim) : N :=
  match cs with [] => 0 | c :: t => claim_bytes c + claims_bytes t end.
Definition array_bytes (c : cptr) (n : N) : N :=
  match c with CNull => 0 | CArr _ cs => claims_bytes (firstn (N.to_nat n) cs) end.
Definition request_bytes (ep : enc_params) : N :=
  array_bytes (ep_header_claims ep) (ep_header_claims_count ep)
  + array_bytes (ep_payload_claims ep) (ep_payload_claims_count ep)
  + text_bytes (ep_sub ep) (ep_sub_length ep) + text_bytes (ep_iss ep) (ep_iss_length ep)
  + text_bytes (ep_aud ep) (ep_aud_length ep) + text_bytes (ep_jti ep) (ep_jti_length ep).

(** ** Counting allocations *)
Definition takes {A} (k : nat) (m : M A) : Prop :=
  forall w a w', m w = Ret a w' -> (w_next w' <= w_next w + k)%nat.
Lemma takes_le {A} k k' (m : M A) : takes k m -> (k <= k')%nat -> takes k' m.
Proof. intros H L w a w' E. apply H in E. lia. Qed.
Lemma takes_ret {A} (a : A) : takes 0 (mret a).
Proof. intros w b w' E. inversion E; subst. lia. Qed.
Lemma takes_ub {A} u : takes 0 (@mub A u).
Proof. intros w b w' E. discriminate E. Qed.
Lemma takes_lift {A} (m : U A) : takes 0 (lift m).
Proof. intros w b w' E. apply lift_inv in E as [_ ->]. lia. Qed.
Lemma takes_bind {A B} j k (m : M A) (f : A -> M B) : takes j m -> (forall a, takes k (f a)) -> takes (j + k) (mbind m f).
Proof.
  intros Hm Hf w b w' E. unfold mbind in E. destruct (m w) as [a w1|u] eqn:E1; [|discriminate E].
  apply Hm in E1. apply Hf in E. lia.
Qed.
Lemma takes_alloc : takes 1 alloc.
Proof. intros w a w' E. rewrite alloc_eq in E. destruct (w_alloc w (w_next w)); inversion E; subst; cbn; lia. Qed.
Lemma takes_malloc n : takes 1 (malloc n).
Proof. intros w a w' E. rewrite malloc_eq in E. destruct (w_alloc w (w_next w)); inversion E; subst; cbn; lia. Qed.
Lemma takes_calloc n : takes 1 (calloc n).
Proof. intros w a w' E. rewrite calloc_eq in E. destruct (w_alloc w (w_next w)); inversion E; subst; cbn; lia. Qed.
Lemma takes_init A : takes 1 (cb_init A).
Proof. intros w a w' E. rewrite cb_init_eq in E. destruct (w_alloc w (w_next w)); inversion E; subst; cbn; lia. Qed.
Lemma takes_push {A} (b : chillbuff A) e : takes 0 (cb_push b e).
Proof. intros w a w' E. apply cb_push_inv in E as (-> & _). cbn. lia. Qed.
Lemma takes_free_id id : takes 0 (free_id id).
Proof. intros w a w' E. apply free_id_inv in E as [_ ->]. cbn. lia. Qed.
Lemma takes_free q : takes 0 (free q).
Proof. destruct q as [|[id|] m]; [apply takes_ret|apply takes_free_id|apply takes_ub]. Qed.
Lemma takes_zeroize q n : takes 0 (zeroize q n).
Proof.
  intros w a w' E. unfold zeroize in E. destruct q as [|b m].
  - destruct (n =? 0)%N; inversion E; subst; lia.
  - destruct (negb _); [discriminate|]. destruct (match b with Some _ => _ | None => _ end); inversion E; subst; lia.
Qed.
Lemma takes_escape_each p s : forall sb, takes 0 (escape_each p sb s).
Proof.
  induction s as [|c s IH]; intros sb; [apply takes_ret|]. cbn [escape_each].
  apply (takes_bind 0 0); [apply takes_lift|intros x]. apply (takes_bind 0 0); [apply takes_push|intros y]. apply IH.
Qed.
Lemma takes_escape p sb q n : takes 0 (l8w8jwt_escape_claim_string p sb q n).
Proof.
  unfold l8w8jwt_escape_claim_string. destruct (n =? 0)%N; [apply takes_ret|].
  apply (takes_bind 0 0); [apply takes_lift|intros x]. apply (takes_bind 0 0); [apply takes_lift|intros y]. apply takes_escape_each.
Qed.
Ltac tb := apply (takes_bind 0 0); [|intros].
Lemma takes_write_each p cs : forall sb eb n first, takes 0 (write_each p sb eb cs n first).
Proof.
  induction cs as [|c cs IH]; intros sb eb n first; cbn [write_each]; (destruct (n =? 0)%N; [apply takes_ret|]); [apply takes_ub|].
  destruct (is_null (c_key c)); [apply IH|]. tb; [destruct first; [apply takes_ret|apply takes_push]|].
  tb; [apply takes_lift|]. tb; [apply takes_lift|]. cbv zeta. tb; [apply takes_escape|].
  do 3 (tb; [apply takes_push|]). tb.
  - destruct (c_type c =? L8W8JWT_CLAIM_TYPE_STRING)%Z.
    + tb; [apply takes_push|]. cbv zeta. tb; [apply takes_escape|]. do 2 (tb; [apply takes_push|]). apply takes_ret.
    + destruct (_ =? 0)%N; [apply takes_ret|]. do 2 (tb; [apply takes_lift|]). tb; [apply takes_push|]. apply takes_ret.
  - match goal with x : _ * _ |- _ => destruct x end. apply IH.
Qed.
Lemma takes_write_claims p sb claims n : takes 1 (l8w8jwt_write_claims p sb claims n).
Proof.
  unfold l8w8jwt_write_claims. destruct claims as [|b cs]; [eapply takes_le; [apply takes_ret|lia]|].
  destruct (n =? 0)%N; [eapply takes_le; [apply takes_ret|lia]|].
  apply (takes_bind 1 0); [apply takes_init|]. intros [eb|]; [|apply takes_ret].
  tb; [apply takes_write_each|]. tb; [apply takes_free_id|]. apply takes_ret.
Qed.
Lemma takes_base64_encode p url q n a b : takes 1 (l8w8jwt_base64_encode p url q n a b).
Proof.
  unfold l8w8jwt_base64_encode. destruct (negb a || is_null q || negb b); [eapply takes_le; [apply takes_ret|lia]|].
  destruct (n =? 0)%N; [eapply takes_le; [apply takes_ret|lia]|]. cbv zeta.
  destruct (_ <? _)%N; [eapply takes_le; [apply takes_ret|lia]|].
  apply (takes_bind 1 0); [apply takes_malloc|]. intros [|blk buf]; [apply takes_ret|].
  do 3 (tb; [apply takes_lift|]). match goal with x : _ * _ |- _ => destruct x end. apply takes_ret.
Qed.
Lemma takes_encode_segment p q n : takes 1 (encode_segment p q n).
Proof.
  unfold encode_segment. apply (takes_bind 1 0); [apply takes_base64_encode|]. intros r.
  destruct (negb _); [apply takes_ret|]. destruct (b_out r); [|apply takes_ub]. destruct (b_len r); [|apply takes_ub].
  do 2 (tb; [apply takes_lift|]). apply takes_ret.
Qed.
Lemma takes_opt_claims p sb claims n (sep : M (chillbuff byte)) : takes 0 sep ->
  takes 1 (if (0 <? n)%N then (b <- sep ;; r <- l8w8jwt_write_claims p b claims n ;; mret (snd r)) else mret sb).
Proof.
  intros Hs. destruct (0 <? n)%N; [|eapply takes_le; [apply takes_ret|lia]].
  apply (takes_bind 0 1); [exact Hs|intros b]. apply (takes_bind 1 0); [apply takes_write_claims|intros]. apply takes_ret.
Qed.
Lemma takes_whp p sb ep : takes 6 (write_header_and_payload p sb ep).
Proof.
  unfold write_header_and_payload. apply (takes_bind 1 5); [apply takes_init|]. intros [buff|]; [|eapply takes_le; [apply takes_ret|lia]].
  destruct (header_prefix (ep_alg ep)) as [h|].
  2:{ eapply takes_le; [tb; [apply takes_free_id|apply takes_ret]|lia]. }
  apply (takes_bind 0 5); [apply takes_push|intros b1].
  apply (takes_bind 1 4); [apply takes_opt_claims, takes_push|intros b2].
  apply (takes_bind 0 4); [apply takes_push|intros b3].
  apply (takes_bind 1 3); [apply takes_encode_segment|intros [[r seg] s]].
  destruct (negb _); [eapply takes_le; [tb; [apply takes_free_id|apply takes_ret]|lia]|].
  apply (takes_bind 0 3); [apply takes_push|intros sb1]. cbv zeta.
  apply (takes_bind 0 3); [apply takes_free|intros u].
  apply (takes_bind 0 3); [apply takes_lift|intros tb0].
  apply (takes_bind 0 3); [apply takes_push|intros b4].
  apply (takes_bind 1 2); [apply takes_write_claims|intros r1].
  apply (takes_bind 1 1); [apply takes_opt_claims|intros b5].
  { destruct (_ || _); [apply takes_push|apply takes_ret]. }
  apply (takes_bind 0 1); [apply takes_push|intros b6].
  apply (takes_bind 1 0); [apply takes_encode_segment|intros [[r2 seg2] s2]].
  destruct (negb _); [tb; [apply takes_free_id|apply takes_ret]|].
  do 2 (tb; [apply takes_push|]). tb; [apply takes_free|]. tb; [apply takes_free_id|]. apply takes_ret.
Qed.
Lemma takes_wsb p e sb ep : takes 1 (write_signature_body p e sb ep).
Proof.
  unfold write_signature_body. apply (takes_bind 0 1); [apply takes_lift|intros k]. apply (takes_bind 0 1); [apply takes_lift|intros kl].
  destruct (negb (e_seed_ok e)); [eapply takes_le; [apply takes_ret|lia]|].
  apply (takes_bind 0 1); [apply takes_lift|intros [[r s] n]].
  destruct (negb _); [eapply takes_le; [apply takes_ret|lia]|]. destruct (n =? 0)%N; [eapply takes_le; [apply takes_ret|lia]|].
  apply (takes_bind 1 0); [apply takes_encode_segment|intros [[r2 seg2] s2]].
  destruct (negb _); [apply takes_ret|]. do 2 (tb; [apply takes_push|]). apply takes_ret.
Qed.
Lemma takes_ws p e sb ep : takes 3 (write_signature p e sb ep).
Proof.
  unfold write_signature. destruct (p_small_stack p).
  - apply (takes_bind 1 2); [apply takes_calloc|intros a]. apply (takes_bind 1 1); [apply takes_calloc|intros b].
    apply (takes_bind 1 0).
    + destruct (_ || _); [eapply takes_le; [apply takes_ret|lia]|apply takes_wsb].
    + intros [[r s] n]. tb; [apply takes_zeroize|]. do 3 (tb; [apply takes_free|]). apply takes_ret.
  - apply (takes_le 1); [|lia]. apply (takes_bind 1 0); [apply takes_wsb|]. intros [[r s] n]. tb; [apply takes_free|]. apply takes_ret.
Qed.
Lemma takes_write_token sb : takes 1 (write_token sb).
Proof.
  unfold write_token. apply (takes_bind 1 0); [apply takes_malloc|]. intros [|b m]; [apply takes_ret|].
  do 2 (tb; [apply takes_lift|]). apply takes_ret.
Qed.

(** l8w8jwt_encode makes at most eleven allocations, whatever it is asked for and whatever happens. *)
Theorem C72_encode_allocations :
  forall p e params w r w', l8w8jwt_encode p e params w = Ret r w' -> (allocations w w' <= 11)%nat.
Proof.
  intros p e params w r w' H. assert (T : takes 11 (l8w8jwt_encode p e params)); [|apply T in H; unfold allocations; lia].
  clear. unfold l8w8jwt_encode. destruct params as [ep|]; [|eapply takes_le; [apply takes_ret|lia]].
  destruct (negb _); [eapply takes_le; [apply takes_ret|lia]|].
  apply (takes_bind 1 10); [apply takes_init|]. intros [sb|]; [|eapply takes_le; [apply takes_ret|lia]].
  apply (takes_bind 10 0).
  - unfold encode_body. apply (takes_bind 6 4); [apply takes_whp|intros [r0 sb1]].
    destruct (negb _); [eapply takes_le; [apply takes_ret|lia]|].
    apply (takes_bind 3 1).
    + destruct (negb _); [apply takes_ws|eapply takes_le; [apply takes_ret|lia]].
    + intros [r2 sb2]. destruct (negb _); [eapply takes_le; [apply takes_ret|lia]|].
      apply (takes_bind 1 0); [apply takes_write_token|intros]. apply takes_ret.
  - intros [res sb1]. tb; [apply takes_free_id|apply takes_ret].
Qed.
Print Assumptions C72_encode_allocations.

(** ** Counting bytes *)
Lemma given_bytes q n s : given q n s -> text_bytes q n = N.of_nat (length s).
Proof.
  destruct q as [|b m]; [contradiction|]. cbn [given text_bytes]. destruct (N.eqb_spec n 0) as [E|E].
  - intros (r & -> & H). rewrite before_nul_cstr by exact H. reflexivity.
  - intros (H & ->). rewrite firstn_length. lia.
Qed.
Lemma length_bytes n q k : length_or_strlen n q = OK k -> (q <> Null -> k = text_bytes q n) /\ (q = Null -> k = n).
Proof.
  unfold length_or_strlen. intros H. destruct (N.eqb_spec n 0) as [E|E].
  - destruct q as [|b m]; [discriminate|]. cbn in H. apply strlen_inv in H as (s & r & -> & Hs & ->).
    split; [|discriminate]. intros _. subst n. cbn. rewrite before_nul_cstr by exact Hs. reflexivity.
  - injection H as <-. split; [|reflexivity]. intros Hq. destruct q; [congruence|]. cbn.
    destruct (N.eqb_spec n 0); [congruence|reflexivity].
Qed.
Lemma escape_null p sb k w r w' : l8w8jwt_escape_claim_string p sb Null k w = Ret r w' -> k = 0%N.
Proof.
  unfold l8w8jwt_escape_claim_string. destruct (N.eqb_spec k 0); [auto|]. intros H. minvas H as m ? Hm.
  apply lift_inv in Hm as [Hd _]. discriminate.
Qed.
Lemma write_each_bytes p : forall cs sb eb n first w sb' w',
  write_each p sb eb cs n first w = Ret sb' w' ->
  (N.of_nat (length (cb_elems sb')) <= N.of_nat (length (cb_elems sb)) + 6 * claims_bytes (firstn (N.to_nat n) cs))%N.
Proof.
  induction cs as [|c cs IH]; intros sb eb n first w sb' w' H.
  - cbn [write_each] in H. destruct (n =? 0)%N; inversion H; subst. lia.
  - cbn [write_each] in H. destruct (N.eqb_spec n 0) as [->|Hn]; [inversion H; subst; lia|].
    replace (N.to_nat n) with (S (N.to_nat (n - 1))) by lia. cbn [firstn claims_bytes].
    destruct (is_null (c_key c)) eqn:Hnn; [apply IH in H; lia|].
    assert (Hkn : c_key c <> Null) by (destruct (c_key c); [discriminate|discriminate]).
    assert (Hcb : claim_bytes c = (text_bytes (c_key c) (c_key_length c) + text_bytes (c_value c) (c_value_length c) + 1)%N)
      by (unfold claim_bytes; destruct (c_key c); [discriminate|reflexivity]).
    minvas H as b0 w0 Hm.
    assert (L0 : (length (cb_elems b0) <= length (cb_elems sb) + 1)%nat).
    { destruct first; [inversion Hm; subst; lia|]. apply cb_push_len in Hm. simpl in Hm. lia. }
    clear Hm.
    minvas H as kl ? Hm. apply lift_inv in Hm as [Hkl ->]. apply length_bytes in Hkl as [Hkl _]. specialize (Hkl Hkn).
    minvas H as vl ? Hm. apply lift_inv in Hm as [Hvl ->]. apply length_bytes in Hvl as [Hvl Hvn].
    minvas H as e1 w1 Hm. apply escape_string_len in Hm. cbn [cb_clear cb_elems length] in Hm. rename Hm into L1.
    minvas H as b1 ? Hm. apply cb_push_len in Hm. rename Hm into L2.
    minvas H as b2 ? Hm. apply cb_push_len in Hm. rename Hm into L3.
    minvas H as b3 ? Hm. apply cb_push_len in Hm. rename Hm into L4.
    minvas H as [b4 e4] w5 Hm.
    assert (L5 : (length (cb_elems b4) <= length (cb_elems b3) + 2 + 6 * N.to_nat (text_bytes (c_value c) (c_value_length c)))%nat).
    { destruct (c_type c =? L8W8JWT_CLAIM_TYPE_STRING)%Z.
      - minvas Hm as d0 ? Hx. apply cb_push_len in Hx. rename Hx into K1.
        minvas Hm as d1 ? Hx. 
        assert (Hv : vl = text_bytes (c_value c) (c_value_length c)).
        { destruct (c_value c); [|apply Hvl; discriminate]. cbn [text_bytes]. eapply escape_null; eauto. }
        apply escape_string_len in Hx. cbn [cb_clear cb_elems length] in Hx. rename Hx into K2.
        minvas Hm as d2 ? Hx. apply cb_push_len in Hx. rename Hx into K3.
        minvas Hm as d3 ? Hx. apply cb_push_len in Hx. inversion Hm; subst b4 e4.
        simpl in K1, Hx. rewrite <- Hv. lia.
      - destruct (vl =? 0)%N; [inversion Hm; subst; lia|].
        minvas Hm as d0 ? Hx. apply lift_inv in Hx as [Hd ->].
        assert (Hv : vl = text_bytes (c_value c) (c_value_length c)).
        { apply Hvl. intros E. rewrite E in Hd. discriminate. }
        minvas Hm as d1 ? Hx. apply lift_inv in Hx as [Ht ->].
        apply take_inv in Ht as [Ht ->].
        minvas Hm as d2 ? Hx. apply cb_push_len in Hx. inversion Hm; subst b4 e4.
        rewrite firstn_length in Hx. rewrite <- Hv. lia. }
    apply IH in H.
    change (length (lit """")) with 1%nat in *.
    change (length (lit """:")) with 2%nat in *. lia.
Qed.
Lemma write_claims_bytes p sb claims n w r w' :
  l8w8jwt_write_claims p sb claims n w = Ret r w' ->
  (N.of_nat (length (cb_elems (snd r))) <= N.of_nat (length (cb_elems sb)) + 6 * array_bytes claims n)%N.
Proof.
  intros H. unfold l8w8jwt_write_claims in H. destruct claims as [|b cs].
  - inversion H; subst. cbn [snd array_bytes]. lia.
  - destruct (n =? 0)%N; [inversion H; subst; cbn [snd]; lia|].
    minvas H as o w1 Hm. destruct o as [eb|]; [|inversion H; subst; cbn [snd]; lia].
    minvas H as s1 w2 Hw. minvas H as u w3 Hf. inversion H; subst. cbn [snd array_bytes].
    eapply write_each_bytes; eauto.
Qed.
Lemma time_bytes c name t : length name = 3%nat -> time_fact c name t -> (claim_bytes c <= 24)%N.
Proof.
  intros Hl (_ & [(_ & Hk)|(_ & Hk & Hv)]); unfold claim_bytes.
  - rewrite Hk. lia.
  - apply given_bytes in Hk. apply given_bytes in Hv. rewrite Hk, Hv.
    destruct (print_u64_digits (to_u64 t)) as [_ Hd]. destruct (c_key c); lia.
Qed.
Lemma str_bytes c name q n : length name = 3%nat -> str_fact c name q n -> (claim_bytes c <= 4 + text_bytes q n)%N.
Proof.
  intros Hl (_ & [(_ & Hk)|(_ & Hk & <- & <-)]); unfold claim_bytes.
  - rewrite Hk. lia.
  - apply given_bytes in Hk. rewrite Hk. destruct (c_key c); lia.
Qed.
Lemma registered_bytes ep tbuf : iatnbfexp ep = OK tbuf ->
  (array_bytes (CArr None (registered_claims ep tbuf)) 7
   <= 88 + text_bytes (ep_sub ep) (ep_sub_length ep) + text_bytes (ep_iss ep) (ep_iss_length ep)
      + text_bytes (ep_aud ep) (ep_aud_length ep) + text_bytes (ep_jti ep) (ep_jti_length ep))%N.
Proof.
  intros H. destruct (registered_facts _ _ H) as (c1 & c2 & c3 & c4 & c5 & c6 & c7 & -> & F1 & F2 & F3 & F4 & F5 & F6 & F7).
  cbn [array_bytes]. change (firstn (N.to_nat 7) [c1; c2; c3; c4; c5; c6; c7]) with [c1; c2; c3; c4; c5; c6; c7].
  cbn [claims_bytes].
  apply time_bytes in F1, F2, F3; [|reflexivity..]. apply str_bytes in F4, F5, F6, F7; [|reflexivity..]. lia.
Qed.
Lemma segment_bytes p b mem n w rc seg s w' :
  (6 <= p_size_bits p)%N -> encode_segment p (Ptr b mem) n w = Ret (rc, seg, s) w' ->
  (3 * length s <= 4 * length mem + 2)%nat.
Proof.
  intros Hp H. apply encode_seg_inv in H; auto. destruct H as [(_ & _ & -> & _)|(_ & _ & Hn & _ & _ & _ & _ & ->)]; [cbn; lia|].
  unfold b64url. rewrite unpadded_length, firstn_length. lia.
Qed.
Lemma opt_bytes p sb claims n sep (c : bool) w r w' :
  (if (0 <? n)%N then (b <- (if c then cb_push sb sep else mret sb) ;; x <- l8w8jwt_write_claims p b claims n ;; mret (snd x)) else mret sb) w
    = Ret r w' ->
  (N.of_nat (length (cb_elems r)) <= N.of_nat (length (cb_elems sb)) + N.of_nat (length sep) + 6 * array_bytes claims n)%N.
Proof.
  intros H. destruct (0 <? n)%N; [|inversion H; subst; lia].
  minvas H as b w1 Hm. minvas H as x w2 Hw. inversion H; subst. apply write_claims_bytes in Hw.
  destruct c; [apply cb_push_len in Hm; lia|inversion Hm; subst; lia].
Qed.
Lemma whp_bytes p sb ep w rc sb' w' :
  (6 <= p_size_bits p)%N -> write_header_and_payload p sb ep w = Ret (rc, sb') w' ->
  (3 * N.of_nat (length (cb_elems sb')) <= 3 * N.of_nat (length (cb_elems sb)) + 24 * request_bytes ep + 2363)%N.
Proof.
  intros Hp H. unfold write_header_and_payload in H. minvas H as o w0 Hi. destruct o as [buff|]; [|inversion H; subst; lia].
  rewrite cb_init_eq in Hi. destruct (w_alloc w (w_next w)); inversion Hi; subst; clear Hi.
  destruct (header_prefix (ep_alg ep)) as [h|] eqn:Eh.
  2:{ minvas H as u ? Hf. inversion H; subst. lia. }
  apply header_prefix_len in Eh.
  minvas H as b1 w1 H1. apply cb_push_len in H1. cbn [cb_elems length] in H1.
  minvas H as b2 w2 H2. apply (opt_bytes p b1 _ _ (lit ",") true) in H2. change (length (lit ",")) with 1%nat in H2.
  minvas H as b3 w3 H3. apply cb_push_len in H3. change (length (lit "}")) with 1%nat in H3.
  minvas H as [[r seg] s] w4 H4. apply segment_bytes in H4; auto.
  destruct (negb _) in H; [minvas H as u ? Hf; inversion H; subst; lia|].
  minvas H as s1 w5 H5. apply cb_push_len in H5. minvas H as u w6 Hf.
  minvas H as tb w7 Hm. apply lift_inv in Hm as [Ht ->]. apply registered_bytes in Ht.
  minvas H as b4 w8 H6. apply cb_push_len in H6. cbn [cb_clear cb_elems length] in H6. change (length (lit "{")) with 1%nat in H6.
  minvas H as r1 w9 H7. apply write_claims_bytes in H7.
  minvas H as b5 w10 H8. apply (opt_bytes p (snd r1) _ _ (lit ",")) in H8. change (length (lit ",")) with 1%nat in H8.
  minvas H as b6 w11 H9. apply cb_push_len in H9. change (length (lit "}")) with 1%nat in H9.
  minvas H as [[r2 seg2] s2] w12 H10. apply segment_bytes in H10; auto.
  unfold request_bytes.
  destruct (negb _) in H; [minvas H as u2 ? Hf2; inversion H; subst; lia|].
  minvas H as s3 w13 H11. apply cb_push_len in H11. change (length (lit ".")) with 1%nat in H11.
  minvas H as s4 w14 H12. apply cb_push_len in H12.
  minvas H as u2 w15 Hf2. minvas H as u3 w16 Hf3. inversion H; subst. lia.
Qed.
Lemma switch_bytes p e ep key kl msg rc buf len :
  load_key (ep_secret_key ep) (ep_secret_key_length ep) = OK key ->
  adjust_key_length key (ep_secret_key_length ep) = OK kl ->
  sign_switch p e ep key kl msg = OK (rc, buf, len) -> rc = 0%Z -> length buf = 4096%nat.
Proof.
  intros Hl Ha H Hr. assert (C : (0 <= ep_alg ep <= 13)%Z \/ ~ (0 <= ep_alg ep <= 13)%Z) by lia. destruct C as [C|C].
  - destruct (sign_switch_code p e ep key kl msg rc buf len Hl Ha C H) as (jw & k & _ & _ & [(Hn & _)|(_ & _ & _ & E)]); [congruence|exact E].
  - exfalso. unfold sign_switch in H. destruct (ep_alg ep) as [|a|a]; [lia| |].
    + do 4 (destruct a as [a|a|]; try (injection H as E _ _; subst; discriminate); try lia).
    + injection H as E _ _. subst. discriminate.
Qed.
Lemma wsb_bytes p e sb ep w rc sb' sg w' :
  (6 <= p_size_bits p)%N -> write_signature_body p e sb ep w = Ret (rc, sb', sg) w' ->
  (3 * N.of_nat (length (cb_elems sb')) <= 3 * N.of_nat (length (cb_elems sb)) + 16389)%N.
Proof.
  intros Hp H. unfold write_signature_body in H.
  minvas H as key ? Hm. apply lift_inv in Hm as [Hl ->].
  minvas H as kl ? Hm. apply lift_inv in Hm as [Ha ->].
  destruct (e_seed_ok e); cbn [negb] in H; [|inversion H; subst; lia].
  minvas H as [[r buf] len] ? Hm. apply lift_inv in Hm as [Hs ->].
  destruct (Z.eqb_spec r L8W8JWT_SUCCESS) as [Er|Hr]; cbn [negb] in H; [|inversion H; subst; lia].
  apply switch_bytes in Hs; auto.
  destruct (len =? 0)%N; [inversion H; subst; lia|].
  minvas H as [[r1 seg] s] w1 Hseg. apply segment_bytes in Hseg; auto.
  destruct (negb _); [inversion H; subst; lia|].
  minvas H as s1 w2 H1. apply cb_push_len in H1. change (length (lit ".")) with 1%nat in H1.
  minvas H as s2 w3 H2. apply cb_push_len in H2. inversion H; subst. lia.
Qed.
Lemma ws_bytes p e sb ep w rc sb' w' :
  (6 <= p_size_bits p)%N -> write_signature p e sb ep w = Ret (rc, sb') w' ->
  (3 * N.of_nat (length (cb_elems sb')) <= 3 * N.of_nat (length (cb_elems sb)) + 16389)%N.
Proof.
  intros Hp H. unfold write_signature in H. destruct (p_small_stack p).
  - minvas H as sigb w1 Hc1. minvas H as kb w2 Hc2. minvas H as [[r sb1] sg] w3 Hb.
    minvas H as u1 w4 Hz. minvas H as u2 w5 Hf1. minvas H as u3 w6 Hf2. minvas H as u4 w7 Hf3.
    inversion H; subst. destruct (is_null sigb || is_null kb); [inversion Hb; subst; lia|].
    eapply wsb_bytes; eauto.
  - minvas H as [[r sb1] sg] w3 Hb. minvas H as u1 w4 Hf. inversion H; subst. eapply wsb_bytes; eauto.
Qed.

(** ** The length of a token *)
(** Whatever is encoded, and whether or not every append succeeds: a token handed out, and so the block
    allocated for it, is at most eight times the request plus 6252 bytes long. *)
Theorem C72_token_length :
  forall p e ep w r w' q n, (6 <= p_size_bits p)%N ->
    l8w8jwt_encode p e (Some ep) w = Ret r w' -> er_out r = Some q -> er_len r = Some n ->
    (n <= 8 * request_bytes ep + 6251)%N /\ exists id t, q = Ptr id t /\ N.of_nat (length t) = (n + 1)%N.
Proof.
  intros p e ep w r w' q n Hp H Hq Hn. unfold l8w8jwt_encode in H.
  destruct (negb _) in H; [inversion H; subst; discriminate|].
  minvas H as o w1 Hi. rewrite cb_init_eq in Hi. destruct (w_alloc w (w_next w)); inversion Hi; subst; clear Hi.
  2:{ inversion H; subst. discriminate. }
  minvas H as [res sb'] w2 Hb. minvas H as u w3 Hf. inversion H; subst. clear H.
  unfold encode_body in Hb. minvas Hb as [r1 sb1] w4 H1. apply whp_bytes in H1; auto. cbn [cb_elems length] in H1.
  destruct (negb _) in Hb; [inversion Hb; subst; discriminate|].
  minvas Hb as [r2 sb2] w5 H2.
  assert (L : (3 * N.of_nat (length (cb_elems sb2)) <= 3 * N.of_nat (length (cb_elems sb1)) + 16389)%N).
  { destruct (negb _) in H2; [eapply ws_bytes; eauto|inversion H2; subst; lia]. }
  destruct (negb _) in Hb; [inversion Hb; subst; discriminate|].
  minvas Hb as res2 w6 H3. inversion Hb; subst. clear Hb.
  apply write_token_inv in H3 as [(-> & _)|(-> & _)]; [discriminate|].
  cbn [er_out er_len] in Hq, Hn. inversion Hq; subst. inversion Hn; subst. unfold cb_len. split; [lia|].
  do 2 eexists. split; [reflexivity|]. rewrite app_length. cbn [length]. lia.
Qed.
Print Assumptions C72_token_length.

(** The bounds at work: nine allocations for 46 bytes, eleven in the L8W8JWT_SMALL_STACK build; and a hundred
    control characters more in the issuer make the token 800 bytes longer. *)
Definition sized_outcome (m : res enc_res) : option (Z * option N * nat) :=
  match m with Ret r w' => Some (er_rc r, er_len r, allocations we w') | Undef _ => None end.
Definition ep_control (n : nat) : enc_params :=
  EncParams 0 (Ptr None (repeat x01 n)) (N.of_nat n) Null 0 Null 0 Null 0 0 0 0 CNull 0 CNull 0 (zstr "secret") 6 Null 0 true true.
Example C72_example :
  request_bytes ep_sample = 46%N
  /\ sized_outcome (l8w8jwt_encode pe toy (Some ep_sample) we) = Some (0%Z, Some 214%N, 9%nat)
  /\ sized_outcome (l8w8jwt_encode pe_small toy (Some ep_sample) we) = Some (0%Z, Some 214%N, 11%nat)
  /\ request_bytes (ep_control 3) = 3%N /\ request_bytes (ep_control 103) = 103%N
  /\ sized_outcome (l8w8jwt_encode pe toy (Some (ep_control 3)) we) = Some (0%Z, Some 119%N, 7%nat)
  /\ sized_outcome (l8w8jwt_encode pe toy (Some (ep_control 103)) we) = Some (0%Z, Some 919%N, 7%nat).
Proof. vm_compute. repeat split. Qed.
