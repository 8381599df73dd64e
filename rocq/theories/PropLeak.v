(** * Properties C32 and C46: who owns which block *)
From Verif Require Import Base BaseProofs HeapProofs Util UtilProofs Claim Base64 SpecB64
  Base64EncApi Base64DecProofs Base64Api Jsmn Env Encode Decode SpecJson SpecJwa ClaimProofs UnescapeProofs
  SignProofs PropEncode DecodeProofs DecodeInv PropVerify JsmnProofs ParseProofs PropClaim ReadProofs ValidateProofs
  PropValidate LocalProofs.
From Coq Require Import ZifyBool ZifyNat ZifyN Permutation.
Ltac Zify.zify_post_hook ::= Z.div_mod_to_equations.
Local Opaque L8W8JWT_MAX_KEY_SIZE.

(** ** C32 *)
(** The tokenizer treats the text alike in both passes: if the counting pass finds more tokens than
    fit on the stack (64), the second pass does not fail. *)
Definition counted_right (e : env) (js : bytes) : Prop :=
  forall n, fst (e_jsmn e js None) = n -> (64 < n)%Z -> (0 <= fst (e_jsmn e js (Some n)))%Z.
(** The texts of the token that l8w8jwt_decode base64-decodes and reads as JSON: the header, the
    payload, and the payload of a two-part token when no algorithm is given. *)
Inductive json_segment (p : platform) (dp : dec_params) : bytes -> Prop :=
| JS_header jwt h rest : text dp jwt -> jwt = h ++ lit "." ++ rest -> no_dot h -> json_segment p dp h
| JS_payload jwt h pl rest : text dp jwt -> three_parts jwt h pl rest -> json_segment p dp pl
| JS_unsigned jwt h s rest n : text dp jwt -> dp_alg dp = (-1)%Z -> jwt = h ++ lit "." ++ s ++ x00 :: rest ->
    no_dot h -> no_dot s -> no_nul s ->
    n = to_size p (Z.of_N (dp_jwt_length dp) - Z.of_nat (length h + 1)) ->
    json_segment p dp (firstn (N.to_nat n) (s ++ x00 :: rest)).
Definition token_counted_right (p : platform) (e : env) (dp : dec_params) : Prop :=
  forall t js tail, json_segment p dp t -> url_decodes t js tail -> counted_right e js.

Lemma counted_released p e dp : token_counted_right p e dp -> all_released p e dp.
Proof.
  intros H sg (b & jwt & Ej & Hs).
  assert (G : forall t s, json_segment p dp t -> seg_of t s -> seg_released e s).
  { intros t s Hj (id & o & tail & Hd & ->) b' mem E. cbn [s_ptr s_len] in *. inversion E; subst. rewrite Nat2N.id.
    rewrite firstn_app_exact by reflexivity. unfold tokens_released. intros Hr. apply b64_decodes_url in Hd.
    exact (H t o tail Hj Hd _ eq_refl Hr). }
  destruct Hs as [(h & pl & rest & n & H3 & _ & _ & Sh & Sp & _)|(Ea & h & s & rest & n & E & N1 & N2 & N3 & N4 & En & _ & Sh & Sp & _)].
  - split; [refine (G h _ _ Sh)|refine (G pl _ _ Sp)].
    + destruct H3 as (-> & Nd & _). apply (JS_header _ _ _ h (pl ++ lit "." ++ rest) (ex_intro _ b Ej) eq_refl Nd).
    + apply (JS_payload _ _ jwt h pl rest (ex_intro _ b Ej) H3).
  - split; [refine (G h _ _ Sh)|refine (G _ _ _ Sp)].
    + subst jwt. apply (JS_header _ _ _ h (s ++ x00 :: rest) (ex_intro _ b Ej) eq_refl N1).
    + apply (JS_unsigned _ _ jwt h s rest n (ex_intro _ b Ej) Ea E N1 N3 N4 En).
Qed.

(** The blocks a result gives the caller. *)
Definition given_blocks (o : option (cptr * N)) : list nat :=
  match o with Some (CArr (Some id) cs, _) => id :: array_blocks cs | _ => [] end.
Lemma adds_of_growing w w' l : later w w' -> adds (growing w) (growing w') l -> adds w w' l.
Proof. intros L (_ & A). exact (conj L A). Qed.

Lemma decode_own_local p e params vn cn ln w r w' :
  wf w -> l8w8jwt_decode p e params vn cn ln w = Ret r w' ->
  exists own lost, handed (dr_claims r) own /\ adds w w' (own ++ lost)
    /\ (appended w w' -> (forall dp, params = Some dp -> all_released p e dp) -> lost = []).
Proof.
  intros Hwf H. destruct (decode_own _ _ _ _ _ _ _ _ _ Hwf H) as (own & lost & Hh & A & _).
  destruct (appended_dec w w') as [Hg|Hg]; [|exists own, lost; split; [exact Hh|split; [exact A|destruct Hg as (k & L & F); intros K; specialize (K k L); congruence]]].
  destruct A as (L & _). as_growing (local_decode p e params vn cn ln) H Hg.
  destruct (decode_own _ _ _ _ _ _ _ _ _ Hwf H) as (own' & lost' & Hh' & A' & G').
  exists own', lost'. split; [exact Hh'|]. split; [exact (adds_of_growing _ _ _ L A')|auto].
Qed.

Lemma decode_raw_own_local p e params vn hn hl pn pl sn sl w r w' :
  wf w -> l8w8jwt_decode_raw p e params vn hn hl pn pl sn sl w = Ret r w' ->
  exists lost, adds w w' (handed_raw r ++ lost) /\ raw_heap r
    /\ (appended w w' -> (forall dp, params = Some dp -> all_released p e dp) -> lost = []).
Proof.
  intros Hwf H. destruct (decode_raw_own _ _ _ _ _ _ _ _ _ _ _ _ _ Hwf H) as (lost & A & R & _).
  destruct (appended_dec w w') as [Hg|Hg]; [|exists lost; split; [exact A|split; [exact R|destruct Hg as (k & L & F); intros K; specialize (K k L); congruence]]].
  destruct A as (L & _). as_growing (local_decode_raw p e params vn hn hl pn pl sn sl) H Hg.
  destruct (decode_raw_own _ _ _ _ _ _ _ _ _ _ _ _ _ Hwf H) as (lost' & A' & R' & G').
  exists lost'. split; [exact (adds_of_growing _ _ _ L A')|]. split; [exact R'|auto].
Qed.

(** Freeing twice or freeing what is not a block is undefined in the model, so a call that returns did
    neither. Every block live after the call was live before, or is one of the pairwise different fresh
    blocks of the claims handed out (which [l8w8jwt_free_claims] can free, C47); nothing is handed out
    unless the call succeeds. This holds if no chillbuff_push_back fails and the tokenizer counts right.
    In general further blocks [lost] may remain. Missing: [lost = []] without these two assumptions,
    which is false. *)
Theorem C32_decode_frees_partial :
  forall p e params vn cn ln w r w',
    wf w -> l8w8jwt_decode p e params vn cn ln w = Ret r w' ->
    exists lost,
      NoDup (given_blocks (dr_claims r) ++ lost)
      /\ (forall i, In i (given_blocks (dr_claims r) ++ lost) -> w_live w i = false)
      /\ (forall i, w_live w' i = true <-> w_live w i = true \/ In i (given_blocks (dr_claims r) ++ lost))
      /\ (forall id cs n, dr_claims r = Some (CArr (Some id) cs, n) ->
            dr_rc r = L8W8JWT_SUCCESS /\ owns w' id cs /\ n = N.of_nat (length cs))
      /\ (appended w w' -> (forall dp, params = Some dp -> token_counted_right p e dp) -> lost = []).
Proof.
  intros p e params vn cn ln w r w' Hwf H.
  destruct (decode_own_local _ _ _ _ _ _ _ _ _ Hwf H) as (own & lost & Hh & A & G).
  assert (Eo : given_blocks (dr_claims r) = own).
  { unfold handed in Hh. unfold given_blocks. destruct (dr_claims r) as [[a n]|]; [|auto].
    destruct Hh as (id & cs & -> & _ & _ & ->). reflexivity. }
  exists lost. rewrite Eo. destruct A as (A1 & A2 & A3 & A4). split; [exact A2|].
  split; [intros i Hi; apply Hwf; apply A3 in Hi; lia|]. split; [exact A4|].
  split.
  - intros id cs n E. split.
    + destruct (Z.eq_dec (dr_rc r) L8W8JWT_SUCCESS) as [Er|Er]; [exact Er|].
      destruct (decode_failure _ _ _ _ _ _ _ _ _ H Er) as [_ C]. congruence.
    + rewrite E in Hh. destruct Hh as (id' & cs' & Ea & En & Hc & ->). inversion Ea; subst id' cs'. split; [|exact En].
      split; [exact Hc|]. split; [exact (nodup_app_l _ _ A2)|]. intros i Hi. apply A4. right. apply in_or_app. auto.
  - intros Hg Hr. apply G; [exact Hg|]. intros dp E. apply counted_released, Hr, E.
Qed.
Print Assumptions C32_decode_frees_partial.

(** The same for the raw variants: what they leave are the segments they hand out. *)
Theorem C32_decode_raw_frees_partial :
  forall p e params vn hn hl pn pl sn sl w r w',
    wf w -> l8w8jwt_decode_raw p e params vn hn hl pn pl sn sl w = Ret r w' ->
    exists lost, NoDup (handed_raw r ++ lost)
      /\ (forall i, w_live w' i = true <-> w_live w i = true \/ In i (handed_raw r ++ lost))
      /\ (appended w w' -> (forall dp, params = Some dp -> token_counted_right p e dp) -> lost = []).
Proof.
  intros p e params vn hn hl pn pl sn sl w r w' Hwf H.
  destruct (decode_raw_own_local _ _ _ _ _ _ _ _ _ _ _ _ _ Hwf H) as (lost & (A1 & A2 & A3 & A4) & _ & G).
  exists lost. split; [exact A2|]. split; [exact A4|].
  intros Hg Hr. apply G; [exact Hg|]. intros dp E. apply counted_released, Hr, E.
Qed.
Print Assumptions C32_decode_raw_frees_partial.
Theorem C32_decode_raw_no_validation_frees :
  forall p params hn hl pn pl sn sl w r w',
    wf w -> l8w8jwt_decode_raw_no_validation p params hn hl pn pl sn sl w = Ret r w' ->
    NoDup (handed_raw r)
    /\ (forall i, w_live w' i = true <-> w_live w i = true \/ In i (handed_raw r)).
Proof.
  intros p params hn hl pn pl sn sl w r w' Hwf H.
  destruct (decode_raw_nv_own _ _ _ _ _ _ _ _ _ _ _ Hwf H) as ((A1 & A2 & A3 & A4) & _). auto.
Qed.
Print Assumptions C32_decode_raw_no_validation_frees.

(** At most 64 tokens: counted right by any tokenizer. *)
Lemma few_tokens_counted e js : (fst (e_jsmn e js None) <= 64)%Z -> counted_right e js.
Proof. intros H n E Hn. lia. Qed.

(** The state of the heap after decoding: return code, blocks handed out, blocks live. *)
Definition heap_after (w : world) (dp : dec_params) : option (Z * list nat * list nat) :=
  match l8w8jwt_decode pe toy (Some dp) true true true w with
  | Ret r w' => Some (dr_rc r, given_blocks (dr_claims r), filter (w_live w') (seq 0 (w_next w')))
  | Undef _ => None
  end.
(** An array of 65 numbers, well-formed and without its closing bracket. *)
Definition zeros : string := String.concat ","%string (repeat "0"%string 65).
Definition many_params (close : string) : dec_params :=
  dp_plain (signed "{}" (String.append "{""a"":[" (String.append zeros close))) 0 (zstr "secret") 6.
Arguments many_params close%string_scope.
Definition we_tight : world :=
  World (fun _ => true) (fun k => negb (Nat.eqb k 1)) (fun _ _ => xff) 1 0 (fun _ => false).
Example C32_example :
  (exists r w', wf we /\ l8w8jwt_decode pe toy (Some (many_params "],""b"":1}")) true true true we = Ret r w'
     /\ dr_rc r = L8W8JWT_SUCCESS)
  /\ heap_after we (dp_plain sample_token 0 (zstr "secret") 6) <> None
  /\ heap_after we (many_params "],""b"":1}") = Some (L8W8JWT_SUCCESS, [1; 6; 7; 8; 9]%nat, [1; 6; 7; 8; 9]%nat).
Proof.
  split.
  - do 2 eexists. split; [apply we_wf|]. split; vm_compute; reflexivity.
  - split; vm_compute; [discriminate|reflexivity].
Qed.
(** As stated the claim is false, for two reasons. A payload of more than 64 tokens with an unclosed
    bracket makes decode fail and leave the token array allocated, although all allocations succeed. A
    failing chillbuff_push_back makes decode succeed and leave a claim's key and value allocated that
    it does not hand out. *)
Theorem C32_decode_frees_refuted :
  (exists p e dp w r w' i, wf w /\ allocs w /\ grows w
     /\ l8w8jwt_decode p e (Some dp) true true true w = Ret r w' /\ dr_rc r <> L8W8JWT_SUCCESS /\ dr_claims r = None
     /\ w_live w i = false /\ w_live w' i = true)
  /\ (exists p e dp w r w' i, wf w /\ allocs w
     /\ l8w8jwt_decode p e (Some dp) true true true w = Ret r w' /\ dr_rc r = L8W8JWT_SUCCESS
     /\ dr_valid r = Some L8W8JWT_VALID
     /\ w_live w i = false /\ w_live w' i = true /\ ~ In i (given_blocks (dr_claims r))).
Proof.
  split.
  - exists pe, toy, (many_params "}"), we. eexists. eexists. exists 5%nat. split; [apply we_wf|].
    split; [intros k; reflexivity|]. split; [intros k; reflexivity|].
    split; [vm_compute; reflexivity|]. split; [vm_compute; discriminate|]. split; [reflexivity|]. split; vm_compute; reflexivity.
  - exists pe, toy, (dp_plain (signed plain_header "{}") 0 (zstr "secret") 6), we_tight. eexists. eexists. exists 7%nat.
    split; [intros i _; reflexivity|]. split; [intros k; reflexivity|].
    split; [vm_compute; reflexivity|]. split; [reflexivity|]. split; [reflexivity|].
    split; [reflexivity|]. split; [vm_compute; reflexivity|]. vm_compute. intuition discriminate.
Qed.
Print Assumptions C32_decode_frees_refuted.

(** ** C46 *)
(** What a caller may hold: a block for l8w8jwt_free, or a claims array for l8w8jwt_free_claims. *)
Inductive thing := Block (q : ptr) | Claims (a : cptr) (n : N).
Definition blocks_of (x : thing) : list nat :=
  match x with
  | Block (Ptr (Some id) _) => [id]
  | Claims (CArr (Some id) cs) _ => id :: array_blocks cs
  | _ => []
  end.
(** A client's step: a call of the API with any arguments and in any environment (each call has its
    own clock, crypto backend, ...), or freeing the [k]-th thing it holds. *)
Inductive op :=
| Encode (e : env) (params : option enc_params)
| DecodeOp (e : env) (params : option dec_params) (vn cn ln : bool)
| RawOp (e : env) (params : option dec_params) (vn hn hl pn pl sn sl : bool)
| RawNoValidation (params : option dec_params) (hn hl pn pl sn sl : bool)
| FreeThing (k : nat).
Definition seg_thing (o : option seg) : list thing := match o with Some s => [Block (s_ptr s)] | None => [] end.
Definition raw_things (r : raw_res) : list thing :=
  seg_thing (rr_header r) ++ seg_thing (rr_payload r) ++ seg_thing (rr_signature r).
Definition remove_nth {A} (k : nat) (l : list A) : list A := firstn k l ++ skipn (S k) l.
Definition step (p : platform) (o : op) (held : list thing) : M (list thing) :=
  match o with
  | Encode e params =>
      r <- l8w8jwt_encode p e params ;;
      mret ((match er_out r with Some q => [Block q] | None => [] end) ++ held)
  | DecodeOp e params vn cn ln =>
      r <- l8w8jwt_decode p e params vn cn ln ;;
      mret ((match dr_claims r with Some (a, n) => [Claims a n] | None => [] end) ++ held)
  | RawOp e params vn hn hl pn pl sn sl =>
      r <- l8w8jwt_decode_raw p e params vn hn hl pn pl sn sl ;; mret (raw_things r ++ held)
  | RawNoValidation params hn hl pn pl sn sl =>
      r <- l8w8jwt_decode_raw_no_validation p params hn hl pn pl sn sl ;; mret (raw_things r ++ held)
  | FreeThing k =>
      match nth_error held k with
      | None => mret held
      | Some (Block q) => _ <- free q ;; mret (remove_nth k held)
      | Some (Claims a n) => _ <- l8w8jwt_free_claims a n ;; mret (remove_nth k held)
      end
  end.
Fixpoint run (p : platform) (ops : list op) (held : list thing) : M (list thing) :=
  match ops with
  | [] => mret held
  | o :: ops => held' <- step p o held ;; run p ops held'
  end.
(** The decode calls of a history meet the condition of C32. *)
Definition counted_op (p : platform) (o : op) : Prop :=
  match o with
  | DecodeOp e (Some dp) _ _ _ | RawOp e (Some dp) _ _ _ _ _ _ _ => token_counted_right p e dp
  | _ => True
  end.

(** Things whose blocks are on the heap, as they come out of the API. *)
Definition good (x : thing) : Prop :=
  match x with
  | Block Null | Block (Ptr (Some _) _) => True
  | Claims (CArr (Some _) cs) n => Forall heap_claim cs /\ n = N.of_nat (length cs)
  | _ => False
  end.
Definition held_blocks (held : list thing) : list nat := flat_map blocks_of held.
(** Invariant of a history. *)
Definition history (w0 w : world) (held : list thing) (lost : list nat) : Prop :=
  wf w0 /\ Forall good held /\ adds w0 w (held_blocks held ++ lost).

Lemma history_wf w0 w held lost : history w0 w held lost -> wf w.
Proof. intros (H & _ & A). eapply adds_wf; eauto. Qed.
Lemma history_add w0 w w1 held lost new lost' :
  history w0 w held lost -> adds w w1 (held_blocks new ++ lost') -> Forall good new ->
  history w0 w1 (new ++ held) (lost ++ lost').
Proof.
  intros (H & G & A) B Gn. split; [exact H|]. split; [apply Forall_app; auto|].
  eapply adds_perm; [|eapply adds_trans; [exact A|exact B]].
  unfold held_blocks. rewrite flat_map_app. etransitivity; [apply Permutation_app_swap_app|].
  rewrite <- !app_assoc. reflexivity.
Qed.
Lemma remove_nth_split {A} k (l : list A) x : nth_error l k = Some x ->
  exists l1 l2, l = l1 ++ x :: l2 /\ remove_nth k l = l1 ++ l2.
Proof.
  intros H. exists (firstn k l), (skipn (S k) l). split; [|reflexivity].
  revert l H. induction k as [|k IH]; intros [|y l] H; try discriminate.
  - inversion H; subst. reflexivity.
  - cbn [firstn skipn app]. f_equal. apply IH, H.
Qed.
Lemma adds_live' w w' l i : adds w w' l -> In i l -> w_live w' i = true.
Proof. intros (_ & _ & _ & A) H. apply A. auto. Qed.

(** In a state of a history, freeing a held thing is defined and keeps the invariant. *)
Lemma free_step p w0 w held lost k : history w0 w held lost ->
  exists w', step p (FreeThing k) held w = Ret (if (k <? length held)%nat then remove_nth k held else held) w'
    /\ history w0 w' (if (k <? length held)%nat then remove_nth k held else held) lost.
Proof.
  intros Hh. cbn [step]. destruct (nth_error held k) as [x|] eqn:En.
  2:{ apply nth_error_None in En. destruct (Nat.ltb_spec k (length held)); [lia|]. exists w. split; [reflexivity|exact Hh]. }
  assert (Hk : (k <? length held)%nat = true) by (apply Nat.ltb_lt, nth_error_Some; congruence). rewrite Hk.
  destruct Hh as (Hw & G & A). destruct (remove_nth_split _ _ _ En) as (l1 & l2 & -> & Er). rewrite Er.
  assert (Gx : good x /\ Forall good (l1 ++ l2)).
  { apply Forall_app in G as [G1 G2]. inversion G2; subst. split; [assumption|]. apply Forall_app. auto. }
  destruct Gx as [Gx G']. unfold held_blocks in A. rewrite flat_map_app in A. cbn [flat_map] in A.
  rewrite <- !app_assoc in A.
  assert (Eb : held_blocks (l1 ++ l2) ++ lost = flat_map blocks_of l1 ++ flat_map blocks_of l2 ++ lost).
  { unfold held_blocks. rewrite flat_map_app, <- app_assoc. reflexivity. }
  destruct x as [[|[id|] mem]|[|[id|] cs] n]; cbn [good] in Gx; try contradiction; cbn [blocks_of] in A.
  - exists w. split; [reflexivity|]. split; [exact Hw|]. split; [exact G'|]. rewrite Eb. exact A.
  - cbn [app] in A. exists (w_free w id).
    assert (Hl : w_live w id = true).
    { apply (adds_live' _ _ _ _ A). apply in_or_app. right. left. reflexivity. }
    split.
    + unfold mbind. cbn [free]. rewrite free_id_eq by exact Hl. reflexivity.
    + split; [exact Hw|]. split; [exact G'|]. rewrite Eb. exact (proj2 (adds_free w0 w _ id _ Hw A)).
  - destruct Gx as [Hc ->].
    assert (A' : adds w0 w (id :: array_blocks cs ++ flat_map blocks_of l1 ++ flat_map blocks_of l2 ++ lost)).
    { eapply adds_perm; [|exact A]. exact (Permutation_app_swap_app (flat_map blocks_of l1) (id :: array_blocks cs) _). }
    destruct (free_claims_adds w0 w id cs _ Hw Hc A') as (w' & Ef & A2).
    exists w'. split.
    + unfold mbind. rewrite Ef. reflexivity.
    + split; [exact Hw|]. split; [exact G'|]. rewrite Eb. exact A2.
Qed.

Lemma seg_thing_blocks o : (forall s, o = Some s -> seg_heap s) ->
  held_blocks (seg_thing o) = handed_seg o /\ Forall good (seg_thing o).
Proof.
  intros H. destruct o as [s|]; [|split; [reflexivity|constructor]].
  specialize (H s eq_refl). unfold seg_heap in H. unfold seg_thing, held_blocks, handed_seg, seg_blocks. cbn [flat_map blocks_of].
  rewrite app_nil_r. destruct (s_ptr s) as [|[id|] m]; [..|contradiction]; (split; [reflexivity|repeat constructor]).
Qed.
Lemma raw_things_blocks r : raw_heap r -> held_blocks (raw_things r) = handed_raw r /\ Forall good (raw_things r).
Proof.
  intros H. unfold raw_things, handed_raw.
  destruct (seg_thing_blocks (rr_header r)) as [E1 G1]; [intros s E; apply H; auto|].
  destruct (seg_thing_blocks (rr_payload r)) as [E2 G2]; [intros s E; apply H; auto|].
  destruct (seg_thing_blocks (rr_signature r)) as [E3 G3]; [intros s E; apply H; auto|].
  unfold held_blocks in *. rewrite !flat_map_app, E1, E2, E3. split; [reflexivity|]. rewrite !Forall_app. auto.
Qed.

Lemma step_history p o w0 w held lost held' w' :
  (6 <= p_size_bits p)%N -> history w0 w held lost -> step p o held w = Ret held' w' ->
  exists lost', history w0 w' held' (lost ++ lost') /\ (grows w0 -> counted_op p o -> lost' = []).
Proof.
  intros Hp Hh H. pose proof (history_wf _ _ _ _ Hh) as Hwf.
  assert (Hg : grows w0 -> grows w) by (destruct Hh as (_ & _ & A); apply adds_later in A; apply grows_later, A).
  destruct o as [e params|e params vn cn ln|e params vn hn hl pn pl sn sl|params hn hl pn pl sn sl|k].
  - cbn [step] in H. minvas H as r w1 H1. inversion H; subst held' w1. clear H.
    exists []. split; [|auto]. destruct params as [ep|].
    + apply encode_inv in H1 as [(_ & Ho & _ & Q)|(_ & _ & id & t & Ho & _ & Hid & Hl & Hlive & _)]; auto.
      * apply (history_add _ _ _ _ _ _ [] Hh).
        -- destruct Ho as [-> | ->]; apply adds_quiet, Q.
        -- destruct Ho as [-> | ->]; repeat constructor.
      * rewrite Ho. apply (history_add _ _ _ _ _ [Block (Ptr (Some id) (t ++ [x00]))] [] Hh).
        -- cbn. split; [exact Hl|]. split; [constructor; [intros []|constructor]|].
           split; [intros i [<-|[]]; exact Hid|]. intros i. rewrite Hlive.
           destruct (Nat.eqb_spec i id) as [->|Hi]; [split; [intros _; right; left; reflexivity|reflexivity]|]. split; [intros K; left; exact K|]. intros [K|[K|K]]; [exact K|congruence|destruct K].
        -- repeat constructor.
    + unfold l8w8jwt_encode in H1. inversion H1; subst.
      apply (history_add _ _ _ _ _ [] [] Hh); [apply adds_refl|constructor].
  - cbn [step] in H. minvas H as r w1 H1. inversion H; subst held' w1. clear H.
    destruct (decode_own _ _ _ _ _ _ _ _ _ Hwf H1) as (own & l' & Hd & A & G).
    exists l'. split.
    + apply (history_add _ _ _ _ _ _ l' Hh).
      * unfold handed in Hd. destruct (dr_claims r) as [[a n]|].
        -- destruct Hd as (id & cs & -> & _ & _ & ->). cbn [held_blocks flat_map blocks_of]. rewrite app_nil_r. exact A.
        -- subst own. exact A.
      * unfold handed in Hd. destruct (dr_claims r) as [[a n]|]; [|constructor].
        destruct Hd as (id & cs & -> & -> & Hc & _). constructor; [|constructor]. cbn. auto.
    + intros Hgr Hc. apply G; [auto|]. intros dp ->. apply counted_released, Hc.
  - cbn [step] in H. minvas H as r w1 H1. inversion H; subst held' w1. clear H.
    destruct (decode_raw_own _ _ _ _ _ _ _ _ _ _ _ _ _ Hwf H1) as (l' & A & Hr & G).
    destruct (raw_things_blocks r Hr) as [E Gd]. exists l'. split.
    + apply (history_add _ _ _ _ _ _ l' Hh); [rewrite E; exact A|exact Gd].
    + intros Hgr Hc. apply G; [auto|]. intros dp ->. apply counted_released, Hc.
  - cbn [step] in H. minvas H as r w1 H1. inversion H; subst held' w1. clear H.
    destruct (decode_raw_nv_own _ _ _ _ _ _ _ _ _ _ _ Hwf H1) as (A & Hr).
    destruct (raw_things_blocks r Hr) as [E Gd]. exists []. split; [|auto].
    apply (history_add _ _ _ _ _ _ [] Hh); [rewrite E, app_nil_r; exact A|exact Gd].
  - destruct (free_step p w0 w held lost k Hh) as (w1 & E & Hh'). rewrite E in H. inversion H; subst.
    exists []. rewrite app_nil_r. auto.
Qed.

Lemma run_history p ops : (6 <= p_size_bits p)%N -> forall w0 w held lost held' w',
  history w0 w held lost -> run p ops held w = Ret held' w' ->
  exists lost', history w0 w' held' (lost ++ lost') /\ (grows w0 -> Forall (counted_op p) ops -> lost' = []).
Proof.
  intros Hp. induction ops as [|o ops IH]; intros w0 w held lost held' w' Hh H; cbn [run] in H.
  - inversion H; subst. exists []. rewrite app_nil_r. auto.
  - minvas H as h1 w1 H1. destruct (step_history _ _ _ _ _ _ _ _ Hp Hh H1) as (l1 & Hh1 & G1).
    destruct (IH _ _ _ _ _ _ Hh1 H) as (l2 & Hh2 & G2). exists (l1 ++ l2). rewrite app_assoc. split; [exact Hh2|].
    intros Hg Hf. inversion Hf; subst. rewrite G1, G2; auto.
Qed.

(** For every finite history of API calls that returned, with any arguments, environments and
    allocator outcomes:
    - the client's blocks are pairwise different and live: each thing it holds can be freed (no double
      free, no free of a foreign pointer), which removes exactly that thing's blocks;
    - the live blocks are those live at the start, the client's, and a list [lost], which is empty if
      no chillbuff_push_back fails and each decoded token is counted right (C32).
    Missing: [lost = []] without these assumptions, which is false. *)
Theorem C46_histories_partial :
  forall p ops w held w',
    (6 <= p_size_bits p)%N -> wf w -> run p ops [] w = Ret held w' ->
    exists lost,
      NoDup (held_blocks held ++ lost)
      /\ (forall i, w_live w' i = true <-> w_live w i = true \/ In i (held_blocks held ++ lost))
      /\ (forall i, In i (held_blocks held ++ lost) -> w_live w i = false)
      /\ (forall k x, nth_error held k = Some x ->
            exists w2, step p (FreeThing k) held w' = Ret (remove_nth k held) w2
              /\ forall i, w_live w2 i = true <-> w_live w' i = true /\ ~ In i (blocks_of x))
      /\ (grows w -> Forall (counted_op p) ops -> lost = []).
Proof.
  intros p ops w held w' Hp Hwf H.
  assert (H0 : history w w [] []) by (split; [exact Hwf|]; split; [constructor|apply adds_refl]).
  destruct (run_history p ops Hp _ _ _ _ _ _ H0 H) as (lost & Hh & G). cbn [app] in *.
  exists lost. pose proof Hh as (_ & _ & (A1 & A2 & A3 & A4)).
  split; [exact A2|]. split; [exact A4|]. split; [intros i Hi; apply Hwf; apply A3 in Hi; lia|]. split; [|exact G].
  intros k x En. destruct (free_step p w w' held lost k Hh) as (w2 & E & Hh2).
  assert (Hk : (k <? length held)%nat = true) by (apply Nat.ltb_lt, nth_error_Some; congruence).
  rewrite Hk in *. exists w2. split; [exact E|]. destruct Hh2 as (_ & _ & (B1 & B2 & B3 & B4)).
  intros i. rewrite B4, A4. destruct (remove_nth_split _ _ _ En) as (l1 & l2 & -> & Er). rewrite Er.
  unfold held_blocks in *. rewrite !flat_map_app in *. cbn [flat_map] in *.
  assert (Hx : In i (blocks_of x) -> w_live w i = false /\ ~ In i (flat_map blocks_of l1 ++ flat_map blocks_of l2) /\ ~ In i lost).
  { intros Hi. split; [apply Hwf; enough (w_next w <= i < w_next w')%nat by lia; apply A3; rewrite !in_app_iff; auto|].
    assert (P : Permutation ((flat_map blocks_of l1 ++ blocks_of x ++ flat_map blocks_of l2) ++ lost)
      (blocks_of x ++ (flat_map blocks_of l1 ++ flat_map blocks_of l2) ++ lost)).
    { rewrite <- !app_assoc. apply Permutation_app_swap_app. }
    apply (Permutation_NoDup P) in A2.
    assert (D : forall (a b : list nat), NoDup (a ++ b) -> In i a -> ~ In i b).
    { clear. induction a as [|y a IH]; intros b N Hi Hb; [destruct Hi|]. cbn in N. inversion N as [|? ? N1 N2]; subst.
      destruct Hi as [->|Hi]; [apply N1, in_or_app; auto|exact (IH b N2 Hi Hb)]. }
    pose proof (D _ _ A2 Hi) as K. rewrite in_app_iff in K. tauto. }
  rewrite !in_app_iff in *. split.
  - intros K. split; [tauto|]. intros Hi. apply Hx in Hi as (X & Y & Z). rewrite X in K.
    destruct K as [K|K]; [discriminate|tauto].
  - tauto.
Qed.
Print Assumptions C46_histories_partial.

(** Non-vacuous: encode two tokens, decode the sample, free in another order, decode raw, free all. *)
Definition sample_history : list op :=
  [ Encode toy (Some ep_sample); DecodeOp toy (Some (dp_plain sample_token 0 (zstr "secret") 6)) true true true;
    Encode toy (Some ep_sample); FreeThing 1; DecodeOp toy None true true true;
    RawOp toy (Some (dp_plain sample_token 0 (zstr "secret") 6)) true true true true true true true;
    FreeThing 2; FreeThing 0; FreeThing 0 ].
Definition balance (ops : list op) : option (nat * list nat * list nat) :=
  match run pe ops [] we with
  | Ret held w' => Some (length held, held_blocks held, filter (w_live w') (seq 0 (w_next w')))
  | Undef _ => None
  end.
Example C46_example :
  (exists held w', run pe sample_history [] we = Ret held w' /\ length held = 2%nat)
  /\ balance sample_history = Some (2, [40; 9], [9; 40])%nat
  /\ balance (sample_history ++ [FreeThing 1; FreeThing 0]) = Some (0%nat, [], []).
Proof.
  split; [do 2 eexists; split; [vm_compute; reflexivity|reflexivity]|].
  split; vm_compute; reflexivity.
Qed.
(** As stated the claim is false: one decode call of the unbalanced token leaks (C32). *)
Theorem C46_histories_refuted :
  exists p ops w w' i, wf w /\ allocs w /\ grows w /\ run p ops [] w = Ret [] w' /\ w_live w i = false /\ w_live w' i = true.
Proof.
  exists pe, [DecodeOp toy (Some (many_params "}")) true true true], we. eexists. exists 5%nat.
  split; [apply we_wf|]. split; [intros k; reflexivity|]. split; [intros k; reflexivity|].
  split; [vm_compute; reflexivity|]. split; vm_compute; reflexivity.
Qed.
Print Assumptions C46_histories_refuted.
