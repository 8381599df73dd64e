(** * Lemmas about the traces of Trace.v *)
From Verif Require Import Base BaseProofs HeapProofs Base64 Util UtilProofs Claim ClaimProofs Jsmn Env Encode Decode
  DecodeProofs CodeProofs Trace.
From Coq Require Import ZifyBool ZifyNat ZifyN.
Ltac Zify.zify_post_hook ::= Z.div_mod_to_equations.

(** ** Without the events, the functions are those of the other files. *)
Definition erases {A} (m : H A) (m' : M A) : Prop := forall w, snd (m w) = m' w.

Lemma er_ret {A} (a : A) : erases (hret a) (mret a). Proof. intros w. reflexivity. Qed.
Lemma er_ub {A} u : erases (@hub A u) (mub u). Proof. intros w. reflexivity. Qed.
Lemma er_lift {A} us (m : M A) : erases (hat us m) m. Proof. intros w. reflexivity. Qed.
Lemma er_op {A} (m : M A) ev : erases (hop m ev) m.
Proof. intros w. unfold hop. destruct (m w); reflexivity. Qed.
Lemma hbind_eq {A B} (m : H A) (k : A -> H B) w :
  hbind m k w = match snd (m w) with
                | Ret a w' => (fst (m w) ++ fst (k a w'), snd (k a w'))
                | Undef u => (fst (m w), Undef u)
                end.
Proof. unfold hbind. destruct (m w) as [t1 [a w'|u]]; cbn [fst snd]; [|reflexivity]. destruct (k a w'). reflexivity. Qed.
Lemma er_bind {A B} (m : H A) (k : A -> H B) m' k' :
  erases m m' -> (forall a, erases (k a) (k' a)) -> erases (hbind m k) (mbind m' k').
Proof.
  intros Hm Hk w. rewrite hbind_eq. unfold mbind. rewrite <- Hm. destruct (snd (m w)); simpl; [apply Hk|reflexivity].
Qed.
Lemma er_free_wiped q n : erases (hfree (wiped q n)) (free q).
Proof. intros w. unfold hfree, hop. destruct q as [|[id|] m]; cbn [wiped free]; [reflexivity| |reflexivity]. destruct (free_id id w); reflexivity. Qed.
Lemma er_free_held q u n : erases (hfree (wiped (holding q u) n)) (free q).
Proof.
  intros w. rewrite er_free_wiped. destruct q as [|[id|] m]; destruct u; reflexivity.
Qed.

Ltac er1 :=
  first
    [ apply er_ret | apply er_ub | apply er_lift | apply er_free_wiped | apply er_free_held | apply er_op
    | assumption
    | apply er_bind; [|intros]
    | match goal with
      | |- erases (if ?b then _ else _) _ => destruct b
      | |- erases (match ?o with Some _ => _ | None => _ end) _ => destruct o
      | |- erases (match ?o with pair _ _ => _ end) _ => destruct o
      | |- erases (match ?o with Null => _ | Ptr _ _ => _ end) _ => destruct o
      | |- erases (match ?o with DecDone _ => _ | DecBadPad => _ end) _ => destruct o
      end
    | progress cbv beta zeta ].
Ltac er := repeat er1.

Lemma er_base64_encode p url q n a b : erases (base64_encode_h p url q n a b) (l8w8jwt_base64_encode p url q n a b).
Proof. unfold base64_encode_h, l8w8jwt_base64_encode. er. Qed.
Lemma er_base64_decode url q n a b : erases (base64_decode_h url q n a b) (l8w8jwt_base64_decode url q n a b).
Proof. unfold base64_decode_h, l8w8jwt_base64_decode. er. Qed.
Lemma er_free_each arr cs : forall n, erases (free_each_h arr cs n) (free_each cs n).
Proof. induction cs as [|c t IH]; intros n; cbn [free_each_h free_each]; er. apply IH. Qed.
Lemma er_free_claims c n : erases (free_claims_h c n) (l8w8jwt_free_claims c n).
Proof.
  unfold free_claims_h, l8w8jwt_free_claims. destruct c as [|[id|] cs]; [er| |]; (apply er_bind; [apply er_free_each|intros _]); er.
Qed.
Lemma er_write_claims p sb c n : erases (write_claims_h p sb c n) (l8w8jwt_write_claims p sb c n).
Proof. unfold write_claims_h, l8w8jwt_write_claims. destruct c; er. Qed.
(** Only the bytes of a source matter, not its block. *)
Lemma enc_any_block p url b m n x y w :
  l8w8jwt_base64_encode p url (Ptr b m) n x y w = l8w8jwt_base64_encode p url (Ptr None m) n x y w.
Proof. reflexivity. Qed.
Lemma dec_any_block url b m n x y w :
  l8w8jwt_base64_decode url (Ptr b m) n x y w = l8w8jwt_base64_decode url (Ptr None m) n x y w.
Proof. reflexivity. Qed.
Lemma er_encode_segment p q n : erases (encode_segment_h p q n) (encode_segment p q n).
Proof. unfold encode_segment_h, encode_segment. apply er_bind; [apply er_base64_encode|]. intros r. er. Qed.
Ltac er1' := first [apply er_encode_segment | apply er_write_claims | er1].
Lemma er_header_and_payload p sb ep : erases (write_header_and_payload_h p sb ep) (write_header_and_payload p sb ep).
Proof. unfold write_header_and_payload_h, write_header_and_payload. repeat er1'. Qed.
Lemma er_sign_body p e sb ep kq sq : erases (write_signature_body_h p e sb ep kq sq) (write_signature_body p e sb ep).
Proof.
  assert (X : forall b m n, erases (encode_segment_h p (Ptr b m) n) (encode_segment p (Ptr None m) n)).
  { intros b m n w. rewrite er_encode_segment. reflexivity. }
  unfold write_signature_body_h, write_signature_body. repeat first [apply X | er1'].
Qed.
Lemma er_write_signature p e sb ep : erases (write_signature_h p e sb ep) (write_signature p e sb ep).
Proof. unfold write_signature_h, write_signature. repeat first [apply er_sign_body | er1']. Qed.
Lemma er_write_token sb : erases (write_token_h sb) (write_token sb).
Proof. unfold write_token_h, write_token. er. Qed.
Lemma er_encode p e params : erases (encode_h p e params) (l8w8jwt_encode p e params).
Proof.
  unfold encode_h, l8w8jwt_encode, encode_body_h, encode_body.
  repeat first [apply er_header_and_payload | apply er_write_signature | apply er_write_token | er1'].
Qed.
Lemma er_unescape_claim p jq t k kl v vl : erases (unescape_claim_h p jq t k kl v vl) (l8w8jwt_unescape_claim p t k kl v vl).
Proof. unfold unescape_claim_h, l8w8jwt_unescape_claim. er. Qed.
Lemma er_decode_segments p dp : erases (decode_segments_h p dp) (l8w8jwt_decode_segments p dp).
Proof.
  assert (X : forall b m n, erases (base64_decode_h true (Ptr b m) n true true) (l8w8jwt_base64_decode true (Ptr None m) n true true)).
  { intros b m n w. rewrite er_base64_decode. apply dec_any_block. }
  unfold decode_segments_h, l8w8jwt_decode_segments. repeat first [apply X | er1].
Qed.
Lemma er_claims_loop f p e jq aq js a : forall r i b, erases (claims_loop_h f p e jq aq js a r i b) (claims_loop f p e js a r i b).
Proof.
  induction f as [|f IH]; intros r i b; cbn [claims_loop_h claims_loop]; [apply er_ub|].
  repeat first [apply er_unescape_claim | apply IH | er1].
Qed.
Lemma er_parse_claims p e b q n : erases (parse_claims_h p e b q n) (l8w8jwt_parse_claims p e b q n).
Proof. unfold parse_claims_h, l8w8jwt_parse_claims. repeat first [apply er_claims_loop | er1]. Qed.
Lemma er_verify_signature p e dp v q n : erases (verify_signature_h p e dp v q n) (l8w8jwt_verify_signature p e dp v q n).
Proof. unfold verify_signature_h, l8w8jwt_verify_signature. er. Qed.
Lemma er_claims_buffer p b : erases (free_claims_buffer_h p b) (free_claims_buffer p b).
Proof. unfold free_claims_buffer_h, free_claims_buffer. destruct b; [apply er_free_claims|]. er. Qed.
Lemma er_decode_body p e dp b : erases (decode_body_h p e dp b) (decode_body p e dp b).
Proof.
  unfold decode_body_h, decode_body.
  repeat first [apply er_decode_segments | apply er_verify_signature | apply er_parse_claims | er1].
Qed.
Lemma er_decode p e params a b c : erases (decode_h p e params a b c) (l8w8jwt_decode p e params a b c).
Proof.
  unfold decode_h, l8w8jwt_decode. repeat first [apply er_decode_body | apply er_claims_buffer | er1].
Qed.
Lemma er_give nn s : erases (give_or_free_h nn s) (give_or_free nn s).
Proof. unfold give_or_free_h, give_or_free. er. Qed.
Lemma er_decode_raw p e params v a b c d f g :
  erases (decode_raw_h p e params v a b c d f g) (l8w8jwt_decode_raw p e params v a b c d f g).
Proof.
  unfold decode_raw_h, l8w8jwt_decode_raw.
  repeat first [apply (er_decode_body p e) | apply er_claims_buffer | apply er_give | er1].
Qed.
Lemma er_decode_raw_nv p params a b c d f g :
  erases (decode_raw_no_validation_h p params a b c d f g) (l8w8jwt_decode_raw_no_validation p params a b c d f g).
Proof.
  unfold decode_raw_no_validation_h, l8w8jwt_decode_raw_no_validation.
  repeat first [apply er_decode_segments | apply er_give | er1].
Qed.

(** ** Reasoning about traces *)
(** After the events [t]: no block was obtained twice, none beyond the world's counter. *)
Definition unique (t : list hevent) : Prop :=
  forall s s' id, In (Got s id) t -> In (Got s' id) t -> s = s'.
Definition inv (t : list hevent) (w : world) : Prop :=
  wf w /\ (forall s id, In (Got s id) t -> (id < w_next w)%nat) /\ unique t.
(** Every release in [tr], after [t], is of a block obtained before and allowed by [good]. *)
Definition released (good : way -> source -> content -> Prop) (t tr : list hevent) : Prop :=
  forall h id c, In (Gone h id c) tr -> exists s, In (Got s id) (t ++ tr) /\ good h s c.

(** The events of a trace other than accesses. *)
Definition life (tr : list hevent) : list hevent :=
  filter (fun x => match x with Used _ => false | _ => true end) tr.
Lemma life_app a b : life (a ++ b) = life a ++ life b.
Proof. apply filter_app. Qed.
Lemma life_used us : life (map Used us) = [].
Proof. induction us; [reflexivity|exact IHus]. Qed.
Lemma life_got s id tr : In (Got s id) (life tr) <-> In (Got s id) tr.
Proof. unfold life. rewrite filter_In. tauto. Qed.
Lemma life_gone h id c tr : In (Gone h id c) (life tr) <-> In (Gone h id c) tr.
Proof. unfold life. rewrite filter_In. tauto. Qed.

(** Obtained and released blocks; accesses are the business of LifeProofs.v. *)
Definition holds {A} (good : way -> source -> content -> Prop) (t : list hevent) (m : H A)
           (Q : A -> list hevent -> Prop) : Prop :=
  forall w, inv t w ->
    released good t (life (fst (m w))) /\ unique (t ++ life (fst (m w)))
    /\ forall a w', snd (m w) = Ret a w' -> inv (t ++ life (fst (m w))) w' /\ Q a (t ++ life (fst (m w))).

Definition upto (t t' : list hevent) : Prop := forall x, In x t -> In x t'.

(** [q] is NULL, not a heap block, or a block obtained from [s]. *)
Definition owned (t : list hevent) (s : source) (q : ptr) : Prop :=
  match q with Ptr (Some id) _ => In (Got s id) t | _ => True end.
Lemma owned_upto t t' s q : upto t t' -> owned t s q -> owned t' s q.
Proof. intros U. destruct q as [|[id|] m]; cbn; auto. Qed.

Section Rules.
Variable good : way -> source -> content -> Prop.

Lemma h_ret {A} t (a : A) (Q : A -> list hevent -> Prop) : Q a t -> holds good t (hret a) Q.
Proof.
  intros HQ w I. unfold hret. cbn. rewrite app_nil_r. split; [intros h id c []|]. split; [apply I|].
  intros a' w' E. inversion E; subst. auto.
Qed.
Lemma h_ub {A} t u (Q : A -> list hevent -> Prop) : holds good t (hub u) Q.
Proof.
  intros w I. unfold hub. cbn. rewrite app_nil_r. split; [intros h id c []|]. split; [apply I|]. discriminate.
Qed.
Lemma h_imp {A} t (m : H A) (Q Q' : A -> list hevent -> Prop) :
  holds good t m Q -> (forall a t', upto t t' -> Q a t' -> Q' a t') -> holds good t m Q'.
Proof.
  intros Hm HQ w I. destruct (Hm w I) as (R & U & K). split; [exact R|]. split; [exact U|].
  intros a w' E. destruct (K a w' E) as [I' q]. split; [exact I'|]. apply HQ; [|exact q].
  intros x Hx. apply in_or_app. auto.
Qed.
Lemma h_bind {A B} t (m : H A) (k : A -> H B) R Q :
  holds good t m R -> (forall a t', R a t' -> upto t t' -> holds good t' (k a) Q) ->
  holds good t (hbind m k) Q.
Proof.
  intros Hm Hk w I. destruct (Hm w I) as (Rm & Um & Km). rewrite hbind_eq.
  destruct (snd (m w)) as [a w1|u] eqn:E; cbn [fst snd].
  2:{ split; [exact Rm|]. split; [exact Um|]. discriminate. }
  destruct (Km a w1 eq_refl) as [I1 Ra].
  destruct (Hk a _ Ra (fun x Hx => in_or_app _ _ _ (or_introl Hx)) w1 I1) as (Rk & Uk & Kk).
  rewrite !life_app, !app_assoc. split; [|split; [exact Uk|]].
  - intros h id c Hin. apply in_app_or in Hin as [Hin|Hin].
    + destruct (Rm h id c Hin) as (s & Hs & Hg). exists s. rewrite app_assoc. split; [apply in_or_app; auto|exact Hg].
    + destruct (Rk h id c Hin) as (s & Hs & Hg). exists s. rewrite app_assoc. auto.
  - intros b w' E'. apply Kk. exact E'.
Qed.

(** Operations without events. *)
Lemma h_quiet {A} t us (m : M A) (P : A -> Prop) :
  (forall w a w', wf w -> m w = Ret a w' -> quiet w w' /\ P a) ->
  holds good t (hat us m) (fun a t' => t' = t /\ P a).
Proof.
  intros Hm w I. unfold hat. cbn [fst snd]. rewrite life_used, app_nil_r. split; [intros h id c []|]. split; [apply I|].
  intros a w' E. destruct I as (W & N & U). destruct (Hm w a w' W E) as [Q Pa]. split; [|auto].
  split; [eapply wf_quiet; eauto|]. split; [|exact U]. intros s id Hin. apply N in Hin.
  destruct Q as [(_ & _ & _ & L & _) _]. lia.
Qed.
Lemma h_lift {A} t us (m : U A) : holds good t (hat us (lift m)) (fun a t' => t' = t /\ m = OK a).
Proof. apply h_quiet. intros w a w' _ E. apply lift_inv in E as [E ->]. split; [apply quiet_refl|exact E]. Qed.
Lemma h_push {A} t us (b : chillbuff A) e :
  holds good t (hat us (cb_push b e)) (fun b' t' => t' = t /\ cb_id b' = cb_id b /\ (b' = b \/ cb_elems b' = cb_elems b ++ e)).
Proof.
  eapply h_imp; [apply (h_quiet t us _ (fun b' => cb_id b' = cb_id b /\ (b' = b \/ cb_elems b' = cb_elems b ++ e)))|].
  - intros w a w' _ E. rewrite cb_push_eq in E. destruct (w_grow w (w_pushes w)); inversion E; subst; (split; [apply quiet_push|]); auto.
  - intros a t' _ [-> K]. auto.
Qed.
Lemma h_zeroize t us q n : holds good t (hat us (zeroize q n)) (fun _ t' => t' = t).
Proof.
  eapply h_imp; [apply (h_quiet t us _ (fun _ => True))|].
  - intros w a w' _ E. apply zeroize_same in E as ->. split; [apply quiet_refl|exact I].
  - intros a t' _ [-> _]. reflexivity.
Qed.
Lemma h_write_each t us p sb eb cs n first :
  holds good t (hat us (write_each p sb eb cs n first)) (fun b' t' => t' = t /\ cb_id b' = cb_id sb).
Proof. apply h_quiet. intros w a w' _ E. apply write_each_inv in E as (Q & K & _). auto. Qed.

(** Obtaining a block. *)
Lemma h_obtain {A} t (m : M A) ev s (P : A -> list hevent -> Prop) :
  (forall w, (exists a, m w = Ret a (w_ok w) /\ ev a = [Got s (w_next w)] /\ P a (t ++ [Got s (w_next w)]))
             \/ (exists a, m w = Ret a (w_no w) /\ ev a = [] /\ P a t)) ->
  holds good t (hop m ev) P.
Proof.
  intros Hm w (W & N & U). unfold hop. destruct (Hm w) as [(a & -> & -> & Pa)|(a & -> & -> & Pa)]; cbn [fst snd].
  - assert (U' : unique (t ++ [Got s (w_next w)])).
    { intros s1 s2 id H1 H2. apply in_app_or in H1, H2.
      destruct H1 as [H1|[H1|[]]], H2 as [H2|[H2|[]]].
      - eapply U; eauto.
      - inversion H2; subst. apply N in H1. lia.
      - inversion H1; subst. apply N in H2. lia.
      - congruence. }
    split; [intros h id c [Hx|[]]; discriminate|]. split; [exact U'|].
    intros a' w' E. inversion E; subst. split; [|exact Pa]. split; [apply wf_ok; exact W|]. split; [|exact U'].
    intros s1 id Hin. apply in_app_or in Hin as [Hin|[Hin|[]]]; cbn; [apply N in Hin; lia|inversion Hin; lia].
  - rewrite app_nil_r. split; [intros h id c []|]. split; [exact U|]. intros a' w' E. inversion E; subst. split; [|exact Pa].
    split; [apply wf_no; exact W|]. split; [|exact U]. intros s1 id Hin. apply N in Hin. cbn. lia.
Qed.
Definition fresh_text (n : N) (f : bytes -> Prop) (s : source) (q : ptr) (t : list hevent) : Prop :=
  owned t s q /\ match q with Ptr (Some _) m => length m = N.to_nat n /\ f m | Ptr None _ => False | Null => True end.
Definition zeros (m : bytes) : Prop := Forall (fun x => x = x00) m.
Lemma zeros_repeat n : zeros (repeat x00 n).
Proof. apply Forall_forall. intros x Hx. apply repeat_spec in Hx. exact Hx. Qed.
Lemma h_malloc t n : holds good t (hmalloc n) (fresh_text n (fun _ => True) FromMalloc).
Proof.
  apply (h_obtain t _ _ FromMalloc). intros w. rewrite malloc_eq. destruct (w_alloc w (w_next w)); [left|right]; eexists; split; try reflexivity; split; try reflexivity.
  - split; [cbn; apply in_or_app; cbn; auto|]. split; [apply junk_length|exact I].
  - split; exact I.
Qed.
Lemma h_calloc t n : holds good t (hcalloc n) (fresh_text n zeros FromCalloc).
Proof.
  apply (h_obtain t _ _ FromCalloc). intros w. rewrite calloc_eq. destruct (w_alloc w (w_next w)); [left|right]; eexists; split; try reflexivity; split; try reflexivity.
  - split; [cbn; apply in_or_app; cbn; auto|]. split; [apply repeat_length|apply zeros_repeat].
  - split; exact I.
Qed.
Lemma h_init A t : holds good t (hcb_init A)
  (fun o t' => match o with Some b => In (Got FromBuffer (cb_id b)) t' /\ cb_elems b = [] | None => True end).
Proof.
  apply (h_obtain t _ _ FromBuffer). intros w. rewrite cb_init_eq. destruct (w_alloc w (w_next w)); [left|right]; eexists; split; try reflexivity; split; try reflexivity.
  split; [cbn; apply in_or_app; cbn; auto|reflexivity].
Qed.
Lemma h_tokens t : holds good t (hop alloc (fun o => match o with Some id => [Got FromMalloc id] | None => [] end))
  (fun o t' => match o with Some id => In (Got FromMalloc id) t' | None => True end).
Proof.
  apply (h_obtain t _ _ FromMalloc). intros w. rewrite alloc_eq. destruct (w_alloc w (w_next w)); [left|right]; eexists; split; try reflexivity; split; try reflexivity.
  cbn; apply in_or_app; cbn; auto.
Qed.

(** Releasing a block. *)
Lemma h_release t id (m : M unit) h s c :
  (forall w u w', m w = Ret u w' -> w' = w_free w id) ->
  In (Got s id) t -> good h s c ->
  holds good t (hop m (fun _ => [Gone h id c])) (fun _ t' => In (Gone h id c) t').
Proof.
  intros Hm Hin Hg w (W & N & U). unfold hop. destruct (m w) as [u w1|u] eqn:E; cbn [fst snd].
  - assert (X : forall s1 id1, In (Got s1 id1) (t ++ [Gone h id c]) -> In (Got s1 id1) t)
      by (intros s1 id1 K; apply in_app_or in K as [K|[K|[]]]; [exact K|discriminate]).
    assert (U' : unique (t ++ [Gone h id c])) by (intros s1 s2 i K1 K2; eapply U; apply X; eassumption).
    split.
    { intros h' id' c' [K|[]]. inversion K; subst. exists s. split; [apply in_or_app; auto|exact Hg]. }
    split; [exact U'|]. intros u' w' K. inversion K; subst. apply Hm in E as ->.
    split; [|apply in_or_app; cbn; auto]. split; [apply wf_free; exact W|]. split; [|exact U'].
    intros s1 i K1. apply X, N in K1. exact K1.
  - rewrite app_nil_r. split; [intros h' id' c' []|]. split; [exact U|]. discriminate.
Qed.
Lemma h_free t q s :
  owned t s q -> (forall id m, q = Ptr (Some id) m -> good ByFree s (Text m)) ->
  holds good t (hfree q) (fun _ t' => forall id m, q = Ptr (Some id) m -> In (Gone ByFree id (Text m)) t').
Proof.
  intros Ho Hg. unfold hfree. destruct q as [|[id|] m].
  - intros w I. unfold hop. cbn. rewrite app_nil_r. split; [intros h id c []|]. split; [apply I|].
    intros a w' E. inversion E; subst. split; [exact I|]. discriminate.
  - eapply h_imp; [apply (h_release t id _ ByFree s (Text m)); auto|].
    + intros w u w' E. cbn [free] in E. apply free_id_inv in E as [_ ->]. reflexivity.
    + eauto.
    + intros a t' _ K id' m' E. inversion E; subst. exact K.
  - intros w I. unfold hop. cbn. rewrite app_nil_r. split; [intros h id c []|]. split; [apply I|]. discriminate.
Qed.
Lemma h_free_untold t q s :
  owned t s q -> good ByFree s Untold -> holds good t (hfree_untold q) (fun _ _ => True).
Proof.
  intros Ho Hg. unfold hfree_untold. destruct q as [|[id|] m].
  - intros w I. unfold hop. cbn. rewrite app_nil_r. split; [intros h id c []|]. split; [apply I|].
    intros a w' E. inversion E; subst. auto.
  - eapply h_imp; [apply (h_release t id _ ByFree s Untold); auto|].
    + intros w u w' E. cbn [free] in E. apply free_id_inv in E as [_ ->]. reflexivity.
    + auto.
  - intros w I. unfold hop. cbn. rewrite app_nil_r. split; [intros h id c []|]. split; [apply I|]. discriminate.
Qed.
Lemma h_free_id t id s h c :
  In (Got s id) t -> good h s c -> holds good t (hop (free_id id) (fun _ => [Gone h id c])) (fun _ _ => True).
Proof.
  intros Ho Hg. eapply h_imp; [apply (h_release t id _ h s c); auto|auto].
  intros w u w' E. apply free_id_inv in E as [_ ->]. reflexivity.
Qed.
Lemma h_cb_free t (b : chillbuff byte) :
  In (Got FromBuffer (cb_id b)) t -> good ByBuffer FromBuffer (Text (cb_elems b)) ->
  holds good t (hcb_free b) (fun _ _ => True).
Proof. intros Ho Hg. unfold hcb_free, cb_free. eapply h_free_id; eauto. Qed.

(** A call's result is that of the function without events. *)
Lemma h_run {A} t (m : H A) m' Q :
  erases m m' -> holds good t m Q ->
  holds good t m (fun a t' => Q a t' /\ exists w w', wf w /\ m' w = Ret a w').
Proof.
  intros Er Hm w I. destruct (Hm w I) as (R & U & K). split; [exact R|]. split; [exact U|].
  intros a w' E. destruct (K a w' E) as [I' q]. split; [exact I'|]. split; [exact q|]. exists w, w'.
  split; [apply I|]. rewrite <- Er. exact E.
Qed.
End Rules.
