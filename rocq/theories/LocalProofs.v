(** * Only the allocations and appends a call makes can influence it *)
From Verif Require Import Base BaseProofs HeapProofs Util Claim Base64 Jsmn Env Encode Decode SpecB64 SpecJson ClaimProofs.
From Coq Require Import ZifyBool ZifyNat ZifyN.

(** The same world with other answers to allocations and appends. *)
Definition with_luck (a g : nat -> bool) (w : world) : world :=
  World a g (w_junk w) (w_next w) (w_pushes w) (w_live w).
(** [m] asks for the allocations and appends numbered between the world before and the world after, and with the
    same answers to these does the same. *)
Definition local {A} (m : M A) : Prop :=
  forall w x w', m w = Ret x w' ->
    w_alloc w' = w_alloc w /\ w_grow w' = w_grow w /\ (w_next w <= w_next w')%nat /\ (w_pushes w <= w_pushes w')%nat
    /\ forall a g, (forall k, (w_next w <= k < w_next w')%nat -> a k = w_alloc w k) ->
                   (forall k, (w_pushes w <= k < w_pushes w')%nat -> g k = w_grow w k) ->
                   m (with_luck a g w) = Ret x (with_luck a g w').

Lemma local_ret {A} (x : A) : local (mret x).
Proof. intros w y w' H. inversion H; subst. repeat split; auto. Qed.
Lemma local_ub {A} u : local (@mub A u).
Proof. intros w y w' H. discriminate H. Qed.
Lemma local_lift {A} (u : U A) : local (lift u).
Proof. unfold lift. destruct u; [apply local_ret|apply local_ub]. Qed.
Lemma local_bind {A B} (m : M A) (k : A -> M B) : local m -> (forall x, local (k x)) -> local (mbind m k).
Proof.
  intros Hm Hk w y w' H. unfold mbind in H. destruct (m w) as [x w1|u] eqn:E; [|discriminate].
  destruct (Hm _ _ _ E) as (A1 & G1 & N1 & P1 & S1). destruct (Hk _ _ _ _ H) as (A2 & G2 & N2 & P2 & S2).
  split; [congruence|]. split; [congruence|]. split; [lia|]. split; [lia|]. intros a g Ha Hg.
  unfold mbind. rewrite S1.
  - apply S2; intros i Hi; [rewrite A1; apply Ha; lia|rewrite G1; apply Hg; lia].
  - intros i Hi. apply Ha. lia.
  - intros i Hi. apply Hg. lia.
Qed.
Lemma local_alloc : local alloc.
Proof.
  intros w x w' H. unfold alloc in H. destruct (w_alloc w (w_next w)) eqn:E; inversion H; subst; cbn;
    (repeat split; [lia..|]; intros a g Ha Hg; unfold alloc; cbn; rewrite Ha, E by lia; reflexivity).
Qed.
Lemma local_malloc n : local (malloc n).
Proof.
  intros w x w' H. unfold malloc in H. destruct (alloc w) as [[id|] w1|u] eqn:E; inversion H; subst;
    destruct (local_alloc _ _ _ E) as (A1 & G1 & N1 & P1 & S1); (repeat split; [auto..|]);
    intros a g Ha Hg; unfold malloc; rewrite S1 by auto; reflexivity.
Qed.
Lemma local_calloc n : local (calloc n).
Proof. apply local_bind; [apply local_alloc|intros; apply local_ret]. Qed.
Lemma local_init A : local (cb_init A).
Proof. apply local_bind; [apply local_alloc|intros; apply local_ret]. Qed.
Lemma local_free_id i : local (free_id i).
Proof.
  intros w x w' H. unfold free_id in H. destruct (w_live w i) eqn:E; inversion H; subst; cbn.
  repeat split; auto. intros a g _ _. unfold free_id. cbn. rewrite E. reflexivity.
Qed.
Lemma local_free q : local (free q).
Proof. destruct q as [|[i|] m]; [apply local_ret|apply local_free_id|apply local_ub]. Qed.
Lemma local_zeroize q n : local (zeroize q n).
Proof.
  intros w x w' H. unfold zeroize in *. destruct q as [|b m].
  - destruct (n =? 0)%N; inversion H; subst. repeat split; auto.
  - destruct (negb _); [discriminate|]. destruct b as [i|].
    + destruct (w_live w i) eqn:E; inversion H; subst. repeat split; auto. intros a g _ _. cbn. rewrite E. reflexivity.
    + inversion H; subst. repeat split; auto.
Qed.
Lemma local_push {A} (b : chillbuff A) e : local (cb_push b e).
Proof.
  intros w x w' H. unfold cb_push in H. destruct (w_grow w (w_pushes w)) eqn:E; inversion H; subst; cbn;
    (repeat split; [lia..|]; intros a g Ha Hg; unfold cb_push; cbn; rewrite Hg, E by lia; reflexivity).
Qed.
Create HintDb local.
#[export] Hint Resolve local_ret local_ub local_lift local_alloc local_malloc local_calloc local_init local_free_id local_free
  local_zeroize local_push : local.
Ltac loc := repeat first
  [ solve [eauto with local]
  | apply local_bind; [|intros]
  | match goal with
    | |- local (let _ := _ in _) => cbv zeta
    | |- local (match ?x with _ => _ end) => destruct x
    end ].

(** ** src/claim.c, src/base64.c *)
Lemma local_free_each cs : forall n, local (free_each cs n).
Proof. induction cs as [|c cs IH]; intros n; cbn [free_each]; loc. Qed.
#[export] Hint Resolve local_free_each : local.
Lemma local_free_claims c n : local (l8w8jwt_free_claims c n).
Proof. unfold l8w8jwt_free_claims. loc. Qed.
Lemma local_escape_each p s : forall b, local (escape_each p b s).
Proof. induction s as [|c s IH]; intros b; cbn [escape_each]; loc. Qed.
#[export] Hint Resolve local_escape_each : local.
Lemma local_escape p b s n : local (l8w8jwt_escape_claim_string p b s n).
Proof. unfold l8w8jwt_escape_claim_string. loc. Qed.
#[export] Hint Resolve local_escape : local.
Lemma local_write_each p cs : forall sb eb n first, local (write_each p sb eb cs n first).
Proof. induction cs as [|c cs IH]; intros sb eb n first; cbn [write_each]; loc. Qed.
#[export] Hint Resolve local_write_each : local.
Lemma local_write_claims p sb c n : local (l8w8jwt_write_claims p sb c n).
Proof. unfold l8w8jwt_write_claims, cb_free. loc. Qed.
Lemma local_base64_encode p u d n a b : local (l8w8jwt_base64_encode p u d n a b).
Proof. unfold l8w8jwt_base64_encode. loc. Qed.
Lemma local_base64_decode u d n a b : local (l8w8jwt_base64_decode u d n a b).
Proof. unfold l8w8jwt_base64_decode. loc. Qed.
#[export] Hint Resolve local_write_claims local_base64_encode local_base64_decode : local.

(** ** src/encode.c *)
Lemma local_encode_segment p d n : local (encode_segment p d n).
Proof. unfold encode_segment. loc. Qed.
#[export] Hint Resolve local_encode_segment : local.
Lemma local_whp p sb ep : local (write_header_and_payload p sb ep).
Proof. unfold write_header_and_payload, cb_free. loc. Qed.
Lemma local_wsb p e sb ep : local (write_signature_body p e sb ep).
Proof. unfold write_signature_body. loc. Qed.
#[export] Hint Resolve local_whp local_wsb : local.
Lemma local_ws p e sb ep : local (write_signature p e sb ep).
Proof. unfold write_signature. loc. Qed.
Lemma local_write_token sb : local (write_token sb).
Proof. unfold write_token. loc. Qed.
#[export] Hint Resolve local_ws local_write_token : local.
Lemma local_encode p e ep : local (l8w8jwt_encode p e ep).
Proof. unfold l8w8jwt_encode, encode_body, cb_free. loc. Qed.

(** ** src/decode.c *)
Lemma local_unescape p ty k kl v vl : local (l8w8jwt_unescape_claim p ty k kl v vl).
Proof. unfold l8w8jwt_unescape_claim. loc. Qed.
Lemma local_segments p dp : local (l8w8jwt_decode_segments p dp).
Proof. unfold l8w8jwt_decode_segments. loc. Qed.
#[export] Hint Resolve local_unescape local_segments : local.
Lemma local_claims_loop p e json a r fuel : forall i b, local (claims_loop fuel p e json a r i b).
Proof. induction fuel as [|f IH]; intros i b; cbn [claims_loop]; loc. Qed.
#[export] Hint Resolve local_claims_loop : local.
Lemma local_parse_claims p e b j n : local (l8w8jwt_parse_claims p e b j n).
Proof. unfold l8w8jwt_parse_claims. loc. Qed.
Lemma local_verify p e dp r s n : local (l8w8jwt_verify_signature p e dp r s n).
Proof. unfold l8w8jwt_verify_signature. loc. Qed.
Lemma local_free_claims_buffer p b : local (free_claims_buffer p b).
Proof. unfold free_claims_buffer, cb_free. loc. Qed.
#[export] Hint Resolve local_parse_claims local_verify local_free_claims_buffer : local.
Lemma local_give nn s : local (give_or_free nn s).
Proof. unfold give_or_free. loc. Qed.
#[export] Hint Resolve local_give : local.
Lemma local_decode p e dp a b c : local (l8w8jwt_decode p e dp a b c).
Proof. unfold l8w8jwt_decode, decode_body. loc. Qed.
Lemma local_decode_raw p e dp v a b c d f g : local (l8w8jwt_decode_raw p e dp v a b c d f g).
Proof. unfold l8w8jwt_decode_raw, decode_raw_body. loc. Qed.
Lemma local_decode_raw_no_validation p dp a b c d f g : local (l8w8jwt_decode_raw_no_validation p dp a b c d f g).
Proof. unfold l8w8jwt_decode_raw_no_validation. loc. Qed.

(** ** Calls that get all they ask for *)
(** Every allocation, every append numbered between the two worlds succeeds. *)
Definition allocated (w w' : world) : Prop := forall k, (w_next w <= k < w_next w')%nat -> w_alloc w k = true.
Definition appended (w w' : world) : Prop := forall k, (w_pushes w <= k < w_pushes w')%nat -> w_grow w k = true.
Definition ever : nat -> bool := fun _ => true.
Definition growing (w : world) : world := with_luck (w_alloc w) ever w.
Definition unlimited (w : world) : world := with_luck ever ever w.

Lemma local_growing {A} (m : M A) w x w' : local m -> m w = Ret x w' -> appended w w' -> m (growing w) = Ret x (growing w').
Proof.
  intros L H E. destruct (L _ _ _ H) as (A1 & _ & _ & _ & S). unfold growing. rewrite A1. apply S; intros k Hk; [reflexivity|].
  symmetry. apply E, Hk.
Qed.
Lemma local_unlimited {A} (m : M A) w x w' :
  local m -> m w = Ret x w' -> appended w w' -> allocated w w' -> m (unlimited w) = Ret x (unlimited w').
Proof.
  intros L H E1 E2. destruct (L _ _ _ H) as (_ & _ & _ & _ & S). apply S; intros k Hk; symmetry; auto.
Qed.
Lemma growing_grows w : grows (growing w).
Proof. intros k. reflexivity. Qed.
Lemma unlimited_allocs w : allocs (unlimited w).
Proof. intros k. reflexivity. Qed.
Lemma unlimited_grows w : grows (unlimited w).
Proof. intros k. reflexivity. Qed.
Lemma range_dec (f : nat -> bool) a b :
  (forall k, (a <= k < b)%nat -> f k = true) \/ exists k, (a <= k < b)%nat /\ f k = false.
Proof.
  induction b as [|b [IH|(k & Hk & E)]].
  - left. intros k Hk. lia.
  - destruct (f b) eqn:E.
    + left. intros k Hk. destruct (Nat.eq_dec k b) as [->|N]; [exact E|apply IH; lia].
    + destruct (le_lt_dec a b) as [L|L]; [right; exists b; split; [lia|exact E]|left; intros k Hk; lia].
  - right. exists k. split; [lia|exact E].
Qed.
Lemma appended_dec w w' : appended w w' \/ exists k, (w_pushes w <= k < w_pushes w')%nat /\ w_grow w k = false.
Proof. apply range_dec. Qed.
Lemma grows_appended w w' : grows w -> appended w w'.
Proof. intros H k _. apply H. Qed.
Lemma allocs_allocated w w' : allocs w -> allocated w w'.
Proof. intros H k _. apply H. Qed.
(** The tactics replace [H : m w = Ret x w'], whose appends (and allocations) are served, by the same call in a world
    in which all of them are. *)
Ltac as_growing L H Hg :=
  match type of H with ?m ?w = Ret ?x ?w' =>
    apply (local_growing m w x w' L) in H; [|exact Hg]; clear Hg; pose proof (growing_grows w) as Hg;
    repeat match goal with Hw : wf w |- _ => change (wf (growing w)) in Hw end
  end.
Ltac as_unlimited L H Hg Ha :=
  match type of H with ?m ?w = Ret ?x ?w' =>
    apply (local_unlimited m w x w' L) in H; [|exact Hg|exact Ha]; clear Hg Ha;
    pose proof (unlimited_grows w) as Hg; pose proof (unlimited_allocs w) as Ha;
    repeat match goal with Hw : wf w |- _ => change (wf (unlimited w)) in Hw end
  end.
