(** * Property C73: only the requests for memory a call makes can influence it *)
From Verif Require Import Base BaseProofs HeapProofs Util UtilProofs Claim Base64 SpecB64
  Base64EncProofs Base64EncApi Base64DecProofs Base64Api Jsmn Env Encode Decode SpecJson SpecJwa ClaimProofs UnescapeProofs
  EncodeProofs SignProofs EncodeTotal SpecEnc JsonProofs PropEncode DecodeProofs DecodeInv JsmnProofs ParseProofs
  PropClaim ReadProofs ValidateProofs JsmnJson JsmnSize PropVerify PropValidate PropLeak PropJson PropMemory PropEncMemory
  CodeProofs EncCodeProofs PropEncCodes LocalProofs.
From Coq Require Import ZifyBool ZifyNat ZifyN.

(** The functions of the API that ask for memory. *)
Inductive api : forall A, M A -> Prop :=
| api_base64_encode p url q n a b : api _ (l8w8jwt_base64_encode p url q n a b)
| api_base64_decode url q n a b : api _ (l8w8jwt_base64_decode url q n a b)
| api_escape p sb q n : api _ (l8w8jwt_escape_claim_string p sb q n)
| api_write_claims p sb cs n : api _ (l8w8jwt_write_claims p sb cs n)
| api_free_claims cs n : api _ (l8w8jwt_free_claims cs n)
| api_encode p e ep : api _ (l8w8jwt_encode p e ep)
| api_decode p e dp vn cn ln : api _ (l8w8jwt_decode p e dp vn cn ln)
| api_decode_raw p e dp vn hn hl pn pl sn sl : api _ (l8w8jwt_decode_raw p e dp vn hn hl pn pl sn sl)
| api_decode_raw_no_validation p dp hn hl pn pl sn sl :
    api _ (l8w8jwt_decode_raw_no_validation p dp hn hl pn pl sn sl).
Arguments api {A} _.

Lemma api_local A (m : M A) : api m -> local m.
Proof.
  intros [ ]; [apply local_base64_encode|apply local_base64_decode|apply local_escape|apply local_write_claims
    |apply local_free_claims|apply local_encode|apply local_decode|apply local_decode_raw|apply local_decode_raw_no_validation].
Qed.

(** Two worlds in which the same blocks are live and the same numbers come next. *)
Definition alike (w v : world) : Prop :=
  w_junk v = w_junk w /\ w_next v = w_next w /\ w_pushes v = w_pushes w /\ w_live v = w_live w.
(** [v] answers as [w] does the requests numbered from [w] up to [w']. *)
Definition same_answers (w w' v : world) : Prop :=
  (forall k, (w_next w <= k < w_next w')%nat -> w_alloc v k = w_alloc w k)
  /\ (forall k, (w_pushes w <= k < w_pushes w')%nat -> w_grow v k = w_grow w k).

Lemma alike_luck w v : alike w v -> v = with_luck (w_alloc v) (w_grow v) w.
Proof. destruct w, v. intros (E1 & E2 & E3 & E4). cbn in *. subst. reflexivity. Qed.
Lemma luck_alike a g w : alike w (with_luck a g w).
Proof. repeat split. Qed.

(** A call does the same wherever the requests it makes are answered the same. *)
Theorem C73_only_own_requests :
  forall A (m : M A) w x w', api m -> m w = Ret x w' ->
  forall v, alike w v -> same_answers w w' v -> exists v', m v = Ret x v' /\ alike w' v'.
Proof.
  intros A m w x w' Hm H v E [Ha Hg]. destruct (api_local _ _ Hm _ _ _ H) as (_ & _ & _ & _ & S).
  rewrite (alike_luck w v E). eexists. split; [apply S; assumption|apply luck_alike].
Qed.
Print Assumptions C73_only_own_requests.

(** In particular a call that gets all it asks for does what it would do with unlimited memory, and nothing else. *)
Theorem C73_as_with_unlimited_memory :
  forall A (m : M A) w v, api m -> alike w v -> allocs v -> grows v ->
    (forall x w', m w = Ret x w' -> allocated w w' -> appended w w' -> exists v', m v = Ret x v' /\ alike w' v')
    /\ (forall x v', m v = Ret x v' -> (forall k, (w_next w <= k < w_next v')%nat -> w_alloc w k = true) ->
          (forall k, (w_pushes w <= k < w_pushes v')%nat -> w_grow w k = true) -> exists w', m w = Ret x w' /\ alike w' v').
Proof.
  intros A m w v Hm E Ha Hg. split.
  - intros x w' H H1 H2. apply (C73_only_own_requests A m w x w' Hm H v E). split; intros k Hk.
    + rewrite H1 by exact Hk. apply Ha.
    + rewrite H2 by exact Hk. apply Hg.
  - intros x v' H H1 H2. destruct E as (E1 & E2 & E3 & E4).
    destruct (C73_only_own_requests A m v x v' Hm H w) as (w' & Hw & E').
    + repeat split; auto.
    + split; intros k Hk; [rewrite Ha; apply H1|rewrite Hg; apply H2]; lia.
    + exists w'. split; [exact Hw|]. destruct E' as (F1 & F2 & F3 & F4). repeat split; auto.
Qed.
Print Assumptions C73_as_with_unlimited_memory.

(** [n] allocations will succeed. *)
Definition enough (n : nat) (w : world) : Prop := forall k, (w_next w <= k < w_next w + n)%nat -> w_alloc w k = true.

Lemma enough_iff A (m : M A) n w v x : api m -> (forall u y u', alike w u -> m u = Ret y u' -> (allocations u u' <= n)%nat) ->
  enough n w -> grows w -> alike w v -> allocs v -> grows v ->
  ((exists w', m w = Ret x w') <-> exists v', m v = Ret x v').
Proof.
  intros Hm B En Hg E Ha Hgv. destruct (C73_as_with_unlimited_memory A m w v Hm E Ha Hgv) as [K1 K2].
  assert (Ew : alike w w) by (repeat split). split.
  - intros (w' & H). pose proof (B _ _ _ Ew H) as L. unfold allocations in L.
    destruct (K1 x w' H) as (v' & Hv & _); [|apply grows_appended, Hg|eauto].
    intros k Hk. apply En. lia.
  - intros (v' & H). pose proof (B _ _ _ E H) as L. unfold allocations in L. destruct E as (_ & E2 & _).
    destruct (K2 x v' H) as (w' & Hw & _); [|intros k _; apply Hg|eauto].
    intros k Hk. apply En. lia.
Qed.

(** 11 allocations are enough for l8w8jwt_encode: it does exactly what it does with unlimited memory. *)
Theorem C73_encode_enough :
  forall p e ep w v r, alike w v -> allocs v -> grows v -> grows w -> enough 11 w ->
    ((exists w', l8w8jwt_encode p e ep w = Ret r w') <-> exists v', l8w8jwt_encode p e ep v = Ret r v').
Proof.
  intros p e ep w v r E Ha Hgv Hg En. apply (enough_iff _ _ 11); auto; [constructor|].
  intros u y u' _ H. exact (C72_encode_allocations _ _ _ _ _ _ H).
Qed.
Print Assumptions C73_encode_enough.

Lemma alike_wf w v : alike w v -> wf w -> wf v.
Proof. intros (_ & E & _ & F) H. unfold wf in *. rewrite E, F. exact H. Qed.

(** As many as the text has bytes, and 9 more, are enough for decoding; 3 without validation. *)
Theorem C73_decode_enough :
  forall p e dp w v, wf w -> uses_jsmn e -> alike w v -> allocs v -> grows v -> grows w ->
    enough (memory (dp_jwt dp) + 9) w ->
    (forall vn cn ln r, (exists w', l8w8jwt_decode p e (Some dp) vn cn ln w = Ret r w')
                    <-> exists v', l8w8jwt_decode p e (Some dp) vn cn ln v = Ret r v')
    /\ (forall vn hn hl pn pl sn sl r, (exists w', l8w8jwt_decode_raw p e (Some dp) vn hn hl pn pl sn sl w = Ret r w')
                    <-> exists v', l8w8jwt_decode_raw p e (Some dp) vn hn hl pn pl sn sl v = Ret r v').
Proof.
  intros p e dp w v Hwf Hj E Ha Hgv Hg En. split; intros; apply (enough_iff _ _ (memory (dp_jwt dp) + 9)); auto; try constructor.
  - intros u y u' Eu H. apply (C65_decode_memory _ _ _ _ _ _ _ _ _ Hj (alike_wf _ _ Eu Hwf) H).
  - intros u y u' Eu H. apply (C65_decode_raw_memory _ _ _ _ _ _ _ _ _ _ _ _ _ Hj (alike_wf _ _ Eu Hwf) H).
Qed.
Print Assumptions C73_decode_enough.

Theorem C73_no_validation_enough :
  forall p dp w v hn hl pn pl sn sl r, wf w -> alike w v -> allocs v -> grows v -> grows w -> enough 3 w ->
    ((exists w', l8w8jwt_decode_raw_no_validation p (Some dp) hn hl pn pl sn sl w = Ret r w')
     <-> exists v', l8w8jwt_decode_raw_no_validation p (Some dp) hn hl pn pl sn sl v = Ret r v').
Proof.
  intros p dp w v hn hl pn pl sn sl r Hwf E Ha Hgv Hg En. apply (enough_iff _ _ 3); auto; [constructor|].
  intros u y u' Eu H. apply (C65_no_validation_memory _ _ _ _ _ _ _ _ _ _ _ (alike_wf _ _ Eu Hwf) H).
Qed.
Print Assumptions C73_no_validation_enough.

(** Non-vacuous: worlds in which only [n] allocations succeed. Eleven suffice for a request in the L8W8JWT_SMALL_STACK
    build and ten do not; for a token of 132 bytes 141 suffice, in fact twelve do. *)
Definition rationed (n : nat) : world :=
  World (fun k => (k <? n + 1)%nat) (fun _ => true) (fun _ _ => xff) 1 0 (fun _ => false).
Lemma rationed_enough n : enough n (rationed n).
Proof. intros k Hk. cbn in *. apply Nat.ltb_lt. lia. Qed.
Definition same_result (n : nat) : Prop :=
  match l8w8jwt_encode pe_small toy (Some ep_sample) (rationed n), l8w8jwt_encode pe_small toy (Some ep_sample) we with
  | Ret r _, Ret r' _ => er_rc r' = 0%Z /\ r = r'
  | _, _ => False
  end.
Example C73_example :
  alike (rationed 11) we /\ enough 11 (rationed 11) /\ same_result 11 /\ ~ same_result 10
  /\ (let dp := dp_plain (signed plain_header odd_payload) 0 (zstr "secret") 6 in
      memory (dp_jwt dp) = 132%nat
      /\ (forall n, In n [141%nat; 12%nat] ->
          match l8w8jwt_decode pe toy_num (Some dp) true true true (rationed n), l8w8jwt_decode pe toy_num (Some dp) true true true we with
          | Ret r _, Ret r' _ => dr_rc r' = 0%Z /\ r = r' | _, _ => False end)
      /\ match l8w8jwt_decode pe toy_num (Some dp) true true true (rationed 11) with
         | Ret r _ => dr_rc r <> L8W8JWT_SUCCESS | Undef _ => False end)
  /\ allocs we /\ grows we /\ grows (rationed 11) /\ wf (rationed 141) /\ uses_jsmn toy_num.
Proof.
  split; [repeat split|]. split; [apply rationed_enough|]. split; [vm_compute; repeat split|].
  split; [vm_compute; intros [_ K]; discriminate K|]. split.
  - split; [vm_compute; reflexivity|]. split; [|vm_compute; discriminate].
    intros n [<-|[<-|[]]]; vm_compute; repeat split.
  - repeat split; intros i; reflexivity.
Qed.
