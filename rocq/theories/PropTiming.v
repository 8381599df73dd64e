(** * Property C85: the time of a verification says nothing about the right signature *)
From Verif Require Import Base BaseProofs HeapProofs Util UtilProofs Claim Base64 SpecB64
  Base64EncProofs Base64EncApi Base64DecProofs Base64Api Jsmn Env Encode Decode SpecJson SpecJwa ClaimProofs UnescapeProofs
  EncodeProofs SignProofs EncodeTotal SpecEnc JsonProofs PropEncode DecodeProofs DecodeInv JsmnProofs ParseProofs
  PropClaim ReadProofs ValidateProofs JsmnJson JsmnSize PropVerify PropValidate PropLeak PropJson DecodeTotal DecodeOk
  OverRead PropSafe PropRoundTrip CodeProofs Walk Exact PropExact Complete PropComplete
  PropTime PropHistory PropFlow Timing.
From Coq Require Import ZifyBool ZifyNat ZifyN.
Ltac Zify.zify_post_hook ::= Z.div_mod_to_equations.
Local Opaque L8W8JWT_MAX_KEY_SIZE.

(** ** The timed functions are the functions *)
Definition untimed {A} (r : res (A * nat)) : res A := match r with Ret (a, _) w => Ret a w | Undef u => Undef u end.
Definition untimed_u {A} (r : U (A * nat)) : U A := match r with OK (a, _) => OK a | KO u => KO u end.
Lemma un_ubind {A B} (m : U A) (k : A -> U (B * nat)) : untimed_u (ubind m k) = ubind m (fun a => untimed_u (k a)).
Proof. destruct m; reflexivity. Qed.
Lemma ubind_ext {A B} (m : U A) (k k' : A -> U B) : (forall a, k a = k' a) -> ubind m k = ubind m k'.
Proof. intros H. destruct m; cbn [ubind]; auto. Qed.
Lemma un_mbind {A B} (m : M A) (k : A -> M (B * nat)) k' : (forall a w, untimed (k a w) = k' a w) ->
  forall w, untimed (mbind m k w) = mbind m k' w.
Proof. intros H w. unfold mbind. destruct (m w); cbn [untimed]; auto. Qed.
Lemma un_mbind_t {A B} (m : M (A * nat)) m' (k : A * nat -> M (B * nat)) k' :
  (forall w, untimed (m w) = m' w) -> (forall a t w, untimed (k (a, t) w) = k' a w) -> forall w, untimed (mbind m k w) = mbind m' k' w.
Proof. intros H K w. unfold mbind. rewrite <- H. destruct (m w) as [[a t] w'|]; cbn [untimed]; auto. Qed.
Lemma un_lift {A} (m : U (A * nat)) m' : untimed_u m = m' -> forall w, untimed (lift m w) = lift m' w.
Proof. intros <- w. destruct m as [[a t]|]; reflexivity. Qed.

Lemma un_switch p e alg crt key kl msg hash sig n :
  untimed_u (verify_switch_t p e alg crt key kl msg hash sig n) = verify_switch p e alg crt key kl msg hash sig n.
Proof.
  assert (D : untimed_u (v <-u verify_switch p e alg crt key kl msg hash sig n ;; OK (v, 0)) = verify_switch p e alg crt key kl msg hash sig n)
    by (destruct (verify_switch p e alg crt key kl msg hash sig n); reflexivity).
  assert (H : forall h z, untimed_u (k <-u take key (kl - 1) ;;
    match e_hmac e h k msg with None => OK (VFlag true, 0)
    | Some mac => '(eq, t) <-u memcmp_t sig (fit 64 (fit (md_size h) mac)) z ;; OK (VFlag (negb eq), t) end)
    = (k <-u take key (kl - 1) ;; match e_hmac e h k msg with None => OK (VFlag true)
      | Some mac => eq <-u memcmp_eq sig (fit 64 (fit (md_size h) mac)) z ;; OK (VFlag (negb eq)) end)).
  { intros h z. rewrite un_ubind. apply ubind_ext. intros k. destruct (e_hmac e h k msg) as [mac|]; [|reflexivity].
    unfold memcmp_t, memcmp_eq. destruct (take sig z); [|reflexivity]. cbn [ubind]. destruct (take _ z); reflexivity. }
  unfold verify_switch_t. destruct (dec_md_info_from_alg alg) as [h|] eqn:E; [|exact D].
  destruct alg as [|[[a|a|]|[a|a|]|]|a]; try exact D; cbn [dec_md_info_from_alg] in E; injection E as <-; apply H.
Qed.
Lemma un_body p e dp sig n : untimed_u (verify_body_t p e dp sig n) = verify_body p e dp sig n.
Proof.
  unfold verify_body_t, verify_body. do 3 (rewrite un_ubind; apply ubind_ext; intros ?). destruct a1; [|reflexivity].
  do 2 (rewrite un_ubind; apply ubind_ext; intros ?). destruct a2; [|reflexivity].
  rewrite un_ubind; apply ubind_ext; intros [n2|]; [|reflexivity]. cbv zeta. destruct (verify_hash _ _ _); [apply un_switch|reflexivity].
Qed.
Lemma un_verify p e dp res q n w : untimed (l8w8jwt_verify_signature_t p e dp res q n w) = l8w8jwt_verify_signature p e dp res q n w.
Proof.
  unfold l8w8jwt_verify_signature_t, l8w8jwt_verify_signature. destruct (_ || _ || _); [reflexivity|]. cbv zeta. destruct (p_small_stack p).
  - apply un_mbind. intros key w1. apply un_mbind_t.
    + intros w2. destruct (is_null key); [reflexivity|]. apply un_mbind. intros sg w3. apply un_lift, un_body.
    + intros v t w2. apply un_mbind. intros _ w3. apply un_mbind. intros _ w4. reflexivity.
  - apply un_mbind. intros sg w1. apply un_mbind_t; [intros w2; apply un_lift, un_body|]. intros v t w2. reflexivity.
Qed.
Lemma un_decode_body p e dp c w : untimed (decode_body_t p e dp c w) = decode_body p e dp c w.
Proof.
  unfold decode_body_t, decode_body. apply un_mbind. intros [r sg] w1. destruct (negb _); [reflexivity|].
  apply un_mbind_t; [intros w2; apply un_verify|]. intros [r1 res] t w2. destruct (negb _); [reflexivity|].
  apply un_mbind. intros [r2 c2] w3. destruct (negb _); [reflexivity|].
  apply un_mbind. intros [r3 c3] w4. destruct (negb _); [reflexivity|]. apply un_mbind. intros v w5. reflexivity.
Qed.
(** Without the times, [decode_t] is l8w8jwt_decode. *)
Theorem C85_timed :
  forall p e params vn cn ln w, untimed (decode_t p e params vn cn ln w) = l8w8jwt_decode p e params vn cn ln w.
Proof.
  intros p e params vn cn ln w. unfold decode_t, l8w8jwt_decode. destruct params as [dp|]; [|reflexivity].
  destruct (cn && negb ln); [reflexivity|]. cbv zeta. destruct (negb (_ =? _)%Z); [reflexivity|]. destruct (negb vn); [reflexivity|].
  apply un_mbind. intros [c|] w1.
  - apply un_mbind_t; [intros w2; apply un_decode_body|]. intros st t w2.
    do 4 (apply un_mbind; intros _ ?). reflexivity.
  - apply un_mbind. intros _ w2. reflexivity.
Qed.
Print Assumptions C85_timed.

(** ** How long it takes *)
Lemma looked_spec a : forall b, length a = length b -> exists c, (c <= length a)%nat /\ firstn c a = firstn c b
  /\ (c < length a -> nth_error a c <> nth_error b c)%nat /\ looked a b = Nat.min (S c) (length a).
Proof.
  induction a as [|x a IH]; intros [|y b] H; try discriminate H.
  - exists 0. cbn. repeat split; lia.
  - injection H as H. destruct (IH _ H) as (c & C1 & C2 & C3 & C4). cbn [looked length].
    destruct (Byte.eqb x y) eqn:E.
    + apply Byte.byte_dec_bl in E. subst y. exists (S c). cbn [firstn nth_error]. split; [lia|]. split; [congruence|]. split; [intros; apply C3; lia|]. rewrite C4. lia.
    + exists 0. cbn [firstn nth_error]. split; [lia|]. split; [reflexivity|]. split; [|lia]. intros _ C. injection C as ->.
      rewrite Byte.byte_dec_lb in E by reflexivity. discriminate E.
Qed.

Lemma verify_time p e dp jw b jwt h pl rest k mac mem slen v t :
  dp_jwt dp = Ptr b jwt -> three_parts jwt h pl rest ->
  supported (dp_alg dp) jw -> j_family jw = HS -> caller_key (dp_verification_key dp) (dp_verification_key_length dp) k ->
  e_hmac e (j_hash jw) (hmac_key k) (h ++ lit "." ++ pl) = Some mac ->
  verify_body_t p e dp mem slen = OK (v, t) -> v <> VExit L8W8JWT_KEY_PARSE_FAILURE -> v <> VExit L8W8JWT_SHA2_FAILURE ->
  let n := md_size (j_hash jw) in
  (n <= N.of_nat (length mem))%N /\ t = looked (firstn (N.to_nat n) mem) (fit n mac).
Proof.
  intros Ej H3 Hj Hf Hck Hm H Nv1 Nv2. cbv zeta. unfold verify_body_t in H.
  apply ubind_inv in H as (key & Hl & H). apply ubind_inv in H as (kl & Ha & H).
  apply ubind_inv in H as (o & Hc & H). destruct o as [crt|]; [|destruct Nv1; congruence].
  rewrite Ej in H. cbn [deref ubind] in H. destruct (signing_input_cut _ _ _ _ H3) as (E1 & E2 & E3).
  rewrite E1 in H. cbn [ubind] in H. rewrite E2 in H. cbn [ubind] in H. rewrite E3 in H.
  destruct (verify_hash e (dp_alg dp) (h ++ lit "." ++ pl)) as [hash|] eqn:Eh; [|destruct Nv2; congruence].
  set (nk := dp_verification_key_length dp) in *. set (msg := h ++ lit "." ++ pl) in *.
  destruct (load_key_inv _ _ _ Hl) as (b' & m & Eq & Hml & Hn & Ek).
  destruct Hck as (b2 & m2 & Eq2 & Hm2 & Ek2). rewrite Eq in Eq2. assert (m2 = m) by congruence. subst m2. rewrite <- Ek2 in Ek.
  assert (Hk : length k = N.to_nat nk) by (rewrite Ek2, firstn_length; lia).
  assert (Hn0 : (0 < nk)%N). { unfold adjust_key_length in Ha. destruct (N.eqb_spec nk 0); [discriminate|lia]. }
  destruct (adjust_key_eq k nk Hk (conj Hn0 Hn)) as (kl' & Ha' & Hkl & E & _). rewrite <- Ek in Ha', E.
  rewrite Ha' in Ha. assert (Ekl : kl' = kl) by congruence. rewrite Ekl in E. clear Ha Ekl Ha' Hkl.
  assert (X : (k0 <-u take key (kl - 1) ;; match e_hmac e (j_hash jw) k0 msg with None => OK (VFlag true, 0)
    | Some mac => '(eq, t) <-u memcmp_t mem (fit 64 (fit (md_size (j_hash jw)) mac)) (md_size (j_hash jw)) ;; OK (VFlag (negb eq), t) end) = OK (v, t)).
  { rewrite <- H. clear - Hj Hf. destruct Hj as [Hin E0]. rewrite <- E0. clear E0. simpl in Hin.
    decompose [or] Hin; try contradiction; subst jw; cbn [j_family] in Hf; try discriminate Hf; reflexivity. }
  clear H. rewrite E in X. cbn [ubind] in X. rewrite Hm in X. apply ubind_inv in X as ([eq t'] & X & Y). injection Y as _ <-.
  unfold memcmp_t in X. apply ubind_inv in X as (x & X1 & X). apply ubind_inv in X as (y & Y1 & X).
  apply take_inv in X1 as [L1 ->]. apply take_inv in Y1 as [_ ->]. split; [exact L1|].
  rewrite firstn_fit_fit in X by (destruct (j_hash jw); cbn; lia). congruence.
Qed.

Lemma verify_signature_time p e dp res b sig n w r t w' :
  dp_alg dp <> (-1)%Z -> n <> 0%N -> l8w8jwt_verify_signature_t p e dp res (Ptr b sig) n w = Ret (r, t) w' ->
  exists v, verify_body_t p e dp sig n = OK (v, t) /\ r = verdict_result res v.
Proof.
  intros Ea En H. unfold l8w8jwt_verify_signature_t in H.
  replace ((dp_alg dp =? -1)%Z || is_null (Ptr b sig) || (n =? 0)%N) with false in H by (cbn [is_null]; lia).
  fold (verdict_result res) in H. cbv zeta in H. destruct (p_small_stack p).
  - minvas H as key w1 H1. minvas H as [v t'] w2 H2. minvas H as u w3 H3. minvas H as u2 w4 H4. unfold mret in H.
    assert (X : t' = t /\ r = verdict_result res v) by (injection H as <- <- _; split; reflexivity). destruct X as [-> ->]. exists v. split; [|reflexivity].
    destruct key as [|kb km]; [cbn [zeroize] in H3; discriminate H3|]. cbn [is_null] in H2.
    minvas H2 as s w5 H5. apply lift_inv in H5 as [H5 ->]. apply lift_inv in H2 as [H2 _]. cbn [deref] in H5. assert (s = sig) by congruence. subst s. exact H2.
  - minvas H as s w1 H1. apply lift_inv in H1 as [H1 ->]. minvas H as [v t'] w2 H2. apply lift_inv in H2 as [H2 ->]. unfold mret in H.
    assert (X : t' = t /\ r = verdict_result res v) by (injection H as <- <- _; split; reflexivity). destruct X as [-> ->]. exists v. split; [|reflexivity].
    cbn [deref] in H1. assert (s = sig) by congruence. subst s. exact H2.
Qed.

Lemma decode_time p e dp cn ln w r t w' j jw k h pl s sig st mac :
  wf w -> decode_t p e (Some dp) true cn ln w = Ret (r, t) w' -> dr_rc r = 0%Z ->
  c_text p dp j -> parts3 j h pl s -> url_decodes s sig st ->
  supported (dp_alg dp) jw -> j_family jw = HS -> caller_key (dp_verification_key dp) (dp_verification_key_length dp) k ->
  e_hmac e (j_hash jw) (hmac_key k) (h ++ lit "." ++ pl) = Some mac ->
  let n := md_size (j_hash jw) in
  (n <= N.of_nat (length (sig ++ st)))%N /\ t = looked (firstn (N.to_nat n) (sig ++ st)) (fit n mac).
Proof.
  intros Hwf H Hrc Ht P3 Hd Hj Hf Hck Hm. cbv zeta. unfold decode_t in H.
  destruct (cn && negb ln); [unfold mret in H; assert (E : r = DecRes L8W8JWT_NULL_ARG None None) by congruence; rewrite E in Hrc; discriminate Hrc|].
  cbv zeta in H. destruct (Z.eqb_spec (l8w8jwt_validate_decoding_params p (Some dp)) L8W8JWT_SUCCESS) as [Ev|Ev]; cbn [negb] in H.
  2:{ unfold mret in H. assert (E : r = DecRes (l8w8jwt_validate_decoding_params p (Some dp)) None None) by congruence. rewrite E in Hrc. destruct (Ev Hrc). }
  minvas H as o w1 H1. apply DecodeInv.cb_init_inv in H1 as [(-> & Ha & ->)|(-> & _ & ->)].
  2:{ minvas H as u w2 H2. unfold mret in H. assert (E : r = DecRes L8W8JWT_OUT_OF_MEM (Some NOT_VALID) None) by congruence. rewrite E in Hrc. discriminate Hrc. }
  minvas H as [st0 t0] w2 H2. minvas H as u1 w3 H3. minvas H as u2 w4 H4. minvas H as u3 w5 H5. minvas H as u4 w6 H6. unfold mret in H.
  assert (t0 = t) by congruence. subst t0. assert (Er : ds_rc st0 = dr_rc r) by (injection H as <- _; reflexivity). clear H H3 H4 H5 H6. rewrite Hrc in Er.
  assert (Hwf1 : wf (w_ok w)) by (eapply adds_wf; [apply adds_ok|exact Hwf]).
  unfold decode_body_t in H2. minvas H2 as [rc sg] w7 H. destruct (Z.eqb_spec rc L8W8JWT_SUCCESS) as [->|C]; cbn [negb] in H2.
  2:{ unfold mret in H2. assert (E : ds_rc st0 = rc) by (assert (E : st0 = DecState rc sg (CB (w_next w) []) L8W8JWT_VALID) by congruence; rewrite E; reflexivity).
      destruct C. rewrite <- E, Er. reflexivity. }
  destruct (decode_segments_inv _ _ _ _ _ _ Hwf1 H) as (_ & _ & Hok). specialize (Hok eq_refl).
  assert (Ralg : dp_alg dp <> (-1)%Z) by (destruct (supported_range _ _ Hj); lia).
  destruct (segments_cut p dp j sg Ht Hok) as [(b & rest & h' & pl' & s' & Ej & P3' & T3 & _ & _ & Ss)|(C & _)]; [|contradiction].
  destruct (parts3_fun _ _ _ _ _ _ _ P3 P3') as (<- & <- & <-). destruct Ss as (i3 & sig' & st' & Hd' & Es).
  apply url_b64_decodes in Hd. destruct (b64_decodes_fun _ _ _ _ _ Hd Hd') as [<- <-]. rewrite Es in H2. cbn [s_ptr s_len] in H2.
  minvas H2 as [[r1 res1] t1] w8 H3.
  assert (Nz : N.of_nat (length sig) <> 0%N) by (apply b64_decodes_len in Hd as [L _]; lia).
  destruct (verify_signature_time _ _ _ _ _ _ _ _ _ _ _ Ralg Nz H3) as (v & Hv & Er1). clear H3.
  assert (R1 : r1 = L8W8JWT_SUCCESS /\ t1 = t).
  { destruct (Z.eqb_spec r1 L8W8JWT_SUCCESS) as [->|C]; cbn [negb] in H2.
    2:{ unfold mret in H2. assert (E : ds_rc st0 = r1) by (injection H2 as <-; reflexivity). destruct C. rewrite <- E, Er. reflexivity. }
    split; [reflexivity|]. minvas H2 as [r2 c2] w9 X2. destruct (negb _); [injection H2; auto|].
    minvas H2 as [r3 c3] w10 X3. destruct (negb _); [injection H2; auto|]. minvas H2 as r4 w11 X4. injection H2; auto. }
  destruct R1 as [-> ->].
  eapply verify_time; try eassumption.
  - intros ->. cbn [verdict_result] in Er1. discriminate Er1.
  - intros ->. cbn [verdict_result] in Er1. discriminate Er1.
Qed.

(** With HS256, HS384 or HS512, decoding examines as many bytes of the signature as it has in common with the MAC
    from the start, and one more unless these are all: the time is a function of this number, and tells
    it. Missing with respect to the claim: that it is independent of the MAC. *)
Theorem C85_time_partial :
  forall p e dp cn ln w r t w' j jw k h pl s sig st mac,
    wf w -> decode_t p e (Some dp) true cn ln w = Ret (r, t) w' -> dr_rc r = 0%Z ->
    c_text p dp j -> parts3 j h pl s -> url_decodes s sig st ->
    supported (dp_alg dp) jw -> j_family jw = HS -> caller_key (dp_verification_key dp) (dp_verification_key_length dp) k ->
    e_hmac e (j_hash jw) (hmac_key k) (h ++ lit "." ++ pl) = Some mac ->
    let n := N.to_nat (md_size (j_hash jw)) in length sig = n -> length mac = n ->
    exists c, (c <= n)%nat /\ firstn c sig = firstn c mac /\ ((c < n)%nat -> nth_error sig c <> nth_error mac c)
      /\ t = Nat.min (S c) n.
Proof.
  intros p e dp cn ln w r t w' j jw k h pl s sig st mac Hwf H Hrc Ht P3 Hd Hj Hf Hck Hm n Ls Lm.
  destruct (decode_time _ _ _ _ _ _ _ _ _ _ _ _ _ _ _ _ _ _ Hwf H Hrc Ht P3 Hd Hj Hf Hck Hm) as [_ E]. unfold n in *.
  rewrite <- Ls, firstn_app_exact, fit_exact in E by lia.
  destruct (looked_spec sig mac ltac:(lia)) as (c & C1 & C2 & C3 & C4). rewrite Ls in *. exists c. rewrite E. auto.
Qed.
Print Assumptions C85_time_partial.

(** ** What it tells *)
(** Someone without the key presents tokens and gets answers of type [O]; in the end they come
    forward with a token. *)
Inductive attacker (O : Type) := Claim (tok : bytes) | Ask (tok : bytes) (next : O -> attacker O).
Arguments Claim {O} tok.
Arguments Ask {O} tok next.
(** The token come forward with and the number of questions, against a server that answers the [i]th question with
    [server i]; [None]: it has crashed. *)
Fixpoint play {O} (server : nat -> bytes -> option O) (a : attacker O) (i : nat) : option (bytes * nat) :=
  match a with
  | Claim tok => Some (tok, i)
  | Ask tok next => match server i tok with Some o => play server (next o) (S i) | None => None end
  end.

(** The same parameters with another token. *)
Definition presenting (dp : dec_params) (tok : bytes) : dec_params :=
  DecParams (Ptr None (tok ++ [x00])) (N.of_nat (length tok)) (dp_alg dp)
    (dp_validate_iss dp) (dp_validate_iss_length dp) (dp_validate_sub dp) (dp_validate_sub_length dp)
    (dp_validate_aud dp) (dp_validate_aud_length dp) (dp_validate_jti dp) (dp_validate_jti_length dp)
    (dp_validate_exp dp) (dp_validate_nbf dp) (dp_validate_iat dp)
    (dp_exp_tolerance dp) (dp_nbf_tolerance dp) (dp_iat_tolerance dp)
    (dp_verification_key dp) (dp_verification_key_length dp) (dp_validate_typ dp) (dp_validate_typ_length dp).
(** The token is taken: SUCCESS and L8W8JWT_VALID. *)
Definition taken (r : dec_res) : bool :=
  (dr_rc r =? 0)%Z && match dr_valid r with Some v => (v =? L8W8JWT_VALID)%N | None => false end.
(** A server that decodes what it is presented with and says whether it takes it; whoever asks sees how
    long it takes. It decodes the [i]th token in the world [ws i]. *)
Definition timed_server (p : platform) (e : env) (dp : dec_params) (ws : nat -> world) (i : nat) (tok : bytes) : option (bool * nat) :=
  match decode_t p e (Some (presenting dp tok)) true false false (ws i) with
  | Ret (r, t) _ => Some (taken r, t)
  | Undef _ => None
  end.
(** The same without the time. *)
Definition server (p : platform) (e : env) (dp : dec_params) (ws : nat -> world) (i : nat) (tok : bytes) : option bool :=
  match l8w8jwt_decode p e (Some (presenting dp tok)) true false false (ws i) with
  | Ret r _ => Some (taken r)
  | Undef _ => None
  end.

(** An attacker who wants header [h] and payload [pl] (texts) taken, with a signature of [n] bytes, which they find byte by
    byte: [pre] is right so far, [k] bytes are missing after the one being tried. *)
Definition with_signature (h pl sig : bytes) : bytes := h ++ lit "." ++ pl ++ lit "." ++ rfc4648_unpadded true sig.
Fixpoint try_bytes (h pl : bytes) (cs : list byte) (pre : bytes) (k : nat) (next : bytes -> attacker (bool * nat)) : attacker (bool * nat) :=
  match cs with
  | [] => Claim []
  | c :: cs => Ask (with_signature h pl (pre ++ c :: repeat x00 k))
      (fun o => if fst o || (S (length pre) <? snd o)%nat then next (pre ++ [c]) else try_bytes h pl cs pre k next)
  end.
Fixpoint forger (h pl : bytes) (k : nat) (pre : bytes) : attacker (bool * nat) :=
  match k with
  | 0 => Claim (with_signature h pl pre)
  | S k => try_bytes h pl all_bytes pre k (forger h pl k)
  end.

(** The game itself: against a server that answers truthfully and whose time is that of [looked]. *)
Lemma looked_prefix pre : forall a b, looked (pre ++ a) (pre ++ b) = (length pre + looked a b)%nat.
Proof. induction pre as [|x pre IH]; intros a b; [reflexivity|]. cbn [app looked length]. rewrite Byte.byte_dec_lb by reflexivity. rewrite IH. reflexivity. Qed.
Lemma bytes_eqb_prefix pre : forall a b, bytes_eqb (pre ++ a) (pre ++ b) = bytes_eqb a b.
Proof. induction pre as [|x pre IH]; intros a b; [reflexivity|]. cbn [app bytes_eqb]. rewrite Byte.byte_dec_lb by reflexivity. apply IH. Qed.

Section Game.
Variables (h pl m : bytes) (srv : nat -> bytes -> option (bool * nat)).
Hypothesis Hsrv : forall i g, length g = length m -> srv i (with_signature h pl g) = Some (bytes_eqb g m, looked g m).
Lemma try_game next pre c rest k : m = pre ++ c :: rest -> length rest = k ->
  forall cs, In c cs -> forall i, exists q, (1 <= q <= length cs)%nat
    /\ play srv (try_bytes h pl cs pre k next) i = play srv (next (pre ++ [c])) (i + q).
Proof.
  intros Em Lr. induction cs as [|d cs IH]; intros Hin i; [destruct Hin|]. cbn [try_bytes play length].
  assert (Lg : length (pre ++ d :: repeat x00 k) = length m) by (rewrite Em, !app_length; cbn [length]; rewrite repeat_length; lia).
  rewrite (Hsrv i _ Lg). cbn [fst snd]. rewrite Em, looked_prefix, bytes_eqb_prefix. cbn [looked bytes_eqb].
  destruct (Byte.eqb d c) eqn:Ed.
  - apply Byte.byte_dec_bl in Ed. subst d. exists 1. split; [lia|]. cbn [andb]. replace (i + 1)%nat with (S i) by lia.
    destruct (bytes_eqb (repeat x00 k) rest) eqn:Eq; cbn [orb]; [reflexivity|].
    assert (K : (1 <= looked (repeat x00 k) rest)%nat).
    { destruct rest as [|y rest]; [cbn in Lr; subst k; discriminate Eq|]. destruct k as [|k]; [discriminate Lr|]. cbn [repeat looked]. destruct (Byte.eqb x00 y); lia. }
    replace (S (length pre) <? length pre + S (looked (repeat x00 k) rest))%nat with true by (symmetry; apply Nat.ltb_lt; lia). reflexivity.
  - cbn [andb orb]. replace (S (length pre) <? length pre + 1)%nat with false by (symmetry; apply Nat.ltb_ge; lia).
    destruct Hin as [->|Hin]; [rewrite Byte.byte_dec_lb in Ed by reflexivity; discriminate Ed|].
    destruct (IH Hin (S i)) as (q & Hq & E). exists (S q). split; [lia|]. rewrite E. f_equal. lia.
Qed.
Lemma forger_game k : forall pre rest i, m = pre ++ rest -> length rest = k ->
  exists q, (q <= 256 * k)%nat /\ play srv (forger h pl k pre) i = Some (with_signature h pl m, (i + q)%nat).
Proof.
  induction k as [|k IH]; intros pre rest i Em Lr.
  - destruct rest; [|discriminate Lr]. rewrite app_nil_r in Em. exists 0. split; [lia|]. cbn [forger play]. rewrite Em, Nat.add_0_r. reflexivity.
  - destruct rest as [|c rest]; [discriminate Lr|]. injection Lr as Lr. cbn [forger].
    destruct (try_game (forger h pl k) pre c rest k Em Lr all_bytes (all_bytes_in c) i) as (q1 & Q1 & E1).
    destruct (IH (pre ++ [c]) rest (i + q1)%nat) as (q2 & Q2 & E2); [rewrite <- app_assoc; exact Em|exact Lr|].
    exists (q1 + q2)%nat. split.
    + assert (length all_bytes = 256%nat) by reflexivity. lia.
    + rewrite E1, E2. do 2 f_equal. lia.
Qed.
End Game.

(** ** The server is such a server *)
Lemma failed_cases e dp v v' kvs bit : failed e dp v kvs bit -> (bit = 7%N /\ v = false) \/ (bit <> 7%N /\ failed e dp v' kvs bit).
Proof.
  intros [H|bit' name q n s Hin H1 H2|c H1 H2|c t z H1 H2 H3 H4|b x r H1 H2 H3].
  - left. auto.
  - right. split; [|eapply F_identity; eauto]. cbn in Hin. intros ->. destruct Hin as [E|[E|[E|[E|[]]]]]; discriminate E.
  - right. split; [destruct c; discriminate|]. apply F_no_time; assumption.
  - right. split; [destruct c; discriminate|]. eapply F_time; eassumption.
  - right. split; [discriminate|]. eapply F_typ; eassumption.
Qed.
Lemma failed_presenting e dp a b v kvs bit : failed e (presenting dp a) v kvs bit -> failed e (presenting dp b) v kvs bit.
Proof.
  intros [H|bit' name q n s Hin H1 H2|c H1 H2|c t z H1 H2 H3 H4|bk x r H1 H2 H3].
  - apply F_signature; exact H.
  - eapply F_identity; [exact Hin|exact H1|exact H2].
  - apply F_no_time; [destruct c; exact H1|exact H2].
  - eapply F_time; [destruct c; exact H1|exact H2|exact H3|destruct c; exact H4].
  - eapply F_typ; [exact H1|exact H2|exact H3].
Qed.
(** If nothing but the signature is wanting, the result is that of the signature. *)
Lemma flags_signature e dp v0 v kvs n0 : flags_are e dp v0 kvs n0 -> (forall bit, N.testbit n0 bit = true -> bit = 7%N) ->
  flags_are e dp v kvs (if v then 0 else 128)%N.
Proof.
  intros H H0 bit. assert (N7 : forall b, failed e dp v0 kvs b -> b = 7%N) by (intros b F; apply H0, H; exact F).
  split.
  - destruct v; [rewrite N.bits_0; discriminate|]. change 128%N with (2 ^ 7)%N. rewrite N.pow2_bits_eqb, N.eqb_eq. intros <-. apply F_signature. reflexivity.
  - intros F. destruct (failed_cases e dp v v0 kvs bit F) as [[-> ->]|[C F']]; [reflexivity|]. destruct (C (N7 _ F')).
Qed.
Lemma bytes_eqb_is a b : bytes_eqb a b = true <-> a = b.
Proof. apply bytes_eqb_eq. Qed.

Definition clean (s : bytes) : Prop := no_dot s /\ no_nul s.
Lemma clean_token h pl g : clean h -> clean pl -> no_nul (with_signature h pl g).
Proof.
  intros [_ H1] [_ H2]. unfold with_signature, no_nul in *. rewrite !in_app_iff. destruct (unpadded_clean g) as [_ H3].
  intros [C|[C|[C|[C|C]]]]; [exact (H1 C)|destruct C as [C|[]]; discriminate C|exact (H2 C)|destruct C as [C|[]]; discriminate C|exact (H3 C)].
Qed.
Lemma token_length h pl g g' : length g = length g' -> length (with_signature h pl g) = length (with_signature h pl g').
Proof. intros E. unfold with_signature. rewrite !app_length, !unpadded_length, E. reflexivity. Qed.

Section Server.
Variables (p : platform) (e : env) (dp : dec_params) (jw : jwa) (k h pl mac g0 : bytes).
Let n := N.to_nat (md_size (j_hash jw)).
Let m := fit (md_size (j_hash jw)) mac.
Hypothesis (Hjs : uses_jsmn e) (Hp : (32 <= p_size_bits p)%N).
Hypothesis (Hkok : key_ok (dp_verification_key dp) (dp_verification_key_length dp)) (Hrq : requests_readable e dp).
Hypothesis (Hj : supported (dp_alg dp) jw) (Hf : j_family jw = HS).
Hypothesis (Hck : caller_key (dp_verification_key dp) (dp_verification_key_length dp) k).
Hypothesis (Hm : e_hmac e (j_hash jw) (hmac_key k) (h ++ lit "." ++ pl) = Some mac).
Hypothesis (Ch : clean h) (Cp : clean pl) (Lg0 : length g0 = n).
Hypothesis (Hsz : (N.of_nat (length (with_signature h pl g0)) < size_mod p)%N) (Hmx : (Z.of_nat (length (with_signature h pl g0)) <= INT_MAX)%Z).

Lemma presenting_text g : length g = n -> c_text p (presenting dp (with_signature h pl g)) (with_signature h pl g).
Proof.
  intros Lg. split; [exists None, []; reflexivity|]. split; [apply clean_token; assumption|]. split; [reflexivity|].
  rewrite (token_length h pl g g0) by congruence. exact Hsz.
Qed.
Lemma presenting_parts g : parts3 (with_signature h pl g) h pl (rfc4648_unpadded true g).
Proof. split; [reflexivity|]. split; [exact (proj1 Ch)|exact (proj1 Cp)]. Qed.
Lemma n_pos : n <> 0.
Proof. unfold n. destruct (j_hash jw); cbn; lia. Qed.

Variables (w0 w0' : world) (r0 : dec_res) (v0 : N).
Hypothesis (W0 : wf w0) (A0 : allocs w0) (G0 : grows w0).
Hypothesis H0 : l8w8jwt_decode p e (Some (presenting dp (with_signature h pl g0))) true false false w0 = Ret r0 w0'.
Hypothesis (R0 : dr_rc r0 = 0%Z) (V0 : dr_valid r0 = Some v0) (B0 : forall bit, N.testbit v0 bit = true -> bit = 7%N).

Lemma server_decoding g : length g = n ->
  exists es, decoding p e (presenting dp (with_signature h pl g)) (with_signature h pl g) (Result (if bytes_eqb g m then 0 else 128)%N es).
Proof.
  intros Lg.
  destruct (C75_decode_complete p e _ _ false false w0 W0 A0 G0 Hjs Hp (presenting_text g0 Lg0) Hmx Hkok Hrq ltac:(discriminate)) as (o & O1 & _ & O3).
  destruct o as [rc|v es|u]; [destruct O3 as (N0 & w' & E)|destruct O3 as (id & cs & w' & _ & E)|congruence];
    rewrite H0 in E; injection E as E _; rewrite E in R0, V0; cbn [dr_rc dr_valid] in R0, V0; [contradiction|].
  injection V0 as ->. clear E R0.
  inversion O1 as [| |o' Nj Nu Rn]; subst o'. remember (Result v0 es) as o eqn:Eo.
  destruct Rn as [r C|msg hj ht pj pt sg r C K|msg hj ht pj pt sg u C K|msg hj ht pj pt sg vf o C K Rd]; try discriminate Eo.
  destruct Rd as [ | | | | |eh ep v F1 F2 Nt Vd]; try discriminate Eo. injection Eo as -> <-.
  assert (Ralg : dp_alg dp <> (-1)%Z) by (destruct (supported_range _ _ Hj); lia).
  assert (T : forall rc, ~ turned_down p e jw k msg rc).
  { inversion K as [C0|? ? C0|?|?|?|jw' k' sig st S' K' T1|jw' k' sig st S' K' T1]; [contradiction|destruct (C0 _ Hj)| |];
      (assert (jw' = jw) by (eapply supported_fun; eauto); assert (k' = k) by (eapply caller_key_fun; eauto); subst jw' k'; exact T1). }
  clear K. inversion C as [| | |h' pl' ? ? ? ? P2|h' pl' s' |h' pl' s' ? ? ? ? sig st P3 D1 D2 D3]; subst.
  { destruct (parts_23 _ _ _ _ _ _ P2 (presenting_parts g0)). }
  destruct (parts3_fun _ _ _ _ _ _ _ P3 (presenting_parts g0)) as (-> & -> & ->). clear P3 D3.
  assert (Ng : g <> []) by (intros ->; apply n_pos; rewrite <- Lg; reflexivity).
  destruct (text_decodes g Ng) as (tail & D3). exists (eh ++ ep).
  assert (Tr : forall X, X = bytes_eqb g m -> decoding p e (presenting dp (with_signature h pl g)) (with_signature h pl g) (Result (if X then 0 else 128)%N (eh ++ ep))).
  { intros X EX. apply De_run.
    - unfold with_signature. destruct h; discriminate.
    - exact Nu.
    - eapply Rn_goes with (verified := X).
      + eapply Cut_three; [apply presenting_parts|exact D1|exact D2|exact D3].
      + assert (Mu : forall u, ~ misused e jw k (h ++ lit "." ++ pl) (g ++ tail) u).
        { intros u. unfold misused. rewrite Hf. intros (_ & L & _). rewrite app_length in L. unfold n in Lg. lia. }
        assert (Vf : verifies p e jw k (h ++ lit "." ++ pl) g tail <-> g = m).
        { unfold verifies, signature_read, verified_by. rewrite Hf. rewrite (eq_sym Lg : N.to_nat (md_size (j_hash jw)) = length g), firstn_app_exact. split.
          - intros (l & -> & mac' & Em & E). rewrite Hm in Em. injection Em as <-. exact E.
          - intros ->. eexists. split; [reflexivity|]. exists mac. auto. }
        destruct X.
        * eapply Ck_good; eauto. apply Vf, bytes_eqb_is. auto.
        * eapply Ck_bad; eauto. intros V. apply Vf, bytes_eqb_is in V. congruence.
      + eapply Rd_result; [exact F1|exact F2|exact Nt|]. intros bit. rewrite (flags_signature _ _ _ X _ _ Vd B0 bit).
        split; apply failed_presenting. }
  apply Tr. reflexivity.
Qed.
Lemma server_answers g w : length g = n -> wf w -> allocs w -> grows w ->
  exists w', decode_t p e (Some (presenting dp (with_signature h pl g))) true false false w
    = Ret (DecRes 0 (Some (if bytes_eqb g m then 0 else 128)%N) None, looked g m) w'.
Proof.
  intros Lg Hwf Ha Hg. destruct (server_decoding g Lg) as (es & Hd).
  assert (Lt : (Z.of_nat (length (with_signature h pl g)) <= INT_MAX)%Z) by (rewrite (token_length h pl g g0) by congruence; exact Hmx).
  destruct (C75_decode_complete p e _ _ false false w Hwf Ha Hg Hjs Hp (presenting_text g Lg) Lt Hkok Hrq ltac:(discriminate)) as (o & _ & O2 & O3).
  rewrite <- (O2 _ Hd) in O3. destruct O3 as (id & cs & w' & _ & E). exists w'.
  rewrite <- (C85_timed p e) in E. destruct (decode_t _ _ _ _ _ _ _) as [[r t] w1|] eqn:Et; [|discriminate E].
  cbn [untimed] in E. injection E as -> ->. do 2 f_equal.
  assert (Ng : g <> []) by (intros ->; apply n_pos; rewrite <- Lg; reflexivity). destruct (text_decodes g Ng) as (tail & D3).
  destruct (decode_time _ _ _ _ _ _ _ _ _ _ _ _ _ _ _ _ _ _ Hwf Et eq_refl (presenting_text g Lg) (presenting_parts g) D3 Hj Hf Hck Hm) as [_ ->].
  fold n m. rewrite <- Lg, firstn_app_exact. reflexivity.
Qed.
End Server.

(** ** The claim and its failure *)
(** Whatever the key: for each header and payload that would be taken but for the signature, [forger] finds
    the signature with the help of the times, in 256 questions a byte, although they know nothing but the two texts and
    the algorithm. (That nothing else is wanting is said by a token, signed however, which the server has seen before.) *)
Theorem C85_time_forges :
  forall p e dp jw k h pl mac ws g0 w0 r0 v0 w0',
    uses_jsmn e -> (32 <= p_size_bits p)%N ->
    key_ok (dp_verification_key dp) (dp_verification_key_length dp) -> requests_readable e dp ->
    supported (dp_alg dp) jw -> j_family jw = HS -> caller_key (dp_verification_key dp) (dp_verification_key_length dp) k ->
    e_hmac e (j_hash jw) (hmac_key k) (h ++ lit "." ++ pl) = Some mac ->
    clean h -> clean pl -> let n := N.to_nat (md_size (j_hash jw)) in length g0 = n ->
    (N.of_nat (length (with_signature h pl g0)) < size_mod p)%N -> (Z.of_nat (length (with_signature h pl g0)) <= INT_MAX)%Z ->
    wf w0 -> allocs w0 -> grows w0 ->
    l8w8jwt_decode p e (Some (presenting dp (with_signature h pl g0))) true false false w0 = Ret r0 w0' ->
    dr_rc r0 = 0%Z -> dr_valid r0 = Some v0 -> (forall bit, N.testbit v0 bit = true -> bit = 7%N) ->
    (forall i, wf (ws i) /\ allocs (ws i) /\ grows (ws i)) ->
    exists tok q, play (timed_server p e dp ws) (forger h pl n []) 0 = Some (tok, q) /\ (q <= 256 * n)%nat
      /\ forall w, wf w -> allocs w -> grows w -> exists w',
           l8w8jwt_decode p e (Some (presenting dp tok)) true false false w = Ret (DecRes 0 (Some L8W8JWT_VALID) None) w'.
Proof.
  intros p e dp jw k h pl mac ws g0 w0 r0 v0 w0' Hjs Hp Hkok Hrq Hj Hf Hck Hm Ch Cp n Lg0 Hsz Hmx W0 A0 G0 H0 R0 V0 B0 Hws.
  pose proof (server_answers p e dp jw k h pl mac g0 Hjs Hp Hkok Hrq Hj Hf Hck Hm Ch Cp Lg0 Hsz Hmx w0 w0' r0 v0 W0 A0 G0 H0 R0 V0 B0) as An.
  set (m := fit (md_size (j_hash jw)) mac) in *. assert (Lm : length m = n) by apply fit_length.
  destruct (forger_game h pl m (timed_server p e dp ws)) with (k := n) (pre := @nil byte) (rest := m) (i := 0) as (q & Hq & E);
    [|reflexivity|exact Lm|].
  - intros i g Lg. destruct (Hws i) as (Hw & Ha & Hg). destruct (An g (ws i)) as (w' & E); [rewrite Lg; exact Lm|exact Hw|exact Ha|exact Hg|].
    unfold timed_server. rewrite E. unfold taken. cbn [dr_rc dr_valid]. destruct (bytes_eqb g m); reflexivity.
  - exists (with_signature h pl m), q. split; [exact E|]. split; [exact Hq|]. intros w Hw Ha Hg.
    destruct (An m w Lm Hw Ha Hg) as (w' & E'). exists w'. rewrite <- (C85_timed p e), E'. cbn [untimed].
    rewrite (proj2 (bytes_eqb_is m m) eq_refl). reflexivity.
Qed.
Print Assumptions C85_time_forges.

(** So it is false that a verification takes the same time whatever the wrong signature: in each such situation there are
    two wrong ones that are answered alike, after different times. *)
Theorem C85_same_time_refuted :
  forall p e dp jw k h pl mac g0 w0 r0 v0 w0',
    uses_jsmn e -> (32 <= p_size_bits p)%N ->
    key_ok (dp_verification_key dp) (dp_verification_key_length dp) -> requests_readable e dp ->
    supported (dp_alg dp) jw -> j_family jw = HS -> caller_key (dp_verification_key dp) (dp_verification_key_length dp) k ->
    e_hmac e (j_hash jw) (hmac_key k) (h ++ lit "." ++ pl) = Some mac ->
    clean h -> clean pl -> let n := N.to_nat (md_size (j_hash jw)) in length g0 = n ->
    (N.of_nat (length (with_signature h pl g0)) < size_mod p)%N -> (Z.of_nat (length (with_signature h pl g0)) <= INT_MAX)%Z ->
    wf w0 -> allocs w0 -> grows w0 ->
    l8w8jwt_decode p e (Some (presenting dp (with_signature h pl g0))) true false false w0 = Ret r0 w0' ->
    dr_rc r0 = 0%Z -> dr_valid r0 = Some v0 -> (forall bit, N.testbit v0 bit = true -> bit = 7%N) ->
    exists g g' r t t' w w', length g = n /\ length g' = n /\ dr_valid r = Some L8W8JWT_SIGNATURE_VERIFICATION_FAILURE
      /\ decode_t p e (Some (presenting dp (with_signature h pl g))) true false false w0 = Ret (r, t) w
      /\ decode_t p e (Some (presenting dp (with_signature h pl g'))) true false false w0 = Ret (r, t') w' /\ t <> t'.
Proof.
  intros p e dp jw k h pl mac g0 w0 r0 v0 w0' Hjs Hp Hkok Hrq Hj Hf Hck Hm Ch Cp n Lg0 Hsz Hmx W0 A0 G0 H0 R0 V0 B0.
  pose proof (server_answers p e dp jw k h pl mac g0 Hjs Hp Hkok Hrq Hj Hf Hck Hm Ch Cp Lg0 Hsz Hmx w0 w0' r0 v0 W0 A0 G0 H0 R0 V0 B0) as An.
  set (m := fit (md_size (j_hash jw)) mac) in *. assert (Lm : length m = n) by apply fit_length.
  assert (Ln : (2 <= n)%nat) by (unfold n; destruct (j_hash jw); cbn; lia).
  destruct m as [|a [|b m]]; try (cbn in Lm; lia).
  assert (Df : forall c, exists d, Byte.eqb d c = false).
  { intros c. destruct (Byte.eqb x00 c) eqn:E; [|exists x00; exact E]. exists x01. apply Byte.byte_dec_bl in E. subst c. reflexivity. }
  destruct (Df a) as (a' & Ea), (Df b) as (b' & Eb).
  destruct (An (a' :: b :: m) w0 Lm W0 A0 G0) as (w1 & E1). destruct (An (a :: b' :: m) w0 Lm W0 A0 G0) as (w2 & E2).
  cbn [bytes_eqb looked] in E1, E2. rewrite Ea in E1. rewrite Eb, Byte.byte_dec_lb in E2 by reflexivity. cbn [andb] in E1, E2.
  exists (a' :: b :: m), (a :: b' :: m). do 5 eexists. split; [exact Lm|]. split; [exact Lm|]. split; [|split; [exact E1|split; [exact E2|]]]; [reflexivity|discriminate].
Qed.
Print Assumptions C85_same_time_refuted.

(** ** Without the times *)
(** The world in which the MAC of [msg] is [m], all else being the same. *)
Definition with_mac (e : env) (msg m : bytes) : env :=
  Env (e_seed_ok e) (fun hash key x => if bytes_eqb x msg then Some m else e_hmac e hash key x) (e_md e) (e_parse_key e) (e_parse_public_key e)
    (e_x509_parse e) (e_can_do e) (e_bitlen e)
    (e_pk_sign e) (e_pk_verify e) (e_pk_rsa e) (e_rsa_len e) (e_pss_sign e) (e_pss_verify e) (e_pk_ec e)
    (e_ecdsa_from_keypair e) (e_group e) (e_ecdsa_sign e) (e_ecdsa_verify e) (e_ed_sign e) (e_ed_verify e) (e_time e)
    (e_checknum e) (e_jsmn e) (e_tok_junk e).
(** At most [q] questions, whatever the answers. *)
Inductive asks {O} : nat -> attacker O -> Prop :=
| Asks_none q tok : asks q (Claim tok)
| Asks_one q tok next : (forall o, asks q (next o)) -> asks (S q) (Ask tok next).
(** The token [tok] is one for [h] and [pl]. *)
Definition token_for (h pl tok : bytes) : Prop := exists rest, three_parts (tok ++ [x00]) h pl rest.

Lemma token_for_dec h pl tok : clean h -> clean pl -> token_for h pl tok \/ ~ token_for h pl tok.
Proof.
  intros [H1 H2] [H3 H4]. set (a := h ++ lit "." ++ pl ++ lit ".").
  destruct (bytes_eqb (firstn (length a) (tok ++ [x00])) a) eqn:E.
  - left. apply bytes_eqb_is in E. exists (skipn (length a) (tok ++ [x00])). split; [|auto].
    rewrite <- (firstn_skipn (length a) (tok ++ [x00])), E at 1. unfold a at 1. rewrite <- !app_assoc. reflexivity.
  - right. intros (rest & (T & _)). rewrite T in E. replace (h ++ lit "." ++ pl ++ lit "." ++ rest) with (a ++ rest) in E by (unfold a; rewrite <- !app_assoc; reflexivity).
    rewrite firstn_app_exact in E. rewrite (proj2 (bytes_eqb_is a a) eq_refl) in E. discriminate E.
Qed.

Section Blind.
Variables (p : platform) (e : env) (dp : dec_params) (jw : jwa) (k h pl : bytes).
Let msg := h ++ lit "." ++ pl.
Let n := md_size (j_hash jw).
Hypothesis (Hj : supported (dp_alg dp) jw) (Hf : j_family jw = HS).
Hypothesis (Hck : caller_key (dp_verification_key dp) (dp_verification_key_length dp) k).
Hypothesis (Ch : clean h) (Cp : clean pl).

(** Other tokens are answered without regard to this MAC. *)
Lemma other_switch alg crt key kl x hash sig sl m m' : x <> msg ->
  verify_switch p (with_mac e msg m) alg crt key kl x hash sig sl = verify_switch p (with_mac e msg m') alg crt key kl x hash sig sl.
Proof.
  intros Nx. assert (E : bytes_eqb x msg = false) by (destruct (bytes_eqb x msg) eqn:E; [apply bytes_eqb_is in E; contradiction|reflexivity]).
  unfold verify_switch. cbn [with_mac e_hmac e_pk_verify e_pk_rsa e_rsa_len e_pss_verify e_pk_ec e_ecdsa_from_keypair e_ecdsa_verify e_ed_verify]. rewrite E. reflexivity.
Qed.
Lemma other_body d m m' sig sl : (forall b jwt rest, dp_jwt d = Ptr b jwt -> ~ three_parts jwt h pl rest) ->
  verify_body p (with_mac e msg m) d sig sl = verify_body p (with_mac e msg m') d sig sl.
Proof.
  intros Nt. unfold verify_body. apply ubind_ext. intros key. apply ubind_ext. intros kl.
  change (load_cert (with_mac e msg m) key kl) with (load_cert e key kl). change (load_cert (with_mac e msg m') key kl) with (load_cert e key kl).
  apply ubind_ext. intros [crt|]; [|reflexivity]. destruct (dp_jwt d) as [|b jwt] eqn:Ej; [reflexivity|]. cbn [deref ubind].
  destruct (strchr jwt x2e) as [[n1|]|] eqn:E1; [|reflexivity|reflexivity]. cbn [ubind].
  destruct (strchr (skipn (S n1) jwt) x2e) as [[n2|]|] eqn:E2; [|reflexivity|reflexivity]. cbn [ubind]. cbv zeta.
  change (verify_hash (with_mac e msg m)) with (verify_hash e). change (verify_hash (with_mac e msg m')) with (verify_hash e).
  destruct (verify_hash e _ _) as [hash|]; [|reflexivity]. apply other_switch. intros Em.
  apply strchr_inv in E1 as (h' & r1 & E1 & <- & N1 & Z1); [|discriminate]. rewrite E1 in E2.
  assert (Sk : skipn (S (length h')) (h' ++ x2e :: r1) = r1).
  { change (h' ++ x2e :: r1) with (h' ++ [x2e] ++ r1). rewrite app_assoc.
    replace (S (length h')) with (length (h' ++ [x2e])) by (rewrite app_length; cbn [length]; lia). apply skipn_app_exact. }
  rewrite Sk in E2. apply strchr_inv in E2 as (pl' & r2 & E2 & <- & N2 & Z2); [|discriminate].
  assert (T : three_parts jwt h' pl' r2) by (split; [rewrite E1, E2; reflexivity|]; auto).
  destruct (signing_input_cut _ _ _ _ T) as (_ & _ & E3). rewrite E3 in Em. unfold msg in Em.
  assert (X : h' = h /\ pl' = pl).
  { apply (parts2_fun (h' ++ lit "." ++ pl')); [split; [reflexivity|]; auto|]. split; [exact Em|]. split; [exact (proj1 Ch)|exact (proj1 Cp)]. }
  destruct X as [-> ->]. exact (Nt b jwt r2 eq_refl T).
Qed.
Lemma other_decode tok m m' w : ~ token_for h pl tok ->
  l8w8jwt_decode p (with_mac e msg m) (Some (presenting dp tok)) true false false w
  = l8w8jwt_decode p (with_mac e msg m') (Some (presenting dp tok)) true false false w.
Proof.
  intros Nt. unfold l8w8jwt_decode. cbn [andb]. cbv zeta. destruct (negb _); [reflexivity|]. cbn [negb]. apply bind_cong; [reflexivity|].
  intros [c|] w1 _; [|reflexivity]. apply bind_cong; [|reflexivity].
  unfold decode_body. apply bind_cong; [reflexivity|]. intros [rc sg] w2 _. destruct (negb _); [reflexivity|].
  assert (B : forall sig sl, verify_body p (with_mac e msg m) (presenting dp tok) sig sl = verify_body p (with_mac e msg m') (presenting dp tok) sig sl).
  { intros sig sl. apply other_body. intros b jwt rest E T. cbn [presenting dp_jwt] in E. injection E as _ <-. apply Nt. exists rest. exact T. }
  apply bind_cong.
  - unfold l8w8jwt_verify_signature. destruct (_ || _ || _); [reflexivity|]. cbv zeta. destruct (p_small_stack p).
    + apply bind_cong; [reflexivity|]. intros key w3 _. apply bind_cong; [|reflexivity]. destruct (is_null key); [reflexivity|].
      apply bind_cong; [reflexivity|]. intros sig w4 _. rewrite B. reflexivity.
    + apply bind_cong; [reflexivity|]. intros sig w3 _. rewrite B. reflexivity.
  - intros [r1 res] w3 _. destruct (negb _); [reflexivity|].
    assert (Sr : same_reader (with_mac e msg m) (with_mac e msg m')) by (repeat split).
    apply bind_cong; [apply parse_reader; exact Sr|]. intros [r2 c2] w4 _. destruct (negb _); [reflexivity|].
    apply bind_cong; [apply parse_reader; exact Sr|]. intros [r3 c3] w5 _. destruct (negb _); [reflexivity|]. reflexivity.
Qed.

(** One for [h] and [pl] is taken with one MAC at most. *)
Lemma one_mac tok : token_for h pl tok -> exists c : bytes, forall m w r w', N.of_nat (length m) = n -> wf w ->
  l8w8jwt_decode p (with_mac e msg m) (Some (presenting dp tok)) true false false w = Ret r w' -> taken r = true -> m = c.
Proof.
  intros (rest & T). set (sz := to_size p (Z.of_nat (length tok) - Z.of_nat (length h + length pl + 2))).
  set (third := firstn (N.to_nat sz) rest).
  assert (D : exists c : bytes, forall sig tail, url_decodes third sig tail -> firstn (N.to_nat n) (sig ++ tail) = c).
  { destruct (decodes_or third) as [G|(sig & tail & G)].
    - exists []. intros sig tail D. destruct (G _ _ D).
    - eexists. intros sig' tail' D. destruct (url_fun _ _ _ _ _ D G) as [-> ->]. reflexivity. }
  destruct D as (c & D). exists c. intros m w r w' Lm Hwf H Tk. unfold taken in Tk. apply andb_prop in Tk as [Rc Tk]. apply Z.eqb_eq in Rc.
  destruct (dr_valid r) as [v|] eqn:Ev; [|discriminate Tk]. apply N.eqb_eq in Tk. subst v.
  destruct (C22_hmac_compared_partial p (with_mac e msg m) (presenting dp tok) false false w r w' _ jw k Hwf H Rc Ev Hj Hf Hck)
    as (jwt & h' & pl' & rest' & third' & sig & tail & (b & Ej) & T' & (s & Es & _ & Et) & Hd & V & _).
  cbn [presenting dp_jwt dp_jwt_length] in Ej, Es. injection Ej as _ <-. destruct (three_parts_fun _ _ _ _ _ _ _ T T') as (<- & <- & <-).
  rewrite nat_N_Z in Es. fold sz in Es. subst s. fold third in Et. subst third'. pose proof (proj1 V eq_refl) as K.
  destruct K as (mac & Em & E). cbn [with_mac e_hmac] in Em. fold msg in Em. rewrite (proj2 (bytes_eqb_is msg msg) eq_refl) in Em. injection Em as <-.
  rewrite <- (D _ _ Hd). symmetry. etransitivity; [exact E|]. apply fit_exact. exact Lm.
Qed.

Variable ws : nat -> world.
Hypothesis Hws : forall i, wf (ws i).
(** The attacker [a] does not get a token for [h] and [pl] taken if [m] is the MAC. *)
Definition foiled (m : bytes) (a : attacker bool) (i : nat) : Prop :=
  forall tok q, play (server p (with_mac e msg m) dp ws) a i = Some (tok, q) -> token_for h pl tok ->
  forall w r w', wf w -> l8w8jwt_decode p (with_mac e msg m) (Some (presenting dp tok)) true false false w = Ret r w' -> taken r = false.
Lemma remove_one (c : bytes) (S : list bytes) : NoDup S -> exists S', NoDup S' /\ incl S' S /\ ~ In c S' /\ (length S <= Datatypes.S (length S'))%nat.
Proof.
  intros H. induction H as [|x S Nx H IH]; [exists []; repeat split; [constructor|intros y []|intros []|cbn; lia]|].
  destruct (list_eq_dec Byte.byte_eq_dec c x) as [->|Nc].
  - exists S. split; [exact H|]. split; [intros y Hy; right; exact Hy|]. split; [exact Nx|cbn; lia].
  - destruct IH as (S' & H1 & H2 & H3 & H4). exists (x :: S'). split; [constructor; [intros C; apply Nx, H2; exact C|exact H1]|].
    split; [intros y [->|Hy]; [left; reflexivity|right; apply H2; exact Hy]|]. split; [intros [C|C]; [congruence|exact (H3 C)]|cbn in *; lia].
Qed.
Lemma blind q (a : attacker bool) : asks q a -> forall (S : list bytes) i, NoDup S -> (forall m, In m S -> N.of_nat (length m) = n) -> (q + 1 < length S)%nat ->
  exists m, In m S /\ foiled m a i.
Proof.
  intros Hq. induction Hq as [q tok|q tok next Hn IH]; intros S i Nd Ls Lt.
  - destruct (token_for_dec h pl tok Ch Cp) as [T|T].
    + destruct (one_mac tok T) as (c & Hc). destruct (remove_one c S Nd) as ([|m S'] & H1 & H2 & H3 & H4); [exfalso; cbn [length] in H4; lia|].
      exists m. split; [apply H2; left; reflexivity|]. intros tok' q' E T' w r w' Hw H. cbn [play] in E. injection E as <- _.
      destruct (taken r) eqn:Tk; [|reflexivity]. destruct H3. left. eapply Hc; eauto. apply Ls, H2. left. reflexivity.
    + destruct S as [|m S]; [cbn in Lt; lia|]. exists m. split; [left; reflexivity|]. intros tok' q' E T'. cbn [play] in E. injection E as <- _. contradiction.
  - destruct (token_for_dec h pl tok Ch Cp) as [T|T].
    + destruct (one_mac tok T) as (c & Hc). destruct (remove_one c S Nd) as (S' & H1 & H2 & H3 & H4).
      destruct (IH false S' (Datatypes.S i) H1) as (m & Hm & Hf'); [intros m Hm; apply Ls, H2, Hm|lia|].
      exists m. split; [apply H2; exact Hm|]. intros tok' q' E. cbn [play] in E. unfold server at 1 in E.
      destruct (l8w8jwt_decode p (with_mac e msg m) (Some (presenting dp tok)) true false false (ws i)) as [r w'|u] eqn:Ed; [|discriminate E].
      destruct (taken r) eqn:Tk; [|exact (Hf' _ _ E)]. exfalso. apply H3. rewrite <- (Hc m (ws i) r w'); auto.
    + destruct S as [|m0 S]; [cbn in Lt; lia|].
      destruct (server p (with_mac e msg m0) dp ws i tok) as [o|] eqn:Eo.
      * destruct (IH o (m0 :: S) (Datatypes.S i) Nd Ls ltac:(lia)) as (m & Hm & Hf'). exists m. split; [exact Hm|].
        intros tok' q' E. cbn [play] in E. unfold server at 1 in E. rewrite (other_decode tok m m0 (ws i) T) in E. unfold server in Eo. rewrite Eo in E. exact (Hf' _ _ E).
      * exists m0. split; [left; reflexivity|]. intros tok' q' E. cbn [play] in E. rewrite Eo in E. discriminate E.
Qed.
End Blind.

(** Without the times no such thing is possible: whoever sees the answers only, and asks fewer questions
    than there are MACs less one, fails for some MAC, even if they know all MACs of other texts. *)
Theorem C85_answers_alone :
  forall p e dp jw k h pl ws (a : attacker bool) q,
    supported (dp_alg dp) jw -> j_family jw = HS -> caller_key (dp_verification_key dp) (dp_verification_key_length dp) k ->
    clean h -> clean pl -> (forall i, wf (ws i)) -> asks q a -> (N.of_nat q + 1 < 256 ^ md_size (j_hash jw))%N ->
    exists m, N.of_nat (length m) = md_size (j_hash jw)
      /\ let e' := with_mac e (h ++ lit "." ++ pl) m in
         forall tok q', play (server p e' dp ws) a 0 = Some (tok, q') -> token_for h pl tok ->
         forall w r w', wf w -> l8w8jwt_decode p e' (Some (presenting dp tok)) true false false w = Ret r w' ->
         ~ (dr_rc r = 0%Z /\ dr_valid r = Some L8W8JWT_VALID).
Proof.
  intros p e dp jw k h pl ws a q Hj Hf Hck Ch Cp Hws Hq Hlt. set (n := N.to_nat (md_size (j_hash jw))).
  set (S := map (be_bytes n) (map N.of_nat (List.seq 0 (q + 2)))).
  destruct (blind p e dp jw k h pl Hj Hf Hck Ch Cp ws Hws q a Hq S 0) as (m & Hm & F).
  - unfold S. rewrite map_map. apply NoDup_nth with (d := be_bytes n (N.of_nat 0)). rewrite map_length, seq_length. intros i j Hi Hji.
    rewrite !(map_nth (fun x => be_bytes n (N.of_nat x))), !seq_nth by lia. intros E. apply (f_equal big_endian) in E.
    assert (X : (256 ^ N.of_nat n)%N = (256 ^ md_size (j_hash jw))%N) by (unfold n; rewrite N2Nat.id; reflexivity).
    rewrite !be_bytes_value in E by (rewrite X; eapply N.le_lt_trans; [|exact Hlt]; lia). lia.
  - intros m Hm. unfold S in Hm. apply in_map_iff in Hm as (x & <- & _). rewrite be_bytes_length. unfold n. lia.
  - unfold S. rewrite !map_length, seq_length. lia.
  - exists m. split; [unfold S in Hm; apply in_map_iff in Hm as (x & <- & _); rewrite be_bytes_length; unfold n; lia|].
    cbv zeta. intros tok q' E T w r w' Hw H [R V]. pose proof (F tok q' E T w r w' Hw H) as Tk. unfold taken in Tk. rewrite R, V in Tk. discriminate Tk.
Qed.
Print Assumptions C85_answers_alone.

(** ** Examples *)
Definition a_header : bytes := rfc4648_unpadded true (lit plain_header).
Definition a_payload : bytes := rfc4648_unpadded true (lit "{""sub"":""root""}").
Definition a_mac : bytes := fit 32 (lit "secret" ++ a_header ++ lit "." ++ a_payload).
Definition an_asker (tok : bytes) : dec_params := sample_params tok 0 Null false.
Definition time_of (g : bytes) : option (bool * nat) := timed_server pe toy_num (an_asker []) (fun _ => we) 0 (with_signature a_header a_payload g).
(** The situation of the theorems: a token for root, signed with zeros, is refused for its signature alone. *)
Lemma root_asked : let dp := an_asker [] in let tok := with_signature a_header a_payload (repeat x00 32) in
  sample_ok toy_num (presenting dp tok) tok /\ supported (dp_alg dp) (Jwa 0 (lit "HS256") HS SHA256)
  /\ caller_key (dp_verification_key dp) (dp_verification_key_length dp) (lit "secret")
  /\ e_hmac toy_num SHA256 (hmac_key (lit "secret")) (a_header ++ lit "." ++ a_payload) = Some a_mac
  /\ clean a_header /\ clean a_payload
  /\ exists w', l8w8jwt_decode pe toy_num (Some (presenting dp tok)) true false false we = Ret (DecRes 0 (Some 128%N) None) w'.
Proof.
  cbv zeta. split; [exact (sample_called toy_num (with_signature a_header a_payload (repeat x00 32)) 0 Null false ltac:(intros js cap; reflexivity)
    ltac:(vm_compute; reflexivity) ltac:(vm_compute; discriminate) ltac:(apply no_nul_b; vm_compute; reflexivity) ltac:(left; reflexivity) ltac:(vm_compute; split; discriminate))|].
  split; [split; [cbn; auto|reflexivity]|]. split; [exists None, (lit "secret" ++ [x00]); split; [reflexivity|split; [vm_compute; discriminate|reflexivity]]|].
  split; [vm_compute; reflexivity|]. split; [apply unpadded_clean|]. split; [apply unpadded_clean|].
  set (c := l8w8jwt_decode _ _ _ _ _ _ _). assert (E : match c with Ret r _ => r = DecRes 0 (Some 128%N) None | Undef _ => False end) by (vm_compute; reflexivity).
  destruct c as [r w'|u]; [|contradiction]. exists w'. rewrite E. reflexivity.
Qed.
Example C85_example :
  (* times of signatures that are right in no byte, in 3, in 31, in all *)
  time_of (repeat x00 32) = Some (false, 1) /\ time_of (lit "sec" ++ repeat x00 29) = Some (false, 4)
  /\ time_of (firstn 31 a_mac ++ [x00]) = Some (false, 32) /\ time_of a_mac = Some (true, 32)
  (* the forger's success *)
  /\ exists tok q, play (timed_server pe toy_num (an_asker []) (fun _ => we)) (forger a_header a_payload 32 []) 0 = Some (tok, q) /\ (q <= 256 * 32)%nat
      /\ exists w', l8w8jwt_decode pe toy_num (Some (presenting (an_asker []) tok)) true false false we = Ret (DecRes 0 (Some L8W8JWT_VALID) None) w'.
Proof.
  split; [vm_compute; reflexivity|]. split; [vm_compute; reflexivity|]. split; [vm_compute; reflexivity|]. split; [vm_compute; reflexivity|].
  destruct root_asked as ((W & A & G & J & P & (_ & _ & _ & T) & L & K & R) & Sj & Ck & Hm & Ch & Cp & w' & D).
  destruct (C85_time_forges pe toy_num (an_asker []) (Jwa 0 (lit "HS256") HS SHA256) (lit "secret") a_header a_payload a_mac (fun _ => we) (repeat x00 32) we
    (DecRes 0 (Some 128%N) None) 128%N w') as (tok & q & H1 & H2 & H3); try assumption; try reflexivity.
  - intros bit. change 128%N with (2 ^ 7)%N. rewrite N.pow2_bits_eqb, N.eqb_eq. auto.
  - intros _. auto.
  - exists tok, q. split; [exact H1|]. split; [exact H2|]. apply H3; assumption.
Qed.
(** C85_answers_alone: its hypotheses hold for the same server and an attacker who tries two tokens. *)
Example C85_blind_example :
  exists m, N.of_nat (length m) = 32%N
    /\ forall tok q', play (server pe (with_mac toy_num (a_header ++ lit "." ++ a_payload) m) (an_asker []) (fun _ => we))
         (Ask (with_signature a_header a_payload a_mac) (fun o : bool => if o then Claim (with_signature a_header a_payload a_mac)
            else Ask (with_signature a_header a_payload (repeat x00 32)) (fun _ => Claim (with_signature a_header a_payload (repeat x00 32))))) 0 = Some (tok, q') ->
       token_for a_header a_payload tok -> forall w r w', wf w ->
       l8w8jwt_decode pe (with_mac toy_num (a_header ++ lit "." ++ a_payload) m) (Some (presenting (an_asker []) tok)) true false false w = Ret r w' ->
       ~ (dr_rc r = 0%Z /\ dr_valid r = Some L8W8JWT_VALID).
Proof.
  destruct root_asked as (_ & Sj & Ck & _ & Ch & Cp & _).
  apply (C85_answers_alone pe toy_num (an_asker []) (Jwa 0 (lit "HS256") HS SHA256) (lit "secret") a_header a_payload (fun _ => we) _ 2); auto.
  - intros _. apply we_wf.
  - apply Asks_one. intros []; [apply Asks_none|]. apply Asks_one. intros o. apply Asks_none.
  - vm_compute. reflexivity.
Qed.
