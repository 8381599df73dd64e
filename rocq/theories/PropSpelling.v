(** * Properties C58, C59: where the token ends, and how many spellings it has *)
From Verif Require Import Base BaseProofs HeapProofs Util UtilProofs Claim Base64 SpecB64
  Base64EncProofs Base64EncApi Base64DecProofs Base64Api Jsmn Env Encode Decode SpecJson SpecJwa ClaimProofs UnescapeProofs
  EncodeProofs SignProofs EncodeTotal SpecEnc JsonProofs PropEncode DecodeProofs DecodeInv JsmnProofs ParseProofs
  PropClaim ReadProofs ValidateProofs JsmnJson DecodeTotal PropVerify PropValidate PropTime.
From Coq Require Import ZifyBool ZifyNat ZifyN.
Ltac Zify.zify_post_hook ::= Z.div_mod_to_equations.

(** ** Notions *)
(** The same request for another token: the buffer and the length given for it. *)
Definition on_token (dp : dec_params) (jwt : ptr) (n : N) : dec_params :=
  DecParams jwt n (dp_alg dp) (dp_validate_iss dp) (dp_validate_iss_length dp)
    (dp_validate_sub dp) (dp_validate_sub_length dp) (dp_validate_aud dp) (dp_validate_aud_length dp)
    (dp_validate_jti dp) (dp_validate_jti_length dp) (dp_validate_exp dp) (dp_validate_nbf dp) (dp_validate_iat dp)
    (dp_exp_tolerance dp) (dp_nbf_tolerance dp) (dp_iat_tolerance dp)
    (dp_verification_key dp) (dp_verification_key_length dp) (dp_validate_typ dp) (dp_validate_typ_length dp).
(** [tok] followed by [rest] in memory, with the length of [tok]. *)
Definition placed (dp : dec_params) (b : option nat) (tok rest : bytes) : dec_params :=
  on_token dp (Ptr b (tok ++ rest)) (N.of_nat (length tok)).
(** The base64url characters (RFC 4648, section 5) and the padding character. *)
Definition base64url (c : byte) : bool := existsb (Byte.eqb c) (rfc4648_alphabet true) || Byte.eqb c x3d.
(** A compact token without its signature part: two parts with no dot and no NUL. *)
Definition two_parts (m : bytes) : Prop :=
  exists h q, m = h ++ lit "." ++ q /\ no_dot h /\ no_nul h /\ no_dot q /\ no_nul q.

(** ** The decoder for base64 *)
Lemma bind_lift {A B} (u : U A) (k : A -> M B) a w : u = OK a -> mbind (lift u) k w = k a w.
Proof. intros ->. reflexivity. Qed.
Lemma base64url_accepted c : base64url c = Base64DecProofs.accepted true c.
Proof. symmetry. apply accepted_in. Qed.
Lemma nul_foreign url : Base64DecProofs.accepted url x00 = false.
Proof. destruct url; reflexivity. Qed.

Lemma read_last (s r : bytes) : s <> [] -> read_at (s ++ r) (N.of_nat (length s) - 1) = OK (last s x00).
Proof.
  intros H. destruct (exists_last H) as (s0 & x & ->). rewrite last_last. unfold read_at. rewrite !app_length. cbn [length].
  destruct (_ <? _)%N eqn:E; [|lia]. f_equal. rewrite <- app_assoc.
  replace (N.to_nat (N.of_nat (length s0 + 1) - 1)) with (length s0) by lia. apply nth_middle.
Qed.
Lemma strip_syms url (s r : bytes) : s <> [] ->
  exists i, take (s ++ r) (if is_nul (last s x00) then N.of_nat (length s) - 1 else N.of_nat (length s)) = OK i
    /\ syms url i = syms url s.
Proof.
  intros H. destruct (exists_last H) as (s0 & x & ->). rewrite last_last. destruct (is_nul x) eqn:E.
  - exists s0. split.
    + rewrite <- app_assoc. rewrite app_length. cbn [length]. replace (N.of_nat (length s0 + 1) - 1)%N with (N.of_nat (length s0)) by lia.
      apply take_app.
    + rewrite syms_app. unfold is_nul in E. apply byte_eqb_eq in E. subst x.
      change (syms url [x00]) with (if Base64DecProofs.accepted url x00 then [x00] else []). rewrite nul_foreign, app_nil_r. reflexivity.
  - exists (s0 ++ [x]). split; [apply take_app|reflexivity].
Qed.

Lemma b64_none url b (s r : bytes) w : syms url s = [] ->
  l8w8jwt_base64_decode url (Ptr b (s ++ r)) (N.of_nat (length s)) true true w = Ret (B64 L8W8JWT_INVALID_ARG None None) w.
Proof.
  intros E0. unfold l8w8jwt_base64_decode. cbn [is_null negb orb deref].
  destruct (_ =? 0)%N eqn:N0; [reflexivity|].
  assert (H : s <> []) by (intros ->; discriminate). destruct (strip_syms url s r H) as (i & T & Si).
  unfold mbind, lift. rewrite read_last by auto. cbv zeta. rewrite T, dec_count_filter, Si, E0. reflexivity.
Qed.
Lemma b64_syms url b b' (s r s' r' : bytes) w : syms url s = syms url s' ->
  l8w8jwt_base64_decode url (Ptr b (s ++ r)) (N.of_nat (length s)) true true w
  = l8w8jwt_base64_decode url (Ptr b' (s' ++ r')) (N.of_nat (length s')) true true w.
Proof.
  intros E.
  destruct (list_eq_dec byte_eq_dec (syms url s) []) as [E0|N0].
  { rewrite !b64_none by congruence. reflexivity. }
  assert (H : s <> []) by (intros ->; apply N0; reflexivity).
  assert (H' : s' <> []) by (intros ->; apply N0; rewrite E; reflexivity).
  destruct (strip_syms url s r H) as (i & T & Si). destruct (strip_syms url s' r' H') as (i' & T' & Si').
  unfold l8w8jwt_base64_decode. cbn [is_null negb orb deref].
  destruct (N.eqb_spec (N.of_nat (length s)) 0); [destruct s; [congruence|cbn in *; lia]|].
  destruct (N.eqb_spec (N.of_nat (length s')) 0); [destruct s'; [congruence|cbn in *; lia]|].
  rewrite (bind_lift (OK (s ++ r)) _ _ _ eq_refl), (bind_lift (OK (s' ++ r')) _ _ _ eq_refl).
  rewrite (bind_lift _ _ _ _ (read_last s r H)), (bind_lift _ _ _ _ (read_last s' r' H')). cbv zeta.
  rewrite (bind_lift _ _ _ _ T), (bind_lift _ _ _ _ T').
  rewrite !dec_count_filter, Si, Si', E.
  destruct (_ || _); [reflexivity|]. apply bind_cong; [reflexivity|]. intros [|blk buf] w1 _; [reflexivity|].
  apply bind_cong; [|reflexivity]. unfold lift. rewrite (dec_loop_filter url (i ++ _)), (dec_loop_filter url (i' ++ _)).
  rewrite !syms_app, Si, Si', E. reflexivity.
Qed.

Lemma nat_Z_to_N n : Z.to_N (Z.of_nat n) = N.of_nat n.
Proof. lia. Qed.

(** ** The three functions *)
Section Same.
Variables (p : platform) (e : env) (dp : dec_params) (h q s s' : bytes) (rest rest' : bytes) (b b' : option nat).
Hypothesis Hh : no_dot h /\ no_nul h.
Hypothesis Hq : no_dot q /\ no_nul q.
Hypothesis Hs : filter base64url s = filter base64url s'.
Let tok := h ++ lit "." ++ q ++ lit "." ++ s.
Let tok' := h ++ lit "." ++ q ++ lit "." ++ s'.
Hypothesis Hn : (N.of_nat (length tok) < size_mod p)%N.
Hypothesis Hn' : (N.of_nat (length tok') < size_mod p)%N.
Let D := placed dp b tok rest.
Let D' := placed dp b' tok' rest'.

Lemma Hsy : syms true s = syms true s'.
Proof.
  assert (forall t, syms true t = filter base64url t) as F; [|rewrite !F; exact Hs].
  intros t. unfold syms. apply filter_ext. intros c. symmetry. apply base64url_accepted.
Qed.
Lemma cut t r : (h ++ lit "." ++ q ++ lit "." ++ t) ++ r = h ++ x2e :: q ++ x2e :: t ++ r.
Proof. change (lit ".") with [x2e]. rewrite <- !app_assoc. reflexivity. Qed.
Lemma skip1 t : skipn (S (length h)) (h ++ x2e :: t) = t.
Proof. rewrite skipn_app, skipn_all2 by lia. replace (S (length h) - length h)%nat with 1%nat by lia. reflexivity. Qed.
Lemma skip2 t : skipn (S (length q)) (q ++ x2e :: t) = t.
Proof. rewrite skipn_app, skipn_all2 by lia. replace (S (length q) - length q)%nat with 1%nat by lia. reflexivity. Qed.

Lemma segments_same w : l8w8jwt_decode_segments p D w = l8w8jwt_decode_segments p D' w.
Proof.
  unfold l8w8jwt_decode_segments, D, D', placed, on_token. cbn [dp_jwt dp_jwt_length dp_alg deref]. cbv zeta.
  unfold tok, tok'. rewrite !cut.
  rewrite (bind_lift (OK (h ++ x2e :: q ++ x2e :: s ++ rest)) _ _ _ eq_refl).
  rewrite (bind_lift (OK (h ++ x2e :: q ++ x2e :: s' ++ rest')) _ _ _ eq_refl).
  rewrite !strchr_some by (first [discriminate|apply Hh|apply Hq]). rewrite !(bind_lift (OK (Some (length h))) _ _ _ eq_refl).
  apply bind_cong; [apply b64_syms; reflexivity|]. intros r w1 _.
  destruct (negb _); [reflexivity|]. rewrite !skip1. rewrite !strchr_some by (first [discriminate|apply Hh|apply Hq]).
  rewrite !(bind_lift (OK (Some (length q))) _ _ _ eq_refl). cbn [andb].
  apply bind_cong; [apply b64_syms; reflexivity|]. intros r2 w3 _.
  destruct (negb _); [reflexivity|]. rewrite !skip2.
  apply bind_cong; [|reflexivity].
  assert (L : forall t, to_size p (Z.of_N (N.of_nat (length (h ++ lit "." ++ q ++ lit "." ++ t))) - Z.of_nat (S (length h) + S (length q)))
    = to_size p (Z.of_nat (length t))).
  { intros t. f_equal. rewrite !app_length. cbn [length lit]. change (length (lit ".")) with 1%nat. lia. }
  unfold tok, tok' in *. rewrite !L. rewrite !app_length in Hn, Hn'. rewrite !to_size_small by lia. rewrite !nat_Z_to_N.
  apply b64_syms, Hsy.
Qed.

Lemma verify_same res sig n w : l8w8jwt_verify_signature p e D res sig n w = l8w8jwt_verify_signature p e D' res sig n w.
Proof.
  assert (V : forall sg n, verify_body p e D sg n = verify_body p e D' sg n).
  { intros sg k. unfold verify_body, D, D', placed, on_token. cbn [dp_jwt dp_jwt_length dp_alg dp_verification_key dp_verification_key_length deref].
    destruct (load_key _ _); [cbn [ubind]|reflexivity]. destruct (adjust_key_length _ _); [cbn [ubind]|reflexivity].
    destruct (load_cert _ _ _) as [[|]|]; try reflexivity. cbn [ubind]. unfold tok, tok'. rewrite !cut.
    rewrite !strchr_some by (first [discriminate|apply Hh|apply Hq]). cbn [ubind]. rewrite !skip1.
    rewrite !strchr_some by (first [discriminate|apply Hh|apply Hq]). cbn [ubind].
    assert (F : forall t, firstn (S (length h) + length q) (h ++ x2e :: q ++ x2e :: t) = h ++ x2e :: q).
    { intros t. rewrite firstn_app, firstn_all2 by lia. f_equal. replace (S (length h) + length q - length h)%nat with (S (length q)) by lia.
      cbn [firstn]. f_equal. rewrite firstn_app, firstn_all2, Nat.sub_diag by lia. apply app_nil_r. }
    rewrite !F. reflexivity. }
  unfold l8w8jwt_verify_signature. change (dp_alg D) with (dp_alg D'). cbv zeta.
  destruct (_ || _); [reflexivity|]. destruct (p_small_stack p).
  - apply bind_cong; [reflexivity|]. intros key w1 _. apply bind_cong; [|reflexivity].
    destruct (is_null key); [reflexivity|]. apply bind_cong; [reflexivity|]. intros sg w2 _. rewrite V. reflexivity.
  - apply bind_cong; [reflexivity|]. intros sg w2 _. rewrite V. reflexivity.
Qed.
Lemma validate_same cs n res : l8w8jwt_validate_claims p e D cs n res = l8w8jwt_validate_claims p e D' cs n res.
Proof. reflexivity. Qed.
Lemma params_same : l8w8jwt_validate_decoding_params p (Some D) = l8w8jwt_validate_decoding_params p (Some D').
Proof.
  unfold l8w8jwt_validate_decoding_params, D, D', placed, on_token.
  cbn [dp_jwt dp_jwt_length dp_alg dp_verification_key dp_verification_key_length is_null].
  unfold tok, tok'. rewrite !app_length. change (length (lit ".")) with 1%nat.
  destruct (is_null _); [reflexivity|]. cbn [orb].
  destruct (N.eqb_spec (N.of_nat (length h + (1 + (length q + (1 + length s))))) 0); [lia|].
  destruct (N.eqb_spec (N.of_nat (length h + (1 + (length q + (1 + length s'))))) 0); [lia|]. reflexivity.
Qed.
Lemma body_same cb w : decode_body p e D cb w = decode_body p e D' cb w.
Proof.
  unfold decode_body. apply bind_cong; [apply segments_same|]. intros [r sg] w1 _. destruct (negb _); [reflexivity|].
  apply bind_cong; [apply verify_same|]. intros [r2 res] w2 _. destruct (negb _); [reflexivity|].
  apply bind_cong; [reflexivity|]. intros [r3 c3] w3 _. destruct (negb _); [reflexivity|].
  apply bind_cong; [reflexivity|]. intros [r4 c4] w4 _. destruct (negb _); [reflexivity|]. reflexivity.
Qed.
Lemma decode_same vn cn ln w : l8w8jwt_decode p e (Some D) vn cn ln w = l8w8jwt_decode p e (Some D') vn cn ln w.
Proof.
  unfold l8w8jwt_decode. rewrite params_same. destruct (cn && negb ln); [reflexivity|]. cbv zeta.
  destruct (negb _); [reflexivity|]. destruct (negb vn); [reflexivity|]. apply bind_cong; [reflexivity|].
  intros [c0|] w0 _; [|reflexivity]. apply bind_cong; [apply body_same|]. reflexivity.
Qed.
Lemma raw_same vn a1 a2 a3 a4 a5 a6 w :
  l8w8jwt_decode_raw p e (Some D) vn a1 a2 a3 a4 a5 a6 w = l8w8jwt_decode_raw p e (Some D') vn a1 a2 a3 a4 a5 a6 w.
Proof.
  unfold l8w8jwt_decode_raw. rewrite params_same. destruct (_ || _); [reflexivity|]. cbv zeta.
  destruct (negb _); [reflexivity|]. apply bind_cong; [reflexivity|].
  intros [c0|] w0 _; [|reflexivity]. apply bind_cong; [|reflexivity].
  apply bind_cong; [rewrite decode_raw_body_eq; apply body_same|]. reflexivity.
Qed.
Lemma raw_nv_same a1 a2 a3 a4 a5 a6 w :
  l8w8jwt_decode_raw_no_validation p (Some D) a1 a2 a3 a4 a5 a6 w = l8w8jwt_decode_raw_no_validation p (Some D') a1 a2 a3 a4 a5 a6 w.
Proof.
  unfold l8w8jwt_decode_raw_no_validation. rewrite params_same. destruct (_ || _); [reflexivity|]. cbv zeta.
  destruct (negb _); [reflexivity|]. apply bind_cong; [apply segments_same|]. reflexivity.
Qed.
End Same.

(** ** C58 *)
(** The three decoding functions agree on two parameter sets, from the same heap, in every respect: outcome,
    undefined behaviour, allocations. *)
Definition same_outcome (p : platform) (e : env) (d d' : dec_params) : Prop :=
  (forall vn cn ln w, l8w8jwt_decode p e (Some d) vn cn ln w = l8w8jwt_decode p e (Some d') vn cn ln w)
  /\ (forall vn a1 a2 a3 a4 a5 a6 w, l8w8jwt_decode_raw p e (Some d) vn a1 a2 a3 a4 a5 a6 w
       = l8w8jwt_decode_raw p e (Some d') vn a1 a2 a3 a4 a5 a6 w)
  /\ (forall a1 a2 a3 a4 a5 a6 w, l8w8jwt_decode_raw_no_validation p (Some d) a1 a2 a3 a4 a5 a6 w
       = l8w8jwt_decode_raw_no_validation p (Some d') a1 a2 a3 a4 a5 a6 w).

Lemma spelling_general p e dp m s s' rest rest' b b' : two_parts m -> filter base64url s = filter base64url s' ->
  (N.of_nat (length (m ++ lit "." ++ s)) < size_mod p)%N -> (N.of_nat (length (m ++ lit "." ++ s')) < size_mod p)%N ->
  same_outcome p e (placed dp b (m ++ lit "." ++ s) rest) (placed dp b' (m ++ lit "." ++ s') rest').
Proof.
  intros (h & q & -> & A & B & C & D) E. rewrite <- !app_assoc. intros N N'.
  assert (Hh : no_dot h /\ no_nul h) by auto. assert (Hq : no_dot q /\ no_nul q) by auto.
  split; [|split]; intros.
  - apply decode_same; auto.
  - apply raw_same; auto.
  - apply raw_nv_same; auto.
Qed.

(** Of a token with two dots (and no NUL before them) within the given length, nothing behind that length
    is looked at: not even a terminator is needed. *)
Theorem C58_token_end_partial p e dp m s rest rest' b b' :
  two_parts m -> (N.of_nat (length (m ++ lit "." ++ s)) < size_mod p)%N ->
  same_outcome p e (placed dp b (m ++ lit "." ++ s) rest) (placed dp b' (m ++ lit "." ++ s) rest').
Proof. intros M N. apply spelling_general; auto. Qed.

(** In general the code looks for dots behind the given length: what follows the token turns an error return
    into a read beyond the buffer (the length of the signature is then negative, and converted to size_t). *)
Theorem C58_token_end_refuted :
  exists p e dp tok rest rest' w,
    (exists r w', l8w8jwt_decode p e (Some (placed dp None tok rest)) true true true w = Ret r w')
    /\ l8w8jwt_decode p e (Some (placed dp None tok rest')) true true true w = Undef OOBRead.
Proof.
  exists pe, toy, (time_params "{}" false false 0), (lit "e30.e30"), [x00], (lit ".AAAA" ++ [x00]), we.
  split; [|vm_compute; reflexivity].
  destruct (l8w8jwt_decode pe toy (Some (placed (time_params "{}" false false 0) None (lit "e30.e30") [x00])) true true true we) eqn:E;
    [|vm_compute in E; discriminate]. eauto.
Qed.

(** ** C59 *)
(** Characters that are no base64url in the signature part make no difference, wherever they stand. *)
Theorem C59_foreign_characters_partial p e dp m s s' rest rest' b b' :
  two_parts m -> filter base64url s = filter base64url s' ->
  (N.of_nat (length (m ++ lit "." ++ s)) < size_mod p)%N -> (N.of_nat (length (m ++ lit "." ++ s')) < size_mod p)%N ->
  same_outcome p e (placed dp b (m ++ lit "." ++ s) rest) (placed dp b' (m ++ lit "." ++ s') rest').
Proof. apply spelling_general. Qed.

(** Hence every token has other spellings: whatever the key, anyone can change the text of an accepted token
    and have it accepted again. *)
Theorem C59_respellable_refuted p e dp m s : two_parts m ->
  (N.of_nat (length (m ++ lit "." ++ s)) + 1 < size_mod p)%N ->
  exists tok', tok' <> m ++ lit "." ++ s
    /\ same_outcome p e (placed dp None (m ++ lit "." ++ s) [x00]) (placed dp None tok' [x00]).
Proof.
  intros M N. exists (m ++ lit "." ++ s ++ lit "!"). split.
  - intros E. apply app_inv_head, app_inv_head in E. apply (f_equal (@length byte)) in E. rewrite app_length in E. cbn in E. lia.
  - apply spelling_general; auto.
    + rewrite filter_app. cbn. rewrite app_nil_r. reflexivity.
    + lia.
    + rewrite !app_length in *. cbn [length lit] in *. change (length (lit "!")) with 1%nat. lia.
Qed.

(** Non-vacuous: an accepted token, and three other accepted spellings: a foreign character, a padding
    character, other unused bits in the last character; and one with a changed signature. *)
Definition spelled : bytes := signed plain_header "{}".
Definition respelled (t : bytes) : option N :=
  match l8w8jwt_decode pe toy (Some (placed (time_params "{}" false false 0) None t [])) true true true we with
  | Ret r _ => dr_valid r | Undef _ => None end.
Example C59_example :
  two_parts (rfc4648_unpadded true (lit plain_header) ++ lit "." ++ rfc4648_unpadded true (lit "{}"))
  /\ respelled spelled = Some 0%N
  /\ respelled (spelled ++ lit "!") = Some 0%N /\ respelled (spelled ++ lit "=") = Some 0%N
  /\ respelled (removelast spelled ++ lit "N") = Some 0%N
  /\ respelled (removelast spelled ++ lit "Q") = Some 128%N.
Proof.
  split; [|vm_compute; repeat split; reflexivity].
  eexists _, _. split; [reflexivity|]. repeat split; vm_compute; intuition discriminate.
Qed.

Print Assumptions C58_token_end_partial.
Print Assumptions C58_token_end_refuted.
Print Assumptions C59_foreign_characters_partial.
Print Assumptions C59_respellable_refuted.
