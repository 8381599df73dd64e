(** * Property C88: the HMAC algorithms compute RFC 7518's HMAC of the caller's key *)
From Verif Require Import Base BaseProofs HeapProofs Util UtilProofs Claim Base64 SpecB64
  Base64EncProofs Base64EncApi Base64DecProofs Base64Api Jsmn Env Encode Decode SpecJson SpecJwa ClaimProofs UnescapeProofs
  EncodeProofs SignProofs EncodeTotal SpecEnc JsonProofs PropEncode DecodeProofs DecodeInv JsmnProofs ParseProofs
  PropClaim ReadProofs ValidateProofs JsmnJson JsmnSize PropVerify PropValidate PropLeak PropJson DecodeTotal DecodeOk
  OverRead PropSafe PropRoundTrip PropOverRead CodeProofs Walk Exact PropExact Complete PropComplete LocalProofs Examples Sha2.
From Coq Require Import ZifyBool ZifyNat ZifyN.
Ltac Zify.zify_post_hook ::= Z.div_mod_to_equations.
Local Opaque L8W8JWT_MAX_KEY_SIZE.

(** ** Notions *)
(** mbedtls_md_hmac is HMAC (RFC 2104) over hash functions [H] with the digest lengths of SHA-2. *)
Definition standard_hmac (e : env) (H : md -> bytes -> bytes) : Prop :=
  (forall h m, N.of_nat (length (H h m)) = md_size h)
  /\ (forall h k m, e_hmac e h k m = Some (rfc2104 (H h) (block_size h) k m)).
(** The keys the library's treatment of a final NUL does no harm to. *)
Definition plain_key (h : md) (k : bytes) : Prop := (length k <= block_size h)%nat \/ is_nul (last k x01) = false.
(** Two keys RFC 2104 makes the same block of. *)
Definition one_key (H : md -> bytes -> bytes) (h : md) (k k' : bytes) : Prop :=
  block_key (H h) (block_size h) k = block_key (H h) (block_size h) k'.
(** Other key, same parameters otherwise. *)
Definition rekeyed (dp : dec_params) (q : ptr) (n : N) : dec_params :=
  DecParams (dp_jwt dp) (dp_jwt_length dp) (dp_alg dp) (dp_validate_iss dp) (dp_validate_iss_length dp)
    (dp_validate_sub dp) (dp_validate_sub_length dp) (dp_validate_aud dp) (dp_validate_aud_length dp)
    (dp_validate_jti dp) (dp_validate_jti_length dp) (dp_validate_exp dp) (dp_validate_nbf dp) (dp_validate_iat dp)
    (dp_exp_tolerance dp) (dp_nbf_tolerance dp) (dp_iat_tolerance dp) q n (dp_validate_typ dp) (dp_validate_typ_length dp).
(** The two calls come to the same: the same undefined behaviour, or the same code, validation result and claims. *)
Definition same_answer (a b : res dec_res) : Prop :=
  match a, b with
  | Undef u, Undef u' => u = u'
  | Ret r _, Ret r' _ => dr_rc r = dr_rc r' /\ dr_valid r = dr_valid r'
      /\ match dr_claims r, dr_claims r' with
         | None, None => True
         | Some (CArr _ cs, n), Some (CArr _ cs', n') => n = n' /\ exists es, Forall2 holds cs es /\ Forall2 holds cs' es
         | _, _ => False
         end
  | _, _ => False
  end.

(** ** Keys *)
Lemma block_key_short H B k : (length k <= B)%nat -> block_key H B k = k ++ repeat x00 (B - length k).
Proof. intros L. unfold block_key. destruct (Nat.ltb_spec B (length k)); [lia|reflexivity]. Qed.
Lemma repeat_snoc {A} (x : A) n : repeat x n ++ [x] = repeat x (S n).
Proof. change [x] with (repeat x 1). rewrite <- repeat_app. f_equal. lia. Qed.
Lemma hmac_key_split k : hmac_key k = k \/ (k = hmac_key k ++ [x00] /\ is_nul (last k x01) = true).
Proof.
  unfold hmac_key. destruct (is_nul (last k x01)) eqn:E; [right|left; reflexivity].
  destruct k as [|c k]; [discriminate E|]. split; [|reflexivity]. rewrite (app_removelast_last x01 (l := c :: k)) at 1 by discriminate.
  f_equal. apply is_nul_true in E. rewrite E. reflexivity.
Qed.
Lemma block_key_nul H B k : (length k <= B)%nat -> block_key H B (hmac_key k) = block_key H B k.
Proof.
  intros L. destruct (hmac_key_split k) as [->|(E & _)]; [reflexivity|].
  assert (Lk : length k = S (length (hmac_key k))) by (rewrite E at 1; rewrite app_length; cbn [length]; lia).
  rewrite !block_key_short by lia. rewrite E at 3. rewrite <- app_assoc. f_equal.
  change ([x00] ++ repeat x00 (B - length k)) with (repeat x00 (S (B - length k))). f_equal. lia.
Qed.
Lemma rfc2104_one H B k k' m : block_key H B k = block_key H B k' -> rfc2104 H B k m = rfc2104 H B k' m.
Proof. unfold rfc2104. intros ->. reflexivity. Qed.
Lemma plain_mac H h k m : plain_key h k -> rfc2104 (H h) (block_size h) (hmac_key k) m = rfc2104 (H h) (block_size h) k m.
Proof.
  intros [L|L]; [apply rfc2104_one, block_key_nul; exact L|]. unfold hmac_key. rewrite L. reflexivity.
Qed.
Lemma mac_length e H h k m : standard_hmac e H -> N.of_nat (length (rfc2104 (H h) (block_size h) k m)) = md_size h.
Proof. intros (L & _). unfold rfc2104. apply L. Qed.
Lemma fit_mac e H h k m : standard_hmac e H -> fit (md_size h) (rfc2104 (H h) (block_size h) k m) = rfc2104 (H h) (block_size h) k m.
Proof. intros S. apply fit_exact. apply (mac_length e H h k m S). Qed.

(** Which keys are one: among keys no longer than a block, those that differ by zeros at the end; a longer key is
    one with its hash. *)
Theorem C88_one_key :
  forall (H : md -> bytes -> bytes) h k k', (forall m, N.of_nat (length (H h m)) = md_size h) ->
    ((length k <= block_size h)%nat -> (length k' <= block_size h)%nat ->
       (one_key H h k k' <-> exists n, k' = k ++ repeat x00 n \/ k = k' ++ repeat x00 n))
    /\ ((block_size h < length k)%nat -> one_key H h k (H h k)).
Proof.
  intros H h k k' HL. split.
  - intros L L'. unfold one_key. rewrite !block_key_short by assumption. split.
    + assert (G : forall (a b : bytes) n m, a ++ repeat x00 n = b ++ repeat x00 m -> (length a <= length b)%nat -> exists i, b = a ++ repeat x00 i).
      { induction a as [|x a IH]; intros b n m E Hl; cbn [app] in *.
        - exists (length b). assert (F : Forall (fun c => c = x00) b).
          { apply Forall_forall. intros c Hc. apply (repeat_spec n x00 c). rewrite E. apply in_app_iff. auto. }
          clear - F. induction F as [|c b -> _ IH]; [reflexivity|]. cbn [length repeat]. f_equal. exact IH.
        - destruct b as [|y b]; cbn [length] in Hl; [lia|]. cbn [app] in E. injection E as <- E.
          destruct (IH b n m E ltac:(lia)) as (i & ->). exists i. reflexivity. }
      intros E. destruct (Nat.le_ge_cases (length k) (length k')) as [C|C].
      * destruct (G _ _ _ _ E C) as (i & ->). exists i. auto.
      * destruct (G _ _ _ _ (eq_sym E) C) as (i & ->). exists i. auto.
    + assert (G : forall a n, (length (a ++ repeat x00 n) <= block_size h)%nat ->
        a ++ repeat x00 (block_size h - length a) = (a ++ repeat x00 n) ++ repeat x00 (block_size h - length (a ++ repeat x00 n))).
      { intros a n Hl. rewrite <- app_assoc, <- repeat_app, app_length, repeat_length in *. do 2 f_equal. lia. }
      intros (n & [->| ->]); [apply G; exact L'|symmetry; apply G; exact L].
  - intros L. unfold one_key. assert (Lh : (length (H h k) <= block_size h)%nat).
    { specialize (HL k). destruct h; cbn [md_size block_size] in *; lia. }
    rewrite (block_key_short _ _ (H h k)) by exact Lh. unfold block_key. destruct (Nat.ltb_spec (block_size h) (length k)); [reflexivity|lia].
Qed.
Print Assumptions C88_one_key.

(** ** Issuing *)
(** The third part of an HS256, HS384 or HS512 token is the HMAC of the first two under the caller's key, byte for
    byte; if the key is longer than a block and ends in a NUL, it is the HMAC under the key without that NUL. *)
Theorem C88_issued_mac :
  forall p e H ep w r w' j k,
    (6 <= p_size_bits p)%N -> wf w -> appended w w' -> standard_hmac e H ->
    l8w8jwt_encode p e (Some ep) w = Ret r w' -> er_rc r = L8W8JWT_SUCCESS ->
    supported (ep_alg ep) j -> j_family j = HS -> caller_key (ep_secret_key ep) (ep_secret_key_length ep) k ->
    exists id ht pt,
      let msg := rfc4648_unpadded true ht ++ lit "." ++ rfc4648_unpadded true pt in
      let mac k := rfc2104 (H (j_hash j)) (block_size (j_hash j)) k msg in
      let token s := msg ++ lit "." ++ rfc4648_unpadded true s in
      (plain_key (j_hash j) k -> er_out r = Some (Ptr (Some id) (token (mac k) ++ [x00])))
      /\ (~ plain_key (j_hash j) k -> er_out r = Some (Ptr (Some id) (token (mac (removelast k)) ++ [x00]))).
Proof.
  intros p e H ep w r w' j k Hp Hwf Hap Hs He Hrc Hj Hf (kb & km & Ek & Hl & Ekk).
  destruct (C15_header_names_algorithm p e ep w r w' Hp Hwf Hap He Hrc) as (id & j' & k' & ht & pt & sig & blk & mem & more & Ho & Hj' & _ & Eq & Ek' & _ & Sg).
  assert (j' = j) as -> by (eapply supported_unique; eassumption). rewrite Ek in Eq. injection Eq as <- <-. rewrite <- Ekk in Ek'. subst k'.
  unfold signed_by in Sg. rewrite Hf in Sg. destruct Sg as (mac & Em & ->). rewrite (proj2 Hs) in Em. injection Em as <-.
  rewrite (fit_mac e H _ _ _ Hs) in Ho. exists id, ht, pt. cbv zeta. split.
  - intros Pk. rewrite <- (plain_mac H _ _ _ Pk), Ho, <- !app_assoc. reflexivity.
  - intros Pk. assert (Eh : hmac_key k = removelast k).
    { unfold hmac_key. destruct (is_nul (last k x01)) eqn:E; [reflexivity|]. destruct Pk. right. exact E. }
    rewrite Eh in Ho. rewrite Ho, <- !app_assoc. reflexivity.
Qed.
Print Assumptions C88_issued_mac.

(** ** Checking *)
(** A signature of the right length is accepted exactly if it is the HMAC under the caller's key. *)
Theorem C88_checked_mac :
  forall p e H dp cn ln w r w' v j k,
    wf w -> standard_hmac e H -> l8w8jwt_decode p e (Some dp) true cn ln w = Ret r w' ->
    dr_rc r = L8W8JWT_SUCCESS -> dr_valid r = Some v ->
    supported (dp_alg dp) j -> j_family j = HS ->
    caller_key (dp_verification_key dp) (dp_verification_key_length dp) k -> plain_key (j_hash j) k ->
    exists jwt h pl rest third sig tail,
      text dp jwt /\ three_parts jwt h pl rest /\ third_segment p dp h pl rest third /\ url_decodes third sig tail
      /\ let mac := rfc2104 (H (j_hash j)) (block_size (j_hash j)) k (h ++ lit "." ++ pl) in
         (N.of_nat (length sig) = md_size (j_hash j) -> (N.testbit v 7 = false <-> sig = mac))
         /\ (N.testbit v 7 = false <-> exists more, sig ++ tail = mac ++ more).
Proof.
  intros p e H dp cn ln w r w' v j k Hwf Hs Hd Hrc Hv Hj Hf Hk Pk.
  destruct (C22_hmac_compared_partial p e dp cn ln w r w' v j k Hwf Hd Hrc Hv Hj Hf Hk)
    as (jwt & h & pl & rest & third & sig & tail & H1 & H2 & H3 & H4 & H5 & H6).
  exists jwt, h, pl, rest, third, sig, tail. do 4 (split; [assumption|]). cbv zeta.
  set (msg := h ++ lit "." ++ pl) in *. set (mac := rfc2104 (H (j_hash j)) (block_size (j_hash j)) k msg).
  assert (Em : e_hmac e (j_hash j) (hmac_key k) msg = Some mac) by (rewrite (proj2 Hs); f_equal; apply plain_mac; exact Pk).
  assert (Fm : fit (md_size (j_hash j)) mac = mac) by (apply fit_exact, (mac_length e H (j_hash j) k msg Hs)).
  assert (Lm : length mac = N.to_nat (md_size (j_hash j))) by (rewrite <- (mac_length e H (j_hash j) k msg Hs); fold mac; lia).
  split.
  - intros L. rewrite (H6 L). split; [intros (m & E & ->); congruence|intros ->; exists mac; auto].
  - rewrite H5. split.
    + intros (m & E & F). rewrite Em in E. injection E as <-. rewrite Fm in F. exists (skipn (N.to_nat (md_size (j_hash j))) (sig ++ tail)).
      rewrite <- F, firstn_skipn. reflexivity.
    + intros (more & E). exists mac. split; [exact Em|]. rewrite Fm, E, <- Lm. apply firstn_app_exact.
Qed.
Print Assumptions C88_checked_mac.

(** ** One key is as good as the other *)
Lemma mac_one e H h k k' m : standard_hmac e H -> one_key H h (hmac_key k) (hmac_key k') -> e_hmac e h (hmac_key k) m = e_hmac e h (hmac_key k') m.
Proof. intros (_ & Hs) O. rewrite !Hs. f_equal. apply rfc2104_one. exact O. Qed.
Lemma check_one p e H dp q n j k k' msg sg c :
  standard_hmac e H -> supported (dp_alg dp) j -> j_family j = HS ->
  caller_key (dp_verification_key dp) (dp_verification_key_length dp) k -> caller_key q n k' ->
  one_key H (j_hash j) (hmac_key k) (hmac_key k') -> ~ bad_certificate e k -> ~ bad_certificate e k' ->
  check p e dp msg sg c -> check p e (rekeyed dp q n) msg sg c.
Proof.
  intros Hs Hj Hf Hk Hk' O B B' Hc.
  assert (Em : forall m, e_hmac e (j_hash j) (hmac_key k) m = e_hmac e (j_hash j) (hmac_key k') m) by (intros m; apply (mac_one e H); assumption).
  assert (Hn : dp_alg dp <> (-1)%Z) by (destruct (supported_range _ _ Hj); lia).
  assert (T' : forall rc, ~ turned_down p e j k' msg rc).
  { intros rc [(C & _)|(_ & C)]; [contradiction|]. cbv zeta in C. rewrite Hf in C. exact C. }
  assert (Mi : forall mem u, misused e j k msg mem u <-> misused e j k' msg mem u).
  { intros mem u. unfold misused. rewrite Hf, Em. tauto. }
  assert (Ve : forall sig st, verifies p e j k msg sig st <-> verifies p e j k' msg sig st).
  { intros sig st. unfold verifies, signature_read, verified_by. rewrite Hf, Em. tauto. }
  destruct Hc as [E|k0 _ U _ _|k0 _ U _ _|j0 k0 rc S K T|j0 k0 sig st u S K T Es M|j0 k0 sig st S K T Es M V|j0 k0 sig st S K T Es M V];
    [contradiction|destruct (U _ Hj)|destruct (U _ Hj)|..];
    assert (j0 = j) as -> by (eapply supported_fun; eassumption); assert (k0 = k) as -> by (eapply caller_key_fun; eassumption).
  - destruct T as [(C & _)|(_ & C)]; [contradiction|]. cbv zeta in C. rewrite Hf in C. contradiction.
  - eapply Ck_breaks; [exact S|exact Hk'|exact T'|exact Es|]. apply Mi. exact M.
  - eapply Ck_good; [exact S|exact Hk'|exact T'|exact Es| |apply Ve; exact V]. intros u C. apply Mi in C. exact (M u C).
  - eapply Ck_bad; [exact S|exact Hk'|exact T'|exact Es| |intros C; apply Ve in C; exact (V C)]. intros u C. apply Mi in C. exact (M u C).
Qed.
Lemma cut_rekeyed dp q n j c : cut dp j c -> cut (rekeyed dp q n) j c.
Proof. intros H. destruct H; [eapply Cut_dotless|eapply Cut_garbled2|eapply Cut_unsigned|eapply Cut_two|eapply Cut_garbled3|eapply Cut_three]; eassumption. Qed.
Lemma failed_rekeyed e dp q n v kvs bit : failed e dp v kvs bit <-> failed e (rekeyed dp q n) v kvs bit.
Proof.
  split; intros [A|b0 m q0 n0 s A B C|c A B|c t z A B C D|b0 x r A B C].
  - exact (F_signature e (rekeyed dp q n) v kvs A).
  - exact (F_identity e (rekeyed dp q n) v kvs b0 m q0 n0 s A B C).
  - exact (F_no_time e (rekeyed dp q n) v kvs c A B).
  - refine (F_time e (rekeyed dp q n) v kvs c t z A B C _). destruct c; exact D.
  - exact (F_typ e (rekeyed dp q n) v kvs b0 x r A B C).
  - exact (F_signature e dp v kvs A).
  - exact (F_identity e dp v kvs b0 m q0 n0 s A B C).
  - exact (F_no_time e dp v kvs c A B).
  - refine (F_time e dp v kvs c t z A B C _). destruct c; exact D.
  - exact (F_typ e dp v kvs b0 x r A B C).
Qed.
Lemma reading_rekeyed p e dp q n v hj ht pj pt o : reading p e dp v hj ht pj pt o -> reading p e (rekeyed dp q n) v hj ht pj pt o.
Proof.
  intros [A|A|eh A C|eh A C|eh ep A C D|eh ep v' A C D F].
  - exact (Rd_header p e (rekeyed dp q n) v hj ht pj pt A).
  - exact (Rd_header_over p e (rekeyed dp q n) v hj ht pj pt A).
  - exact (Rd_payload p e (rekeyed dp q n) v hj ht pj pt eh A C).
  - exact (Rd_payload_over p e (rekeyed dp q n) v hj ht pj pt eh A C).
  - exact (Rd_typ p e (rekeyed dp q n) v hj ht pj pt eh ep A C D).
  - exact (Rd_result p e (rekeyed dp q n) v hj ht pj pt eh ep v' A C D (fun bit => iff_trans (F bit) (failed_rekeyed e dp q n v _ bit))).
Qed.
Lemma decoding_one p e H dp q n j k k' t o :
  standard_hmac e H -> supported (dp_alg dp) j -> j_family j = HS ->
  caller_key (dp_verification_key dp) (dp_verification_key_length dp) k -> caller_key q n k' ->
  one_key H (j_hash j) (hmac_key k) (hmac_key k') -> ~ bad_certificate e k -> ~ bad_certificate e k' ->
  decoding p e dp t o -> decoding p e (rekeyed dp q n) t o.
Proof.
  intros Hs Hj Hf Hk Hk' O B B' [E|E U P|o' E U R]; [apply De_empty; exact E|apply De_unbuilt; assumption|].
  apply De_run; [exact E|exact U|]. destruct R.
  - eapply Rn_cut. apply cut_rekeyed. eassumption.
  - eapply Rn_stops; [apply cut_rekeyed; eassumption|]. eapply check_one; eassumption.
  - eapply Rn_breaks; [apply cut_rekeyed; eassumption|]. eapply check_one; eassumption.
  - eapply Rn_goes; [apply cut_rekeyed; eassumption|eapply check_one; eassumption|apply reading_rekeyed; eassumption].
Qed.

(** Of two keys that are one to RFC 2104 (the library's treatment of a final NUL included) either can stand in for the
    other: every token gets the same answer. *)
Theorem C88_keys_interchangeable :
  forall p e H dp q n j k k' t cn ln w w2,
    wf w -> allocs w -> grows w -> wf w2 -> allocs w2 -> grows w2 -> uses_jsmn e -> (32 <= p_size_bits p)%N ->
    c_text p dp t -> (Z.of_nat (length t) <= INT_MAX)%Z -> requests_readable e dp -> (cn = true -> ln = true) ->
    standard_hmac e H -> supported (dp_alg dp) j -> j_family j = HS ->
    key_ok (dp_verification_key dp) (dp_verification_key_length dp) -> key_ok q n ->
    caller_key (dp_verification_key dp) (dp_verification_key_length dp) k -> caller_key q n k' ->
    one_key H (j_hash j) (hmac_key k) (hmac_key k') -> ~ bad_certificate e k -> ~ bad_certificate e k' ->
    same_answer (l8w8jwt_decode p e (Some dp) true cn ln w) (l8w8jwt_decode p e (Some (rekeyed dp q n)) true cn ln w2).
Proof.
  intros p e H dp q n j k k' t cn ln w w2 W1 A1 G1 W2 A2 G2 Uj Hp Ht Hl Hr Hc Hs Hj Hf Ko Ko' Hk Hk' O B B'.
  destruct (C75_decode_complete p e dp t cn ln w W1 A1 G1 Uj Hp Ht Hl Ko Hr Hc) as (o & D & _ & Hd).
  destruct (C75_decode_complete p e (rekeyed dp q n) t cn ln w2 W2 A2 G2 Uj Hp Ht Hl Ko' Hr Hc) as (o2 & _ & F2 & Hd2).
  rewrite <- (F2 o (decoding_one p e H dp q n j k k' t o Hs Hj Hf Hk Hk' O B B' D)) in Hd2. unfold same_answer.
  destruct o as [rc|v es|u].
  - destruct Hd as (_ & wa & ->), Hd2 as (_ & wb & ->). cbn. auto.
  - destruct Hd as (i & cs & wa & F & ->), Hd2 as (i' & cs' & wb & F' & ->). cbn. destruct cn; eauto 6.
  - rewrite Hd, Hd2. reflexivity.
Qed.
Print Assumptions C88_keys_interchangeable.
