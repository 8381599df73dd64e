(** * The base64 encoder at the level of its API *)
From Verif Require Import Base BaseProofs HeapProofs Base64 SpecB64 Base64EncProofs.
From Coq Require Import ZifyBool ZifyNat ZifyN.
Ltac Zify.zify_post_hook ::= Z.div_mod_to_equations.

(** The text the encoder produces for [s]. *)
Definition b64_text (url : bool) (s : bytes) : bytes :=
  if url then rfc4648_unpadded true s else in_lines_of_72 (rfc4648_padded false s).

Lemma text_written url s :
  written url s = b64_text url s ++ repeat x00 (N.to_nat (sub_of url s)).
Proof.
  unfold written, b64_text, sub_of. destruct url.
  - rewrite Nat2N.id. reflexivity.
  - simpl. rewrite app_nil_r. reflexivity.
Qed.

Lemma written_fits p url s :
  (6 <= p_size_bits p)%N -> (N.of_nat (length s) * 4 < size_mod p)%N ->
  (N.of_nat (length (written url s)) < b64_olen p (N.of_nat (length s)))%N.
Proof.
  intros Hw H. rewrite b64_olen_nowrap by auto. rewrite written_length.
  destruct url; cbv zeta; generalize dependent (length s); intros; lia.
Qed.

(** Overflow detection is exact. *)
Lemma olen_lt_iff p n : (6 <= p_size_bits p)%N -> (0 < n)%N -> (n < size_mod p)%N ->
  (b64_olen p n <? n)%N = (size_mod p <=? n * 4)%N.
Proof.
  intros Hw Hn Hm.
  assert (H64 : (64 <= size_mod p)%N).
  { unfold size_mod. change 64%N with (2 ^ 6)%N. apply N.pow_le_mono_r; lia. }
  assert (H4 : exists q, size_mod p = (4 * q)%N).
  { exists (2 ^ (p_size_bits p - 2))%N. unfold size_mod.
    replace (p_size_bits p) with (2 + (p_size_bits p - 2))%N at 1 by lia.
    rewrite N.pow_add_r. reflexivity. }
  destruct (N.ltb_spec (n * 4) (size_mod p)) as [Hs|Hs].
  - rewrite b64_olen_nowrap by auto. cbv zeta.
    destruct (N.leb_spec (size_mod p) (n * 4)); lia.
  - destruct (N.leb_spec (size_mod p) (n * 4)); [|lia].
    unfold b64_olen. set (m := size_mod p) in *.
    assert (Hk : ((n * 4) mod m / 3 + 4 < m)%N).
    { pose proof (N.mod_lt (n * 4) m). lia. }
    rewrite (N.mod_small _ _ Hk).
    assert (Hbig : exists k, (n * 4 = k * m + (n * 4) mod m /\ 1 <= k <= 3)%N).
    { exists (n * 4 / m)%N. pose proof (N.div_mod (n * 4) m). pose proof (N.mod_lt (n * 4) m).
      split; [lia|]. split.
      - apply N.div_le_lower_bound; lia.
      - apply N.lt_succ_r. apply N.div_lt_upper_bound; lia. }
    destruct Hbig as (k & Hk1 & Hk2). set (x := ((n * 4) mod m)%N) in *.
    assert (Hx : (x < m)%N) by (apply N.mod_lt; lia).
    assert (Hx4 : exists y, x = (4 * y)%N).
    { destruct H4 as (q & Hq). exists (n - k * q)%N. lia. }
    destruct Hx4 as (y & Hy). destruct H4 as (q & Hq).
    assert (Hn4 : n = (k * q + y)%N) by lia.
    clearbody x m. subst x m.
    assert (Hnq : (q + y <= n)%N) by nia.
    assert (Hyq : (y < q)%N) by lia. assert (Hq16 : (16 <= q)%N) by lia.
    clear Hk1 Hk2 Hn4 Hk Hx k Hs H Hm Hn Hw H64.
    set (v := (4 * y / 3 + 4)%N) in *.
    assert (Hv : (v + v / 72 < 4 * q)%N) by (unfold v; lia).
    rewrite (N.mod_small _ _ Hv).
    destruct (N.ltb_spec (v + v / 72 + 1) (4 * q)) as [Hl|Hl].
    + rewrite (N.mod_small _ _ Hl). apply N.ltb_lt. unfold v in *. lia.
    + assert (v + v / 72 + 1 = 4 * q)%N by lia.
      replace (v + v / 72 + 1)%N with (4 * q)%N by lia. rewrite N.mod_same by lia.
      apply N.ltb_lt. lia.
Qed.

(** ** The functional behaviour on success *)
Lemma encode_success p url b mem n w :
  (6 <= p_size_bits p)%N -> (0 < n)%N -> (n <= N.of_nat (length mem))%N ->
  (n * 4 < size_mod p)%N ->
  (url = true -> (4 * ((Z.of_N n + 2) / 3) <= INT_MAX)%Z) ->
  w_alloc w (w_next w) = true ->
  let s := firstn (N.to_nat n) mem in
  exists rest,
    l8w8jwt_base64_encode p url (Ptr b mem) n true true w
    = Ret (B64 L8W8JWT_SUCCESS (Some (Ptr (Some (w_next w)) (b64_text url s ++ x00 :: rest)))
               (Some (N.of_nat (length (b64_text url s))))) (w_ok w)
    /\ N.of_nat (length (b64_text url s ++ x00 :: rest)) = b64_olen p n.
Proof.
  intros Hw Hn Hlen Hsz Hint Hal s.
  assert (Hls : N.of_nat (length s) = n) by (unfold s; rewrite firstn_length; lia).
  unfold l8w8jwt_base64_encode. cbn [negb is_null orb].
  destruct (N.eqb_spec n 0); [lia|].
  rewrite olen_lt_iff by (try lia; auto).
  destruct (N.leb_spec (size_mod p) (n * 4)); [lia|].
  unfold mbind at 1. rewrite malloc_eq, Hal.
  unfold mbind, lift. cbn [deref]. rewrite take_ok by lia. fold s.
  pose proof (written_fits p url s Hw) as Hf. rewrite Hls in Hf. specialize (Hf Hsz).
  rewrite enc_fill_ok.
  - rewrite text_written.
    set (k := N.to_nat (sub_of url s)).
    set (sk := skipn _ _).
    assert (Hx : exists rest, repeat x00 k ++ x00 :: sk = x00 :: rest
                 /\ length rest = (k + length sk)%nat).
    { destruct k as [|k'].
      - exists sk. split; reflexivity.
      - exists (repeat x00 k' ++ x00 :: sk). split; [reflexivity|].
        rewrite app_length, repeat_length. simpl. lia. }
    destruct Hx as (rest & Hx & Hlr). exists rest. rewrite <- app_assoc, Hx. split.
    + assert (Hn' : (N.of_nat (length (b64_text url s ++ repeat x00 k)) - sub_of url s
                     = N.of_nat (length (b64_text url s)))%N).
      { rewrite app_length, repeat_length. unfold k. lia. }
      fold k. rewrite Hn'. reflexivity.
    + unfold sk in Hlr. rewrite skipn_length, junk_length in Hlr.
      rewrite app_length. cbn [length]. rewrite text_written, app_length, repeat_length in *.
      fold k in Hf, Hlr. lia.
  - intros Hu. specialize (Hint Hu). rewrite <- Hls in Hint. lia.
  - rewrite junk_length. lia.
Qed.

(** ** Overflow of [line_length] *)
Lemma enc_rest_overflow s : forall ll f r,
  (0 <= ll <= INT_MAX)%Z -> (INT_MAX < ll + 4 * ((Z.of_nat (length s) + 2) / 3))%Z ->
  (length (written true s) <= length r)%nat ->
  enc_rest true s ll (Cur f r) = KO SignedOverflow.
Proof.
  induction s as [|a|a b|a b c t IH] using list3_ind; intros ll f r Hll Hov Hlen.
  - cbn [length] in Hov. lia.
  - cbn [length] in Hov. change ((Z.of_nat 1 + 2) / 3)%Z with 1%Z in Hov.
    rewrite written_length in Hlen. cbn in Hlen.
    destruct r as [|x0 [|x1 [|x2 [|x3 r']]]]; cbn [length] in Hlen; try lia.
    unfold enc_rest. cbn [enc_groups ubind]. unfold enc_tail.
    fold (idx0 a). fold (idx1e a).
    erewrite put_tab_ok by (try apply idx0_lt; reflexivity). cbn [ubind c_done].
    erewrite put_tab_ok by (try apply idx1e_lt; reflexivity). cbn [ubind c_done c_rest cur_put].
    unfold int_add. destruct (Z.leb_spec (ll + 4) INT_MAX); [lia|]. rewrite andb_false_r. reflexivity.
  - cbn [length] in Hov. change ((Z.of_nat 2 + 2) / 3)%Z with 1%Z in Hov.
    rewrite written_length in Hlen. cbn in Hlen.
    destruct r as [|x0 [|x1 [|x2 [|x3 r']]]]; cbn [length] in Hlen; try lia.
    unfold enc_rest. cbn [enc_groups ubind]. unfold enc_tail.
    fold (idx0 a). fold (idx1 a b). fold (idx2e b).
    erewrite put_tab_ok by (try apply idx0_lt; reflexivity). cbn [ubind c_done].
    erewrite put_tab_ok by (try apply idx1_lt; reflexivity). cbn [ubind c_done].
    erewrite put_tab_ok by (try apply idx2e_lt; reflexivity). cbn [ubind c_done c_rest cur_put].
    unfold int_add. destruct (Z.leb_spec (ll + 4) INT_MAX); [lia|]. rewrite andb_false_r. reflexivity.
  - rewrite written_length in Hlen. cbn [length] in Hlen, Hov.
    assert (Hlen4 : (4 + 4 * ((length t + 2) / 3) <= length r)%nat) by lia.
    destruct r as [|x0 [|x1 [|x2 [|x3 r']]]]; cbn [length] in Hlen4; try lia.
    unfold enc_rest. cbn [enc_groups].
    fold (idx0 a). fold (idx1 a b). fold (idx2 b c). fold (idx3 c).
    erewrite put_tab_ok by (try apply idx0_lt; reflexivity). cbn [ubind c_done].
    erewrite put_tab_ok by (try apply idx1_lt; reflexivity). cbn [ubind c_done].
    erewrite put_tab_ok by (try apply idx2_lt; reflexivity). cbn [ubind c_done].
    erewrite put_tab_ok by (try apply idx3_lt; reflexivity). cbn [ubind c_done].
    unfold int_add. destruct (Z.leb_spec (ll + 4) INT_MAX).
    + assert (Hr : ((INT_MIN <=? ll + 4))%Z = true) by (unfold INT_MIN; lia).
      rewrite Hr. cbn [andb ubind negb]. rewrite andb_false_r.
      specialize (IH (ll + 4)%Z).
      specialize (IH (alpha_char true (idx3 c) :: alpha_char true (idx2 b c)
                      :: alpha_char true (idx1 a b) :: alpha_char true (idx0 a) :: f) r').
      unfold enc_rest in IH. apply IH; try lia. rewrite written_length. lia.
    + rewrite andb_false_r. reflexivity.
Qed.

Lemma enc_fill_overflow s buf :
  (INT_MAX < 4 * ((Z.of_nat (length s) + 2) / 3))%Z ->
  (length (written true s) <= length buf)%nat ->
  enc_fill true s buf = KO SignedOverflow.
Proof.
  intros Hov Hlen. unfold enc_fill.
  assert (E : enc_rest true s 0 (Cur [] buf) = KO SignedOverflow)
    by (apply enc_rest_overflow; unfold INT_MAX in *; lia).
  unfold cur_start. unfold enc_rest in E.
  destruct (enc_groups true (table_of true) s 0 (Cur [] buf)) as [[[rest ll] c]|u].
  - cbn [ubind] in *.
    destruct (enc_tail true (table_of true) rest ll c) as [[[ll' sub] c']|u].
    + cbn [ubind] in *. rewrite andb_false_r in *. cbn [ubind] in E.
      discriminate E.
    + cbn [ubind] in *. inversion E. reflexivity.
  - cbn [ubind] in *. inversion E. reflexivity.
Qed.

Lemma encode_overflow_ub p b mem n w :
  (6 <= p_size_bits p)%N -> (0 < n)%N -> (n <= N.of_nat (length mem))%N ->
  (n * 4 < size_mod p)%N ->
  (INT_MAX < 4 * ((Z.of_N n + 2) / 3))%Z ->
  w_alloc w (w_next w) = true ->
  l8w8jwt_base64_encode p true (Ptr b mem) n true true w = Undef SignedOverflow.
Proof.
  intros Hw Hn Hlen Hsz Hint Hal.
  set (s := firstn (N.to_nat n) mem).
  assert (Hls : N.of_nat (length s) = n) by (unfold s; rewrite firstn_length; lia).
  unfold l8w8jwt_base64_encode. cbn [negb is_null orb].
  destruct (N.eqb_spec n 0); [lia|].
  rewrite olen_lt_iff by (try lia; auto).
  destruct (N.leb_spec (size_mod p) (n * 4)); [lia|].
  unfold mbind at 1. rewrite malloc_eq, Hal.
  unfold mbind, lift. cbn [deref]. rewrite take_ok by lia. fold s.
  pose proof (written_fits p true s Hw) as Hf. rewrite Hls in Hf. specialize (Hf Hsz).
  rewrite enc_fill_overflow; auto.
  - rewrite <- Hls in Hint. lia.
  - rewrite junk_length. lia.
Qed.

Lemma encode_oom p url b mem n w :
  (6 <= p_size_bits p)%N -> (0 < n)%N -> (n < size_mod p)%N -> (n * 4 < size_mod p)%N ->
  w_alloc w (w_next w) = false ->
  l8w8jwt_base64_encode p url (Ptr b mem) n true true w
  = Ret (B64 L8W8JWT_OUT_OF_MEM (Some Null) None) (w_no w).
Proof.
  intros Hw Hn Hm Hsz Hal.
  unfold l8w8jwt_base64_encode. cbn [negb is_null orb].
  destruct (N.eqb_spec n 0); [lia|].
  rewrite olen_lt_iff by (try lia; auto).
  destruct (N.leb_spec (size_mod p) (n * 4)); [lia|].
  unfold mbind. rewrite malloc_eq, Hal. reflexivity.
Qed.

Lemma encode_size_overflow p url b mem n w :
  (6 <= p_size_bits p)%N -> (0 < n)%N -> (n < size_mod p)%N -> (size_mod p <= n * 4)%N ->
  l8w8jwt_base64_encode p url (Ptr b mem) n true true w
  = Ret (B64 L8W8JWT_OVERFLOW None None) w.
Proof.
  intros Hw Hn Hm Hsz.
  unfold l8w8jwt_base64_encode. cbn [negb is_null orb].
  destruct (N.eqb_spec n 0); [lia|].
  rewrite olen_lt_iff by (try lia; auto).
  destruct (N.leb_spec (size_mod p) (n * 4)); [reflexivity|lia].
Qed.
