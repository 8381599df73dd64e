(** * Lemmas behind the base64 property theorems *)
From Verif Require Import Base BaseProofs HeapProofs Base64 SpecB64 Base64EncProofs Base64EncApi
  Base64DecProofs.
From Coq Require Import ZifyBool ZifyNat ZifyN.
Ltac Zify.zify_post_hook ::= Z.div_mod_to_equations.

(** Every outcome of the encoder on a readable, non-NULL argument. *)
Lemma encode_cases p url b mem n w :
  (6 <= p_size_bits p)%N -> (n < size_mod p)%N -> (n <= N.of_nat (length mem))%N ->
  let s := firstn (N.to_nat n) mem in
  let call := l8w8jwt_base64_encode p url (Ptr b mem) n true true w in
  (n = 0%N /\ call = Ret (B64 L8W8JWT_INVALID_ARG None None) w)
  \/ ((0 < n)%N /\ (size_mod p <= n * 4)%N /\ call = Ret (B64 L8W8JWT_OVERFLOW None None) w)
  \/ ((0 < n)%N /\ (n * 4 < size_mod p)%N /\ w_alloc w (w_next w) = false
      /\ call = Ret (B64 L8W8JWT_OUT_OF_MEM (Some Null) None) (w_no w))
  \/ ((0 < n)%N /\ (n * 4 < size_mod p)%N /\ w_alloc w (w_next w) = true
      /\ url = true /\ (INT_MAX < 4 * ((Z.of_N n + 2) / 3))%Z /\ call = Undef SignedOverflow)
  \/ ((0 < n)%N /\ (n * 4 < size_mod p)%N /\ w_alloc w (w_next w) = true
      /\ (url = true -> (4 * ((Z.of_N n + 2) / 3) <= INT_MAX)%Z)
      /\ exists rest,
        call = Ret (B64 L8W8JWT_SUCCESS
                      (Some (Ptr (Some (w_next w)) (b64_text url s ++ x00 :: rest)))
                      (Some (N.of_nat (length (b64_text url s))))) (w_ok w)
        /\ N.of_nat (length (b64_text url s ++ x00 :: rest)) = b64_olen p n).
Proof.
  intros Hp Hm Hl s call.
  destruct (N.eqb_spec n 0) as [->|Hn]; [left; auto|].
  assert (Hn' : (0 < n)%N) by lia. clear Hn. right.
  destruct (N.ltb_spec (n * 4) (size_mod p)) as [H4|H4].
  2: { left. split; [auto|]. split; [auto|]. apply encode_size_overflow; auto. }
  right. destruct (w_alloc w (w_next w)) eqn:Ha.
  2: { left. repeat split; auto. apply encode_oom; auto. }
  right. destruct url.
  - destruct (Z.ltb_spec INT_MAX (4 * ((Z.of_N n + 2) / 3))).
    + left. do 5 (split; [auto|]). apply encode_overflow_ub; auto.
    + right. do 3 (split; [auto|]). split; [lia|].
      apply encode_success; auto.
  - right. do 3 (split; [auto|]). split; [discriminate|].
    apply encode_success; auto. discriminate.
Qed.

Lemma encode_null p url data n out_nn len_nn w :
  data = Null \/ out_nn = false \/ len_nn = false ->
  l8w8jwt_base64_encode p url data n out_nn len_nn w
  = Ret (B64 L8W8JWT_NULL_ARG None None) w.
Proof.
  unfold l8w8jwt_base64_encode. intros H; destruct data, out_nn, len_nn; try reflexivity; destruct H as [H|[H|H]]; discriminate.
Qed.
Lemma decode_null url data n out_nn len_nn w :
  data = Null \/ out_nn = false \/ len_nn = false ->
  l8w8jwt_base64_decode url data n out_nn len_nn w
  = Ret (B64 L8W8JWT_NULL_ARG None None) w.
Proof.
  unfold l8w8jwt_base64_decode. intros H; destruct data, out_nn, len_nn; try reflexivity; destruct H as [H|[H|H]]; discriminate.
Qed.
Lemma decode_zero url b mem w :
  l8w8jwt_base64_decode url (Ptr b mem) 0 true true w
  = Ret (B64 L8W8JWT_INVALID_ARG None None) w.
Proof. reflexivity. Qed.

(** The decoder reads only the first [n] bytes. *)
Lemma decode_firstn url b mem n w :
  wf w -> (n <= N.of_nat (length mem))%N ->
  l8w8jwt_base64_decode url (Ptr b mem) n true true w
  = l8w8jwt_base64_decode url (Ptr b (firstn (N.to_nat n) mem)) n true true w.
Proof.
  intros Hwf Hl. destruct (N.eqb_spec n 0) as [->|Hn]; [reflexivity|].
  rewrite !base64_decode_fun by (auto; try rewrite firstn_length; lia).
  rewrite firstn_firstn, Nat.min_id. reflexivity.
Qed.

(** Live blocks after allocating and freeing a fresh block. *)
Lemma live_after_free w i : wf w -> w_live (w_free (w_ok w) (w_next w)) i = w_live w i.
Proof.
  intros Hwf. simpl. unfold upd_live. destruct (Nat.eqb_spec i (w_next w)); auto.
  subst. symmetry. apply Hwf. lia.
Qed.

(** Every outcome of the decoder. *)
Lemma decode_cases url b mem n w :
  wf w -> (n <= N.of_nat (length mem))%N ->
  exists r w',
    l8w8jwt_base64_decode url (Ptr b mem) n true true w = Ret r w' /\ wf w' /\
    ((b_rc r <> L8W8JWT_SUCCESS /\ (b_out r = None \/ b_out r = Some Null) /\ b_len r = None
      /\ forall i, w_live w' i = w_live w i)
     \/ (b_rc r = L8W8JWT_SUCCESS /\ w_alloc w (w_next w) = true /\ w' = w_ok w /\ (0 < n)%N
         /\ let l := syms url (strip_nul (firstn (N.to_nat n) mem)) in
            bad_count url (length l) = false
            /\ exists o lf z, dec_all url l = Some (o, lf)
            /\ z = (dec_size (length l) - (length o + length lf))%nat
            /\ b_out r = Some (Ptr (Some (w_next w)) (o ++ lf ++ repeat x00 z))
            /\ b_len r = Some (N.of_nat (length o)))).
Proof.
  intros Hwf Hl. destruct (N.eqb_spec n 0) as [->|Hn].
  { do 2 eexists. split; [apply decode_zero|]. split; auto. left. cbn.
    repeat split; auto. discriminate. }
  rewrite base64_decode_fun by (auto; lia). cbv zeta.
  set (l := syms url (strip_nul (firstn (N.to_nat n) mem))).
  destruct (bad_count url (length l)) eqn:Eb.
  { do 2 eexists. split; [reflexivity|]. split; auto. left. cbn.
    repeat split; auto. discriminate. }
  destruct (w_alloc w (w_next w)) eqn:Ea; cbn [negb].
  2: { do 2 eexists. split; [reflexivity|]. split; [apply wf_no; auto|]. left. cbn.
       repeat split; auto. discriminate. }
  destruct (dec_all url l) as [[o lf]|] eqn:Ed.
  - do 2 eexists. split; [reflexivity|]. split; [apply wf_ok; auto|]. right.
    cbn [b_rc b_out b_len].
    split; [reflexivity|]. split; [auto|]. split; [reflexivity|]. split; [lia|].
    split; [reflexivity|]. do 3 eexists. repeat split; eauto.
  - do 2 eexists. split; [reflexivity|]. split; [apply wf_free, wf_ok; auto|]. left.
    cbn [b_rc b_out b_len]. split; [discriminate|].
    split; [auto|]. split; [auto|]. intros. apply live_after_free. auto.
Qed.

(** Number of characters that count for the decoder. *)
Lemma syms_strip url s : syms url (strip_nul s) = syms url s.
Proof.
  unfold strip_nul. destruct (is_nul (last s x01)) eqn:E; auto.
  apply is_nul_true in E. destruct s as [|c t]; [reflexivity|].
  destruct (exists_last (l := c :: t)) as (s' & z & Es); [discriminate|].
  rewrite Es in *. rewrite last_last in E. subst z. rewrite removelast_last, syms_app.
  assert (Hz : syms url [x00] = []).
  { unfold syms. cbn [filter].
    destruct (accepted url x00) eqn:Ez; auto. exfalso.
    apply (accepted_not_nul url x00 Ez). reflexivity. }
  rewrite Hz, app_nil_r. reflexivity.
Qed.

Definition in_alphabet (url : bool) (c : byte) : bool :=
  existsb (Byte.eqb c) (rfc4648_alphabet url) || Byte.eqb c x3d.
Lemma accepted_in url c : accepted url c = in_alphabet url c.
Proof.
  apply eq_iff_eq_true. rewrite accepted_spec. unfold in_alphabet.
  rewrite orb_true_iff, existsb_exists, byte_eqb_eq. split; intros [H|H]; auto.
  - left. exists c. split; auto. apply byte_eqb_refl.
  - destruct H as (x & Hx & E). apply byte_eqb_eq in E. subst x. auto.
Qed.
Lemma syms_in url s : syms url s = filter (in_alphabet url) s.
Proof. apply filter_ext. intros. apply accepted_in. Qed.

Lemma decode_only_symbols url b s w :
  wf w ->
  let t := filter (in_alphabet url) s in
  l8w8jwt_base64_decode url (Ptr b s) (N.of_nat (length s)) true true w
  = match t with
    | [] => Ret (B64 L8W8JWT_INVALID_ARG None None) w
    | _ => l8w8jwt_base64_decode url (Ptr b t) (N.of_nat (length t)) true true w
    end.
Proof.
  intros Hwf t.
  assert (Hs : s = [] \/ (0 < N.of_nat (length s))%N) by (destruct s; [auto|right; simpl; lia]).
  destruct Hs as [->|Hs]; [reflexivity|].
  assert (Hacc : all_acc url t) by (unfold t; rewrite <- syms_in; apply all_acc_syms).
  rewrite base64_decode_fun by (auto; lia).
  rewrite Nat2N.id, firstn_all, syms_strip, syms_in. fold t. clearbody t.
  destruct t as [|d t']; [reflexivity|].
  rewrite base64_decode_fun by (auto; simpl; lia).
  rewrite Nat2N.id, firstn_all, syms_strip.
  rewrite (syms_acc url (d :: t')) by auto. reflexivity.
Qed.

Lemma dec_len_bound url l o lf :
  bad_count url (length l) = false ->
  dec_all url l = Some (o, lf) ->
  (1 <= length o /\ length o <= 3 * ((length l + 3) / 4))%nat.
Proof.
  intros Hb Hd. split; [eapply dec_all_nonempty; eauto|].
  pose proof (dgroups_len _ _ _ _ Hd) as H. rewrite app_length, repeat_length in H.
  assert (dec_r (length l) <= 2)%nat.
  { unfold dec_r. destruct (_ mod 4)%nat as [|[|[|[|?]]]]; lia. }
  lia.
Qed.

Lemma dec_room k url o lf l :
  k = length l -> bad_count url k = false -> dec_all url l = Some (o, lf) ->
  (length o + length lf < dec_size k)%nat.
Proof.
  intros -> Hb Hd. pose proof (dgroups_len _ _ _ _ Hd) as H.
  rewrite app_length, repeat_length in H. unfold dec_size.
  assert (dec_r (length l) <= 2)%nat.
  { unfold dec_r. destruct (_ mod 4)%nat as [|[|[|[|?]]]]; lia. }
  lia.
Qed.

(** Symbol texts that are canonical encodings. *)
Lemma dec_all_unpadded s : exists k, dec_all true (rfc4648_unpadded true s) = Some (s, repeat x00 k).
Proof. unfold dec_all. rewrite <- (padding_repeat true s). apply (dgroups_padded true). Qed.
Lemma dec_all_padded url s : exists k, dec_all url (rfc4648_padded url s) = Some (s, repeat x00 k).
Proof.
  unfold dec_all.
  assert (E : dec_r (length (rfc4648_padded url s)) = 0%nat).
  { unfold dec_r. rewrite padded_length.
    assert (E : ((4 * ((length s + 2) / 3)) mod 4 = 0)%nat) by lia. rewrite E. reflexivity. }
  rewrite E. simpl. rewrite app_nil_r. apply dgroups_padded.
Qed.
