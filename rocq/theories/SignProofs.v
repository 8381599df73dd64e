(** * Lemmas about write_signature (src/encode.c:219-587) and the key buffers *)
From Verif Require Import Base BaseProofs HeapProofs Util UtilProofs Claim Base64 SpecB64 UnescapeProofs
  Base64EncApi Base64Api Jsmn Env Encode SpecJson SpecJwa ClaimProofs EncodeProofs.
From Coq Require Import ZifyBool ZifyNat ZifyN.
Ltac Zify.zify_post_hook ::= Z.div_mod_to_equations.

(** ** Fixed-size buffers *)
Lemma fit_length n s : length (fit n s) = N.to_nat n.
Proof. unfold fit. rewrite firstn_length, app_length, repeat_length. lia. Qed.
Lemma firstn_repeat {A} (x : A) k n : firstn k (repeat x n) = repeat x (Nat.min k n).
Proof. revert n. induction k; intros [|n]; simpl; auto. f_equal. auto. Qed.
Lemma fit_eq n s :
  fit n s = firstn (N.to_nat n) s ++ repeat x00 (N.to_nat n - length s).
Proof.
  unfold fit. rewrite firstn_app, firstn_repeat. f_equal. f_equal. lia.
Qed.
Lemma fit_exact n s : N.of_nat (length s) = n -> fit n s = s.
Proof.
  intros <-. rewrite fit_eq, Nat2N.id, firstn_all, Nat.sub_diag. apply app_nil_r.
Qed.
Lemma fit_short n s : (N.of_nat (length s) <= n)%N -> fit n s = s ++ repeat x00 (N.to_nat n - length s).
Proof. intros H. rewrite fit_eq, firstn_all2 by lia. reflexivity. Qed.
Lemma firstn_fit n m s : (n <= m)%N -> firstn (N.to_nat n) (fit m s) = fit n s.
Proof.
  intros H. rewrite !fit_eq, firstn_app, firstn_firstn, firstn_repeat, firstn_length.
  f_equal; [f_equal; lia|]. f_equal. lia.
Qed.
Lemma firstn_fit_fit n m s : (n <= m)%N -> firstn (N.to_nat n) (fit m (fit n s)) = fit n s.
Proof. intros H. rewrite firstn_fit by auto. apply fit_exact. rewrite fit_length. lia. Qed.
Lemma firstn_fit_len n m s :
  (N.of_nat (length s) = n)%N -> (n <= m)%N -> firstn (N.to_nat n) (fit m s) = s.
Proof. intros Hs H. rewrite firstn_fit by auto. apply fit_exact. exact Hs. Qed.

(** ** Big-endian numbers *)
Lemma big_endian_app a b :
  big_endian (a ++ b) = (big_endian a * 256 ^ N.of_nat (length b) + big_endian b)%N.
Proof.
  induction a as [|c a IH]; [simpl; lia|]. cbn [big_endian app]. rewrite IH, app_length, Nat2N.inj_add, N.pow_add_r. lia.
Qed.
Lemma be_bytes_length n x : length (be_bytes n x) = n.
Proof. revert x. induction n; intros x; [reflexivity|]. simpl. rewrite app_length, IHn. simpl. lia. Qed.
Lemma be_bytes_value n : forall x, (x < 256 ^ N.of_nat n)%N -> big_endian (be_bytes n x) = x.
Proof.
  induction n as [|n IH]; intros x Hx.
  - change (256 ^ N.of_nat 0)%N with 1%N in Hx. simpl. lia.
  - cbn [be_bytes]. rewrite big_endian_app. cbn [length big_endian].
    rewrite IH.
    + change (256 ^ N.of_nat 1)%N with 256%N. change (256 ^ N.of_nat 0)%N with 1%N.
      assert (E : b2n (n2b x) = (x mod 256)%N).
      { replace (n2b x) with (n2b (x mod 256)) by (unfold n2b; rewrite N.mod_mod by lia; reflexivity).
        apply b2n_n2b. lia. }
      rewrite E. lia.
    + rewrite Nat2N.inj_succ, N.pow_succ_r' in Hx. apply N.div_lt_upper_bound; lia.
Qed.
Lemma mpi_write_inv x n b : mpi_write_binary x n = Some b -> length b = n /\ big_endian b = x.
Proof.
  unfold mpi_write_binary. destruct (N.ltb_spec x (256 ^ N.of_nat n)); intros E; inversion E; subst.
  split; [apply be_bytes_length|apply be_bytes_value; auto].
Qed.
Lemma mpi_read_be s : mpi_read_binary s = big_endian s.
Proof.
  unfold mpi_read_binary.
  assert (H : forall a, fold_left (fun a b => (a * 256 + b2n b)%N) s a
                        = (a * 256 ^ N.of_nat (length s) + big_endian s)%N).
  { induction s as [|c s IH]; intros a.
    - simpl. change (256 ^ 0)%N with 1%N. lia.
    - cbn [fold_left length big_endian]. rewrite IH, Nat2N.inj_succ, N.pow_succ_r'. lia. }
  rewrite H. lia.
Qed.
Lemma big_endian_bound s : (big_endian s < 256 ^ N.of_nat (length s))%N.
Proof.
  induction s as [|c s IH]; [simpl; reflexivity|].
  cbn [big_endian length]. rewrite Nat2N.inj_succ, N.pow_succ_r'. pose proof (b2n_lt c). nia.
Qed.

(** ** The key buffer *)
Definition KEYBUF := L8W8JWT_MAX_KEY_SIZE.
Lemma load_key_inv q n key :
  load_key q n = OK key ->
  exists b m, q = Ptr b m /\ (n <= N.of_nat (length m))%N /\ (n <= 8192)%N
    /\ key = firstn (N.to_nat n) m ++ repeat x00 (N.to_nat (L8W8JWT_MAX_KEY_SIZE - n)).
Proof.
  unfold load_key. intros H. apply ubind_inv in H as (m & Hm & H).
  apply ubind_inv in H as (k & Hk & H). destruct q as [|b m']; inversion Hm; subst.
  apply take_inv in Hk as (Hl & ->).
  destruct (N.leb_spec n L8W8JWT_MAX_KEY_SIZE) as [H2|H2]; inversion H; subst.
  exists b, m. repeat split; auto.
Qed.
Lemma load_key_ok b m n :
  (n <= N.of_nat (length m))%N -> (n <= 8192)%N ->
  load_key (Ptr b m) n
  = OK (firstn (N.to_nat n) m ++ repeat x00 (N.to_nat (L8W8JWT_MAX_KEY_SIZE - n))).
Proof.
  intros H1 H2. unfold load_key. cbn [deref ubind]. rewrite take_ok by exact H1. cbn [ubind].
  destruct (N.leb_spec n L8W8JWT_MAX_KEY_SIZE) as [_|H3]; [reflexivity|].
  unfold L8W8JWT_MAX_KEY_SIZE in H3. lia.
Qed.
Lemma key_length k n :
  length k = N.to_nat n -> (n <= 8192)%N ->
  N.of_nat (length (k ++ repeat x00 (N.to_nat (L8W8JWT_MAX_KEY_SIZE - n)))) = 8192%N.
Proof. intros H1 H2. rewrite app_length, repeat_length. unfold L8W8JWT_MAX_KEY_SIZE. lia. Qed.

Lemma removelast_len {A} (k : list A) : k <> [] -> (length (removelast k) = length k - 1)%nat.
Proof.
  intros H. destruct (exists_last H) as (s & z & ->).
  rewrite removelast_last, app_length. simpl. lia.
Qed.
(** Everything about the adjusted length, for a key [k] of [n > 0] bytes in the buffer. *)
Lemma adjust_key_eq k n :
  length k = N.to_nat n -> (0 < n <= 8192)%N ->
  let key := k ++ repeat x00 (N.to_nat (L8W8JWT_MAX_KEY_SIZE - n)) in
  exists kl, adjust_key_length key n = OK kl
    /\ kl = (if is_nul (last k x01) then n else n + 1)%N
    /\ take key (kl - 1) = OK (hmac_key k)
    /\ (take key kl = if (kl <=? 8192)%N then OK (pem_text k) else KO OOBRead).
Proof.
  intros Hk Hn key.
  assert (Hne : k <> []) by (intros ->; simpl in Hk; lia).
  destruct (exists_last Hne) as (k0 & z & Ek).
  assert (Hk0 : length k0 = N.to_nat (n - 1)).
  { rewrite Ek, app_length in Hk. simpl in Hk. lia. }
  assert (Hlen : N.of_nat (length key) = 8192%N) by (apply key_length; lia).
  unfold adjust_key_length. destruct (N.eqb_spec n 0); [lia|].
  rewrite read_at_ok by lia. cbn [ubind].
  assert (El : nth (N.to_nat (n - 1)) key x00 = z).
  { unfold key. rewrite Ek, <- app_assoc, app_nth2 by lia. rewrite Hk0, Nat.sub_diag. reflexivity. }
  assert (El' : last k x01 = z) by (rewrite Ek; apply last_last).
  rewrite El, El'. unfold hmac_key, pem_text. rewrite El'. destruct (is_nul z) eqn:Ez.
  - exists n. split; [reflexivity|]. split; [reflexivity|]. split.
    + rewrite take_ok by lia. f_equal. unfold key. rewrite Ek, removelast_last, <- app_assoc.
      rewrite <- Hk0. apply firstn_app_exact.
    + destruct (N.leb_spec n 8192); [|lia]. rewrite take_ok by lia. f_equal.
      unfold key. rewrite <- Hk. apply firstn_app_exact.
  - exists (n + 1)%N. split; [reflexivity|]. split; [reflexivity|]. split.
    + rewrite take_ok by lia. f_equal. unfold key. replace (N.to_nat (n + 1 - 1)) with (length k) by lia.
      apply firstn_app_exact.
    + destruct (N.leb_spec (n + 1) 8192) as [Hle|Hle].
      * rewrite take_ok by lia. f_equal. unfold key.
        unfold L8W8JWT_MAX_KEY_SIZE.
        replace (N.to_nat (8192 - n)) with (S (N.to_nat (8192 - n) - 1)) by lia.
        cbn [repeat]. change (x00 :: repeat x00 (N.to_nat (8192 - n) - 1)) with ([x00] ++ repeat x00 (N.to_nat (8192 - n) - 1)).
        rewrite app_assoc. replace (N.to_nat (n + 1)) with (length (k ++ [x00])) by (rewrite app_length; simpl; lia).
        apply firstn_app_exact.
      * unfold take. destruct (N.leb_spec (n + 1) (N.of_nat (length key))); [lia|reflexivity].
Qed.

(** ** The algorithm table *)
Lemma supported_range alg j : supported alg j -> (0 <= alg <= 13)%Z.
Proof.
  intros [Hin <-]. simpl in Hin. decompose [or] Hin; try contradiction; subst; simpl; lia.
Qed.
Lemma supported_unique alg j j' : supported alg j -> supported alg j' -> j = j'.
Proof.
  intros [Hin Hid] [Hin' Hid']. rewrite <- Hid' in Hid. clear Hid'. revert Hin Hin' Hid.
  cbn [jwa_table In]. intros Hin Hin' Hid.
  decompose [or] Hin; try contradiction; subst; decompose [or] Hin'; try contradiction; subst;
    try reflexivity; discriminate Hid.
Qed.

Lemma not_supported alg : ~ (0 <= alg <= 13)%Z -> forall j, ~ supported alg j.
Proof. intros H j Hs. apply supported_range in Hs. lia. Qed.
Lemma range_cases (alg : Z) (P : Z -> Prop) :
  (0 <= alg <= 13)%Z ->
  P 0%Z -> P 1%Z -> P 2%Z -> P 3%Z -> P 4%Z -> P 5%Z -> P 6%Z -> P 7%Z -> P 8%Z -> P 9%Z ->
  P 10%Z -> P 11%Z -> P 12%Z -> P 13%Z -> P alg.
Proof.
  intros H. assert (E : (alg = 0 \/ alg = 1 \/ alg = 2 \/ alg = 3 \/ alg = 4 \/ alg = 5 \/ alg = 6
    \/ alg = 7 \/ alg = 8 \/ alg = 9 \/ alg = 10 \/ alg = 11 \/ alg = 12 \/ alg = 13)%Z) by lia.
  intros. decompose [or] E; subst; assumption.
Qed.
Lemma header_prefix_none alg : ~ (0 <= alg <= 13)%Z -> header_prefix alg = None.
Proof.
  intros H. destruct alg as [|q|q]; [lia| |reflexivity].
  do 4 (destruct q as [q|q|]; try reflexivity; try lia).
Qed.
Lemma sign_switch_none p e ep key kl msg :
  ~ (0 <= ep_alg ep <= 13)%Z -> sign_switch p e ep key kl msg = OK (sig_fail L8W8JWT_INVALID_ARG).
Proof.
  intros H. unfold sign_switch. destruct (ep_alg ep) as [|q|q]; [lia| |reflexivity].
  do 4 (destruct q as [q|q|]; try reflexivity; try lia).
Qed.
Lemma header_prefix_inv alg h :
  header_prefix alg = Some h ->
  exists j, supported alg j
    /\ exists more, h = lit "{" ++ quoted (lit "alg") ++ lit ":" ++ quoted (j_name j) ++ more.
Proof.
  intros H. assert (R : (0 <= alg <= 13)%Z).
  { destruct (Z_le_dec 0 alg); [destruct (Z_le_dec alg 13); [lia|]|];
      rewrite header_prefix_none in H by lia; discriminate. }
  exists (nth (Z.to_nat alg) jwa_table (Jwa 0 [] HS SHA256)).
  split.
  - split; [apply nth_In; simpl; lia|]. clear H. pattern alg. apply range_cases; auto; reflexivity.
  - revert H. pattern alg. apply range_cases; auto; intros H; inversion H; subst;
      eexists; reflexivity.
Qed.

(** ** Signatures *)
Lemma unhex_eq s : unhex s = hex_bytes s.
Proof.
  induction s as [|a|a b s IH] using list2_ind; [reflexivity|reflexivity|].
  cbn [unhex hex_bytes]. rewrite IH. reflexivity.
Qed.
Lemma unhex_length s : forall k, unhex s = Some k -> length k = (length s / 2)%nat.
Proof.
  induction s as [|a|a b s IH] using list2_ind; intros k H.
  - inversion H; reflexivity.
  - discriminate.
  - cbn [unhex] in H. destruct (hexdig a), (hexdig b), (unhex s) as [r|]; inversion H; subst.
    cbn [length]. rewrite (IH r eq_refl). change (S (S (length s))) with (2 + length s)%nat. lia.
Qed.

Lemma es_table ep j curve bits width :
  supported (ep_alg ep) j -> j_family j = ES curve bits width ->
  md_info_from_alg (ep_alg ep) = Some (j_hash j)
  /\ es_params (ep_alg ep) = Some (curve, N.of_nat (2 * width), bits)
  /\ (0 < width <= 66)%nat.
Proof.
  intros Hj Hf. destruct Hj as [Hin <-]. simpl in Hin.
  decompose [or] Hin; try contradiction; subst; try discriminate Hf;
    inversion Hf; subst; repeat split; lia.
Qed.
Lemma ecp_group_eqb_eq a b : ecp_group_eqb a b = true <-> a = b.
Proof. destruct a, b; simpl; split; congruence. Qed.

Section Sign.
Variables (p : platform) (e : env) (ep : enc_params) (k : bytes) (n : N) (msg : bytes).
Hypothesis (Hk : length k = N.to_nat n) (Hn : (0 < n <= 8192)%N).
Let key := k ++ repeat x00 (N.to_nat (L8W8JWT_MAX_KEY_SIZE - n)).
Let signed j := signed_by e j k (ep_secret_key_pw ep) (ep_secret_key_pw_length ep) msg.

Lemma sign_hs_inv j buf len kl :
  supported (ep_alg ep) j -> j_family j = HS ->
  adjust_key_length key n = OK kl ->
  sign_hs e (ep_alg ep) key kl msg = OK (L8W8JWT_SUCCESS, buf, len) ->
  (0 < len <= N.of_nat (length buf))%N /\ signed j (firstn (N.to_nat len) buf).
Proof.
  intros Hj Hf Ha H. destruct (adjust_key_eq k n Hk Hn) as (kl' & Ha' & _ & Ht & _).
  fold key in Ha', Ht. rewrite Ha in Ha'. inversion Ha'; subst kl'.
  assert (Hmd : md_info_from_alg (ep_alg ep) = Some (j_hash j)
                /\ Z.to_N (32 + 16 * ep_alg ep) = md_size (j_hash j)).
  { destruct Hj as [Hin <-]. simpl in Hin.
    decompose [or] Hin; try contradiction; subst; try discriminate Hf; split; reflexivity. }
  destruct Hmd as [Hmd Hsz]. unfold sign_hs in H. rewrite Hmd in H.
  apply ubind_inv in H as (k' & Ht' & H). rewrite Ht in Ht'. inversion Ht'; subst k'.
  destruct (e_hmac e (j_hash j) (hmac_key k) msg) as [mac|] eqn:Em; [|discriminate].
  rewrite Hsz in H.
  assert (E1 : buf = fit SIGBUF (fit (md_size (j_hash j)) mac)) by congruence.
  assert (E2 : len = md_size (j_hash j)) by congruence. subst buf len. clear H.
  assert (Hle : (0 < md_size (j_hash j) <= 4096)%N) by (destruct (j_hash j); simpl; lia).
  rewrite fit_length. unfold SIGBUF. split; [lia|].
  unfold signed, signed_by. rewrite Hf. exists mac. split; [exact Em|].
  apply firstn_fit_fit. lia.
Qed.

Lemma sign_rs_inv j buf len kl :
  supported (ep_alg ep) j -> j_family j = RS ->
  adjust_key_length key n = OK kl ->
  sign_rs e ep key kl msg = OK (L8W8JWT_SUCCESS, buf, len) ->
  (len <= N.of_nat (length buf))%N /\ signed j (firstn (N.to_nat len) buf).
Proof.
  intros Hj Hf Ha H. destruct (adjust_key_eq k n Hk Hn) as (kl' & Ha' & _ & _ & Ht).
  fold key in Ha', Ht. rewrite Ha in Ha'. inversion Ha'; subst kl'.
  assert (Hmd : md_info_from_alg (ep_alg ep) = Some (j_hash j)).
  { destruct Hj as [Hin <-]. simpl in Hin.
    decompose [or] Hin; try contradiction; subst; try discriminate Hf; reflexivity. }
  unfold sign_rs in H. rewrite Hmd in H.
  apply ubind_inv in H as (k' & Ht' & H). rewrite Ht in Ht'.
  destruct (kl <=? 8192)%N; [|discriminate]. inversion Ht'; subst k'.
  destruct (e_parse_key e (pem_text k) _ _) as [pk|] eqn:Ek; [|discriminate].
  destruct (negb (e_can_do e pk PK_RSA) && negb (e_can_do e pk PK_RSA_ALT)) eqn:Ec; [discriminate|].
  destruct (N.ltb_spec (e_bitlen e pk) 2048) as [Hb|Hb]; [discriminate|].
  destruct (e_md e (j_hash j) msg) as [d|] eqn:Ed; [|discriminate].
  destruct (e_pk_sign e pk (j_hash j) (fit (md_size (j_hash j)) d)) as [s|] eqn:Es; [|discriminate].
  set (s' := firstn (N.to_nat SIGBUF) s) in *.
  assert (E1 : buf = fit SIGBUF s') by congruence.
  assert (E2 : len = N.of_nat (length s')) by congruence. subst buf len. clear H.
  assert (Hl : (N.of_nat (length s') <= 4096)%N).
  { unfold s', SIGBUF. rewrite firstn_length. lia. }
  rewrite fit_length. unfold SIGBUF at 1. split; [lia|].
  rewrite firstn_fit_len by (unfold SIGBUF; lia).
  unfold signed, signed_by. rewrite Hf. exists pk, (fit (md_size (j_hash j)) d), s.
  split; [exact Ek|]. split; [eauto|]. split; [|auto].
  apply andb_false_iff in Ec as [Ec|Ec]; apply negb_false_iff in Ec; auto.
Qed.

Lemma sign_ps_inv j buf len kl :
  supported (ep_alg ep) j -> j_family j = PS ->
  adjust_key_length key n = OK kl ->
  sign_ps e ep key kl msg = OK (L8W8JWT_SUCCESS, buf, len) ->
  (len <= N.of_nat (length buf))%N ->
  (0 < len)%N /\ signed j (firstn (N.to_nat len) buf).
Proof.
  intros Hj Hf Ha H Hlen. destruct (adjust_key_eq k n Hk Hn) as (kl' & Ha' & _ & _ & Ht).
  fold key in Ha', Ht. rewrite Ha in Ha'. inversion Ha'; subst kl'.
  assert (Hmd : md_info_from_alg (ep_alg ep) = Some (j_hash j)).
  { destruct Hj as [Hin <-]. simpl in Hin.
    decompose [or] Hin; try contradiction; subst; try discriminate Hf; reflexivity. }
  unfold sign_ps in H. rewrite Hmd in H.
  apply ubind_inv in H as (k' & Ht' & H). rewrite Ht in Ht'.
  destruct (kl <=? 8192)%N; [|discriminate]. inversion Ht'; subst k'.
  destruct (e_parse_key e (pem_text k) _ _) as [pk|] eqn:Ek; [|discriminate].
  destruct (e_can_do e pk PK_RSASSA_PSS) eqn:Ec; [|discriminate]. cbn [negb] in H.
  destruct (N.ltb_spec (e_bitlen e pk) 2048) as [Hb|Hb]; [discriminate|].
  destruct (e_md e (j_hash j) msg) as [d|] eqn:Ed; [|discriminate].
  destruct (e_pk_rsa e pk) eqn:Er; [|discriminate]. cbn [negb] in H.
  destruct (N.ltb_spec SIGBUF (e_rsa_len e pk)) as [Hr|Hr]; [discriminate|].
  destruct (e_pss_sign e pk (j_hash j) (fit (md_size (j_hash j)) d)) as [s|] eqn:Es; [|discriminate].
  assert (E1 : buf = fit SIGBUF (fit (e_rsa_len e pk) s)) by congruence.
  assert (E2 : len = (e_bitlen e pk / 8)%N) by congruence. subst buf len. clear H.
  rewrite fit_length in Hlen.
  split; [lia|]. rewrite firstn_fit by lia.
  unfold signed, signed_by. rewrite Hf. exists pk, (fit (md_size (j_hash j)) d), s.
  split; [exact Ek|]. split; [eauto|]. auto 10.
Qed.

Lemma sign_es_inv j curve bits width buf len kl :
  supported (ep_alg ep) j -> j_family j = ES curve bits width ->
  adjust_key_length key n = OK kl ->
  sign_es e ep key kl msg = OK (L8W8JWT_SUCCESS, buf, len) ->
  (0 < len <= N.of_nat (length buf))%N /\ signed j (firstn (N.to_nat len) buf).
Proof.
  intros Hj Hf Ha H. destruct (adjust_key_eq k n Hk Hn) as (kl' & Ha' & _ & _ & Ht).
  fold key in Ha', Ht. rewrite Ha in Ha'. inversion Ha'; subst kl'.
  destruct (es_table _ _ _ _ _ Hj Hf) as (Hmd & Hes & Hw).
  unfold sign_es in H. rewrite Hmd in H.
  apply ubind_inv in H as (k' & Ht' & H). rewrite Ht in Ht'.
  destruct (kl <=? 8192)%N; [|discriminate]. inversion Ht'; subst k'.
  destruct (e_parse_key e (pem_text k) _ _) as [pk|] eqn:Ek; [|discriminate].
  destruct (e_can_do e pk PK_ECDSA) eqn:Ec; [|discriminate]. cbn [negb] in H.
  destruct (e_pk_ec e pk) eqn:Er; [|discriminate]. cbn [negb] in H.
  destruct (e_ecdsa_from_keypair e pk); [|discriminate]. cbn [negb] in H.
  destruct (e_md e (j_hash j) msg) as [d|] eqn:Ed; [|discriminate].
  rewrite Hes in H.
  destruct (ecp_group_eqb (e_group e pk) curve) eqn:Eg; [|discriminate]. cbn [negb] in H.
  apply ecp_group_eqb_eq in Eg.
  destruct (N.eqb_spec (e_bitlen e pk) bits) as [Eb|Eb]; [|discriminate]. cbn [negb] in H.
  destruct (e_ecdsa_sign e pk (fit (md_size (j_hash j)) d)) as [[r s]|] eqn:Es; [|discriminate].
  replace (N.to_nat (N.of_nat (2 * width) / 2)) with width in H by lia.
  destruct (mpi_write_binary r width) as [br|] eqn:E1; [|discriminate].
  destruct (mpi_write_binary s width) as [bs|] eqn:E2; [|discriminate].
  apply mpi_write_inv in E1 as [L1 V1]. apply mpi_write_inv in E2 as [L2 V2].
  assert (E1 : buf = fit SIGBUF (br ++ bs)) by congruence.
  assert (E2 : len = N.of_nat (2 * width)) by congruence. subst buf len. clear H.
  rewrite fit_length. unfold SIGBUF at 1. split; [lia|].
  rewrite firstn_fit_len by (rewrite ?app_length; unfold SIGBUF; lia).
  unfold signed, signed_by. rewrite Hf. exists pk, (fit (md_size (j_hash j)) d), r, s.
  split; [exact Ek|]. split; [eauto|]. split; [exact Ec|]. split; [exact Er|].
  split; [exact Eg|]. split; [exact Eb|]. split; [exact Es|].
  split; [rewrite app_length; lia|]. subst width.
  rewrite firstn_app_exact, skipn_app_exact. auto.
Qed.

Lemma sign_ed_inv j b m buf len :
  ep_secret_key ep = Ptr b m -> ep_secret_key_length ep = n ->
  (n <= N.of_nat (length m))%N -> k = firstn (N.to_nat n) m ->
  j_family j = ED ->
  sign_ed p e ep msg = OK (L8W8JWT_SUCCESS, buf, len) ->
  (0 < len <= N.of_nat (length buf))%N /\ signed j (firstn (N.to_nat len) buf).
Proof.
  intros Ek En Hm Hkm Hf H. unfold sign_ed in H. rewrite Ek, En in H.
  destruct (p_eddsa p); [|discriminate]. cbn [negb deref ubind] in H.
  apply ubind_inv in H as (ok & Hok & H). destruct ok; [|discriminate]. cbn [negb] in H.
  rewrite hexstr2bin_cases in H by (rewrite ?repeat_length; lia). rewrite <- Hkm in H.
  assert (Hnul : without_final_nul k = hmac_key k) by reflexivity. rewrite Hnul in H.
  set (hx := hmac_key k) in *.
  destruct (Nat.eqb (length hx mod 2) 0) eqn:Ev; [|discriminate]. cbn [negb] in H.
  destruct (N.ltb_spec 65 (N.of_nat (length hx / 2) + 1)) as [Hs|Hs]; [discriminate|].
  destruct (hex_loop_ok p hx [] (repeat x00 65)) as (o & Ho & Hlo & Hv).
  { rewrite repeat_length. lia. }
  unfold cur_start in H. rewrite Ho in H. cbn [ubind negb Z.eqb] in H.
  match type of H with OK (_, ?b, ?l) = _ =>
    assert (E1 : buf = b) by congruence; assert (E2 : len = l) by congruence end.
  subst buf len. clear H.
  assert (Hne : k <> []) by (intros E; rewrite E in Hk; simpl in Hk; lia).
  assert (Hx : (k = hx \/ k = hx ++ [x00]) /\ length hx = 128%nat).
  { unfold hx, hmac_key in *. destruct (exists_last Hne) as (k0 & z & E0).
    rewrite E0 in *. rewrite last_last, removelast_last in *. rewrite app_length in Hk. simpl in Hk.
    destruct (is_nul z) eqn:Ez.
    - apply is_nul_true in Ez. subst z. split; [auto|].
      destruct (N.eqb_spec n 128) as [->|H1]; [exfalso; apply Nat.eqb_eq in Ev; lia|].
      destruct (N.eqb_spec n 129) as [->|H2]; [lia|discriminate].
    - split; [auto|]. rewrite app_length. simpl.
      destruct (N.eqb_spec n 128) as [->|H1]; [lia|].
      destruct (N.eqb_spec n 129) as [->|H2]; [|discriminate].
      apply ubind_inv in Hok as (z' & Hz & Hok). apply read_at_inv in Hz as [Hl ->].
      exfalso. assert (Hok' : is_nul (nth (N.to_nat 128) m x00) = true) by congruence.
      assert (nth (N.to_nat 128) m x00 = z); [|congruence].
      rewrite <- (firstn_skipn (N.to_nat 129) m), <- Hkm, <- app_assoc, app_nth2 by lia.
      replace (N.to_nat 128 - length k0)%nat with 0%nat by lia. reflexivity. }
  destruct Hx as [Hx1 Hx2]. rewrite fit_length. unfold SIGBUF at 1.
  split; [lia|]. rewrite firstn_fit_fit by (unfold SIGBUF; lia).
  unfold signed, signed_by. rewrite Hf. exists hx. split; [exact Hx1|]. split; [exact Hx2|].
  split; [rewrite fit_length; reflexivity|]. intros kb Hkb. f_equal. f_equal.
  rewrite unhex_eq in Hkb. rewrite (Hv _ Hkb) in *. unfold cur_buf. cbn [c_done c_rest].
  rewrite app_nil_r, rev_involutive.
  replace 64%nat with (length kb) by (rewrite Hlo, Hx2; reflexivity).
  apply firstn_app_exact.
Qed.
End Sign.

(** The caller's key bytes. *)
Definition caller_key (q : ptr) (n : N) (k : bytes) : Prop :=
  exists b m, q = Ptr b m /\ (n <= N.of_nat (length m))%N /\ k = firstn (N.to_nat n) m.
Definition enc_signed (e : env) (ep : enc_params) (msg sig : bytes) : Prop :=
  exists j k, supported (ep_alg ep) j /\ caller_key (ep_secret_key ep) (ep_secret_key_length ep) k
    /\ signed_by e j k (ep_secret_key_pw ep) (ep_secret_key_pw_length ep) msg sig.

Lemma supported_exists alg : (0 <= alg <= 13)%Z -> exists j, supported alg j.
Proof.
  intros R. exists (nth (Z.to_nat alg) jwa_table (Jwa 0 [] HS SHA256)).
  split; [apply nth_In; simpl; lia|]. pattern alg. apply range_cases; auto; reflexivity.
Qed.

Lemma sign_switch_inv p e ep key kl msg buf len :
  load_key (ep_secret_key ep) (ep_secret_key_length ep) = OK key ->
  adjust_key_length key (ep_secret_key_length ep) = OK kl ->
  sign_switch p e ep key kl msg = OK (L8W8JWT_SUCCESS, buf, len) ->
  (len <= N.of_nat (length buf))%N ->
  enc_signed e ep msg (firstn (N.to_nat len) buf).
Proof.
  intros Hl Ha H Hlen. set (n := ep_secret_key_length ep) in *.
  destruct (load_key_inv _ _ _ Hl) as (b & m & Eq & Hm & Hn & Ek).
  set (k := firstn (N.to_nat n) m) in *.
  assert (Hk : length k = N.to_nat n) by (unfold k; rewrite firstn_length; lia).
  assert (Hn0 : (0 < n)%N).
  { unfold adjust_key_length in Ha. destruct (N.eqb_spec n 0); [discriminate|lia]. }
  assert (Hck : caller_key (ep_secret_key ep) n k) by (exists b, m; auto).
  assert (R : (0 <= ep_alg ep <= 13)%Z).
  { destruct (Z_le_dec 0 (ep_alg ep)); [destruct (Z_le_dec (ep_alg ep) 13); [lia|]|];
      rewrite sign_switch_none in H by lia; discriminate. }
  destruct (supported_exists _ R) as (j & Hj).
  exists j, k. split; [exact Hj|]. split; [exact Hck|]. subst key.
  assert (Hf : match j_family j with
               | HS => sign_switch p e ep = sign_hs e (ep_alg ep)
               | RS => sign_switch p e ep = sign_rs e ep
               | PS => sign_switch p e ep = sign_ps e ep
               | ES _ _ _ => sign_switch p e ep = sign_es e ep
               | ED => forall key kl, sign_switch p e ep key kl = sign_ed p e ep
               end).
  { unfold sign_switch. destruct Hj as [Hin <-]. simpl in Hin.
    decompose [or] Hin; try contradiction; subst; simpl; reflexivity. }
  destruct (j_family j) eqn:Ef.
  - rewrite Hf in H. apply (sign_hs_inv e ep k n msg Hk (conj Hn0 Hn) j  buf len kl) in H; auto; tauto.
  - rewrite Hf in H. apply (sign_rs_inv e ep k n msg Hk (conj Hn0 Hn) j  buf len kl) in H; auto; tauto.
  - rewrite Hf in H. apply (sign_ps_inv e ep k n msg Hk (conj Hn0 Hn) j  buf len kl) in H; auto; tauto.
  - rewrite Hf in H. apply (sign_es_inv e ep k n msg Hk (conj Hn0 Hn) j curve bits width buf len kl) in H; auto; tauto.
  - rewrite Hf in H. apply (sign_ed_inv p e ep k n msg Hk (conj Hn0 Hn) j b m buf len) in H; auto; tauto.
Qed.

Lemma wsb_inv p e sb ep w rc sb' sg w' :
  (6 <= p_size_bits p)%N -> wf w ->
  write_signature_body p e sb ep w = Ret (rc, sb', sg) w' ->
  (rc <> L8W8JWT_SUCCESS /\ sb' = sb /\ sg = Null /\ quiet w w')
  \/ (rc = L8W8JWT_SUCCESS /\ cb_id sb' = cb_id sb /\ quiet (w_ok w) w'
      /\ (exists m, sg = Ptr (Some (w_next w)) m)
      /\ exists sig, enc_signed e ep (cb_elems sb) sig /\ sig <> []
         /\ (grows w -> cb_elems sb' = cb_elems sb ++ lit "." ++ b64url sig)).
Proof.
  intros Hp Hwf H. unfold write_signature_body in H.
  minvas H as key ? Hm. apply lift_inv in Hm as [Hl ->].
  minvas H as kl ? Hm. apply lift_inv in Hm as [Ha ->].
  destruct (e_seed_ok e); cbn [negb] in H.
  2:{ inversion H; subst. left. split; [discriminate|]. auto using quiet_refl. }
  minvas H as [[r buf] len] ? Hm. apply lift_inv in Hm as [Hs ->].
  destruct (Z.eqb_spec r L8W8JWT_SUCCESS) as [->|Hr]; cbn [negb] in H.
  2:{ inversion H; subst. left. auto using quiet_refl. }
  destruct (N.eqb_spec len 0) as [->|Hlen].
  { inversion H; subst. left. split; [discriminate|]. auto using quiet_refl. }
  minvas H as [[r seg] s] w1 Hseg. apply encode_seg_inv in Hseg; auto.
  destruct Hseg as [(Hr & -> & -> & Q)|(-> & H0 & Hle & _ & _ & -> & (m & ->) & ->)].
  { destruct (Z.eqb_spec r L8W8JWT_SUCCESS) as [E|_]; [congruence|]. cbn [negb] in H.
    inversion H; subst. left. split; [discriminate|]. auto. }
  cbn [negb Z.eqb L8W8JWT_SUCCESS] in H.
  minvas H as sb1 w2 Hm. apply cb_push_inv in Hm as (-> & Hid1 & _ & Hg1).
  minvas H as sb2 w3 Hm. apply cb_push_inv in Hm as (-> & Hid2 & _ & Hg2).
  inversion H; subst. right. split; [reflexivity|]. split; [congruence|].
  split; [eapply quiet_trans; apply quiet_push|]. split; [eauto|].
  exists (firstn (N.to_nat len) buf).
  split; [eapply sign_switch_inv; eauto|].
  split.
  - intros E. apply (f_equal (@length byte)) in E. rewrite firstn_length in E. simpl in E. lia.
  - intros Hgr.
    assert (G1 : grows (w_ok w)) by (eapply grows_later; [apply later_ok|exact Hgr]).
    rewrite Hg2 by (eapply grows_later; [apply later_push|exact G1]). cbn [cb_elems].
    rewrite (Hg1 G1). cbn [cb_elems]. rewrite <- app_assoc. reflexivity.
Qed.

Lemma zeroize_inv q n w u w' : zeroize q n w = Ret u w' -> w' = w.
Proof.
  unfold zeroize. destruct q as [|b m].
  - destruct (n =? 0)%N; intros H; inversion H; auto.
  - destruct (negb _); [discriminate|]. destruct (match b with Some i => w_live w i | None => true end);
      intros H; inversion H; auto.
Qed.

Local Opaque L8W8JWT_MAX_KEY_SIZE SIGBUF.
Lemma ws_inv p e sb ep w rc sb' w' :
  (6 <= p_size_bits p)%N -> wf w ->
  write_signature p e sb ep w = Ret (rc, sb') w' ->
  quiet w w' /\ cb_id sb' = cb_id sb
  /\ (rc = L8W8JWT_SUCCESS ->
      exists sig, enc_signed e ep (cb_elems sb) sig /\ sig <> []
         /\ (grows w -> cb_elems sb' = cb_elems sb ++ lit "." ++ b64url sig)).
Proof.
  intros Hp Hwf H. unfold write_signature in H.
  assert (Hbody : forall w r sb1 sg w1 u w2, wf w ->
    write_signature_body p e sb ep w = Ret (r, sb1, sg) w1 -> free sg w1 = Ret u w2 ->
    quiet w w2 /\ cb_id sb1 = cb_id sb
    /\ (r = L8W8JWT_SUCCESS ->
      exists sig, enc_signed e ep (cb_elems sb) sig /\ sig <> []
         /\ (grows w -> cb_elems sb1 = cb_elems sb ++ lit "." ++ b64url sig))).
  { clear -Hp. intros w r sb1 sg w1 u w2 Hwf H Hf. apply wsb_inv in H; auto.
    destruct H as [(Hr & -> & -> & Q)|(-> & Hid & Q & (m & ->) & Hs)].
    - inversion Hf; subst. split; [exact Q|]. split; [reflexivity|]. intros E. congruence.
    - apply (free_seg w) in Hf as (Q' & _); auto. }
  destruct (p_small_stack p).
  - minvas H as sigb w1 Hc1. minvas H as kb w2 Hc2. minvas H as [[r sb1] sg] w3 Hb.
    minvas H as u1 w4 Hz. apply zeroize_inv in Hz. subst w4.
    minvas H as u2 w5 Hf1. minvas H as u3 w6 Hf2. minvas H as u4 w7 Hf3.
    inversion H; subst. rewrite calloc_eq in Hc1, Hc2.
    destruct (w_alloc w (w_next w)) eqn:E1; inversion Hc1; subst; clear Hc1.
    + destruct (w_alloc (w_ok w) (w_next (w_ok w))) eqn:E2; inversion Hc2; subst; clear Hc2.
      * cbn [is_null orb] in Hb.
        destruct (Hbody _ _ _ _ _ _ _ (wf_ok _ (wf_ok _ Hwf)) Hb Hf1) as (Q & Hid & Hs).
        apply (free_seg (w_ok w)) in Hf2 as (Q2 & ->); [|apply wf_ok; auto|auto|auto].
        apply (free_seg w) in Hf3 as (Q3 & ->); auto.
      * cbn [is_null orb] in Hb. inversion Hb; subst. inversion Hf1; subst. inversion Hf2; subst.
        apply (free_seg w) in Hf3 as (Q3 & ->); auto; [|apply quiet_no].
        split; [exact Q3|]. split; [reflexivity|]. discriminate.
    + destruct (w_alloc (w_no w) (w_next (w_no w))) eqn:E2; inversion Hc2; subst; clear Hc2;
        cbn [is_null orb] in Hb; inversion Hb; subst; inversion Hf1; subst.
      * apply (free_seg (w_no w)) in Hf2 as (Q2 & ->); [|apply wf_no; auto|apply quiet_refl|auto].
        inversion Hf3; subst. split; [eapply quiet_trans; [apply quiet_no|exact Q2]|].
        split; [reflexivity|]. discriminate.
      * inversion Hf2; subst. inversion Hf3; subst.
        split; [eapply quiet_trans; apply quiet_no|]. split; [reflexivity|]. discriminate.
  - minvas H as [[r sb1] sg] w3 Hb. minvas H as u1 w4 Hf. inversion H; subst.
    eapply Hbody; eauto.
Qed.

(** ** The token *)
Lemma write_token_inv sb w r w' :
  write_token sb w = Ret r w' ->
  (r = EncRes L8W8JWT_OUT_OF_MEM (Some Null) None /\ w_alloc w (w_next w) = false /\ w' = w_no w)
  \/ (r = EncRes L8W8JWT_SUCCESS (Some (Ptr (Some (w_next w)) (cb_elems sb ++ [x00])))
            (Some (cb_len sb)) /\ w_alloc w (w_next w) = true /\ w' = w_ok w).
Proof.
  intros H. unfold write_token in H. minvas H as o w1 Hm. rewrite malloc_eq in Hm.
  destruct (w_alloc w (w_next w)) eqn:Ea; inversion Hm; subst; clear Hm.
  2:{ left. inversion H; subst. auto. }
  right. set (mem := junk_bytes w (w_next w) (cb_len sb + 1)) in *.
  assert (Hl : length mem = (length (cb_elems sb) + 1)%nat).
  { unfold mem. rewrite junk_length. unfold cb_len. lia. }
  minvas H as c ? Hm. apply lift_inv in Hm as [Hc ->].
  minvas H as c2 ? Hm. apply lift_inv in Hm as [Hc2 ->].
  unfold cur_start in Hc. rewrite cur_puts_eq in Hc by lia. inversion Hc; subst c.
  unfold cur_set in Hc2. cbn [c_rest c_done] in Hc2.
  destruct (skipn (length (cb_elems sb)) mem) as [|x t] eqn:Es; [discriminate|].
  assert (t = []).
  { apply (f_equal (@length byte)) in Es. rewrite skipn_length in Es. simpl in Es.
    destruct t; [reflexivity|simpl in Es; lia]. }
  subst t. inversion Hc2; subst c2. inversion H; subst. split; [|auto].
  unfold cur_buf. cbn [c_done c_rest]. rewrite app_nil_r, rev_involutive. reflexivity.
Qed.

(** ** [l8w8jwt_encode] *)
Definition token_of (e : env) (ep : enc_params) (ok : Prop) (t : bytes) : Prop :=
  exists ht pt sig, header_text ep ok ht /\ payload_text ep ok pt /\ sig <> []
    /\ enc_signed e ep (b64url ht ++ lit "." ++ b64url pt) sig
    /\ t = b64url ht ++ lit "." ++ b64url pt ++ lit "." ++ b64url sig.

Lemma encode_inv p e ep w r w' :
  (6 <= p_size_bits p)%N -> wf w ->
  l8w8jwt_encode p e (Some ep) w = Ret r w' ->
  (er_rc r <> L8W8JWT_SUCCESS /\ (er_out r = None \/ er_out r = Some Null) /\ er_len r = None
   /\ quiet w w')
  \/ (er_rc r = L8W8JWT_SUCCESS /\ l8w8jwt_validate_encoding_params (Some ep) = L8W8JWT_SUCCESS
      /\ exists id t, er_out r = Some (Ptr (Some id) (t ++ [x00]))
         /\ er_len r = Some (N.of_nat (length t))
         /\ (w_next w <= id < w_next w')%nat /\ later w w'
         /\ (forall i, w_live w' i = if Nat.eqb i id then true else w_live w i)
         /\ (exists msg sig, enc_signed e ep msg sig)
         /\ (grows w -> token_of e ep (allocs w) t)).
Proof.
  intros Hp Hwf H. unfold l8w8jwt_encode in H.
  destruct (Z.eqb_spec (l8w8jwt_validate_encoding_params (Some ep)) L8W8JWT_SUCCESS) as [Ev|Ev];
    cbn [negb] in H.
  2:{ inversion H; subst. left. split; [exact Ev|]. split; [left; reflexivity|]. split; [reflexivity|].
      apply quiet_refl. }
  minvas H as o w1 Hi. rewrite cb_init_eq in Hi.
  destruct (w_alloc w (w_next w)) eqn:Ea; inversion Hi; subst; clear Hi.
  2:{ inversion H; subst. left. split; [discriminate|]. split; [left; reflexivity|].
      split; [reflexivity|]. apply quiet_no. }
  minvas H as [res sb'] w2 Hb. minvas H as u w3 Hf. inversion H; subst. clear H.
  apply free_id_inv in Hf as [_ ->]. pose proof (wf_ok _ Hwf) as Hwf1.
  unfold encode_body in Hb. minvas Hb as [r1 sb1] w3 H1.
  apply whp_inv in H1 as (Q1 & Hid1 & Hs1); auto.
  assert (W3 : wf w3) by (eapply wf_quiet; eauto).
  destruct (Z.eqb_spec r1 L8W8JWT_SUCCESS) as [->|Hr1]; cbn [negb] in Hb.
  2:{ inversion Hb; subst. left. split; [exact Hr1|]. split; [left; reflexivity|].
      split; [reflexivity|]. rewrite Hid1. cbn [cb_id]. apply quiet_alloc_free; auto. }
  specialize (Hs1 eq_refl). destruct Hs1 as (ht & pt & Hh & Hpt & Hg1).
  assert (Hal : forall x, later (w_ok w) x -> allocs x <-> allocs w).
  { intros x (Hx & _). unfold allocs. rewrite Hx. reflexivity. }
  assert (Hsup : exists j, supported (ep_alg ep) j).
  { destruct Hh as (h & t & Hh & _). apply header_prefix_inv in Hh as (j & Hj & _). eauto. }
  assert (Hnm1 : (ep_alg ep =? -1)%Z = false).
  { destruct Hsup as (j & Hj). apply supported_range in Hj. lia. }
  rewrite Hnm1 in Hb. cbn [negb] in Hb.
  minvas Hb as [r2 sb2] w4 H2. apply ws_inv in H2 as (Q2 & Hid2 & Hs2); auto.
  assert (Q12 : quiet (w_ok w) w4) by (eapply quiet_trans; eauto).
  destruct (Z.eqb_spec r2 L8W8JWT_SUCCESS) as [->|Hr2]; cbn [negb] in Hb.
  2:{ inversion Hb; subst. left. split; [exact Hr2|]. split; [left; reflexivity|].
      split; [reflexivity|]. rewrite Hid2, Hid1. cbn [cb_id]. apply quiet_alloc_free; auto. }
  specialize (Hs2 eq_refl). destruct Hs2 as (sig & Hsig & Hne & Hg2).
  minvas Hb as res2 w5 H3. inversion Hb; subst. clear Hb.
  assert (Hid : cb_id sb' = w_next w) by (rewrite Hid2, Hid1; reflexivity). rewrite Hid.
  apply write_token_inv in H3 as [(-> & _ & ->)|(-> & _ & ->)].
  { left. split; [discriminate|]. split; [right; reflexivity|]. split; [reflexivity|].
    apply quiet_alloc_free; [auto|]. eapply quiet_trans; [exact Q12|apply quiet_no]. }
  right. split; [reflexivity|]. split; [exact Ev|]. exists (w_next w4), (cb_elems sb').
  split; [reflexivity|]. split; [reflexivity|].
  assert (Hlt : (w_next w < w_next w4)%nat).
  { destruct Q12 as [(_ & _ & _ & Hx & _) _]. simpl in Hx. lia. }
  split; [cbn [w_free w_ok w_next]; lia|].
  split.
  { eapply later_trans; [apply later_ok|]. eapply later_trans; [apply quiet_later, Q12|].
    eapply later_trans; [apply later_ok|apply later_free]. }
  split.
  { intros i. cbn [w_free w_live w_ok]. unfold upd_live. destruct Q12 as [_ Q12].
    destruct (Nat.eqb_spec i (w_next w)) as [->|Hi].
    - destruct (Nat.eqb_spec (w_next w) (w_next w4)); [lia|]. symmetry. apply Hwf. lia.
    - destruct (Nat.eqb_spec i (w_next w4)); [reflexivity|]. rewrite Q12. cbn [w_ok w_live].
      apply upd_live_other. exact Hi. }
  split; [eauto|].
  intros Hgr.
  assert (G1 : grows (w_ok w)) by (eapply grows_later; [apply later_ok|exact Hgr]).
  assert (G3 : grows w3) by (eapply grows_later; [apply quiet_later, Q1|exact G1]).
  specialize (Hg1 G1). cbn [cb_elems app] in Hg1. specialize (Hg2 G3).
  exists ht, pt, sig.
  assert (Himp : allocs (w_ok w) <-> allocs w) by (apply Hal, later_refl).
  assert (Hw : forall c n t, wrote c n (allocs (w_ok w)) t -> wrote c n (allocs w) t).
  { intros c n t [(-> & Hx)|Hx]; [left|right; exact Hx]. split; [reflexivity|]. tauto. }
  split; [destruct Hh as (h & t & X1 & X2 & X3); exists h, t; auto|].
  split; [destruct Hpt as (tb & r & t & X1 & X2 & X3 & X4); exists tb, r, t; auto|].
  split; [exact Hne|]. rewrite Hg1 in Hsig. split; [exact Hsig|].
  rewrite Hg2, Hg1, <- !app_assoc. reflexivity.
Qed.
