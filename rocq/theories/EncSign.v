(** * Lemmas: signing does what its specification (EncComplete) says *)
From Verif Require Import Base BaseProofs HeapProofs Util UtilProofs Claim Base64 SpecB64
  Base64EncProofs Base64EncApi Base64DecProofs Base64Api Jsmn Env Encode Decode SpecJson SpecJwa ClaimProofs UnescapeProofs
  EncodeProofs SignProofs EncodeTotal SpecEnc JsonProofs PropEncode DecodeProofs DecodeInv
  CodeProofs EncCodeProofs Complete EncComplete EncRun.
From Coq Require Import ZifyBool ZifyNat ZifyN.
Ltac Zify.zify_post_hook ::= Z.div_mod_to_equations.
Local Opaque L8W8JWT_MAX_KEY_SIZE SIGBUF.

Definition signs (p : platform) (x : U sig_or_err) (o : product) : Prop :=
  match o with
  | Made s => exists buf n, x = OK (L8W8JWT_SUCCESS, buf, n) /\ (0 < n <= 4096)%N /\ N.of_nat (length buf) = 4096%N /\ firstn (N.to_nat n) buf = s
      /\ (n * 4 < size_mod p)%N
  | Fails rc => rc <> L8W8JWT_SUCCESS
      /\ ((exists buf n, x = OK (rc, buf, n))
          \/ (rc = L8W8JWT_SIGNATURE_CREATION_FAILURE /\ exists buf, x = OK (L8W8JWT_SUCCESS, buf, 0%N))
          \/ (rc = L8W8JWT_BASE64_FAILURE /\ exists buf n, x = OK (L8W8JWT_SUCCESS, buf, n) /\ (0 < n)%N /\ (size_mod p <= n * 4)%N))
  | Breaks u => x = KO u \/ (u = OOBRead /\ exists buf n, x = OK (L8W8JWT_SUCCESS, buf, n) /\ (N.of_nat (length buf) < n)%N /\ (n * 4 < size_mod p)%N)
  end.
Lemma signs_fail p rc : rc <> L8W8JWT_SUCCESS -> signs p (OK (sig_fail rc)) (Fails rc).
Proof. intros H. split; [exact H|]. left. do 2 eexists. reflexivity. Qed.
Lemma signs_break p u : signs p (KO u) (Breaks u).
Proof. left. reflexivity. Qed.
Lemma signs_made p s n r : (15 <= p_size_bits p)%N -> (0 < n <= 4096)%N -> fit n s = r -> signs p (OK (L8W8JWT_SUCCESS, fit SIGBUF s, n)) (Made r).
Proof.
  intros Hp Hn <-. exists (fit SIGBUF s), n. split; [reflexivity|]. split; [exact Hn|]. split; [rewrite fit_length, N2Nat.id; reflexivity|].
  split; [apply firstn_fit; change SIGBUF with 4096%N; lia|].
  unfold size_mod. assert (2 ^ 15 <= 2 ^ p_size_bits p)%N by (apply N.pow_le_mono_r; lia). change (2 ^ 15)%N with 32768%N in *. lia.
Qed.

Definition finish (p : platform) (sb : chillbuff byte) (x : U sig_or_err) : M (Z * chillbuff byte * ptr) :=
    '(r, sigbuf, n) <- lift x ;;
    if negb (r =? L8W8JWT_SUCCESS)%Z then mret (r, sb, Null)
    else if (n =? 0)%N then mret (L8W8JWT_SIGNATURE_CREATION_FAILURE, sb, Null)
    else
      '(r, signature, s) <- encode_segment p (Ptr None sigbuf) n ;;
      if negb (r =? L8W8JWT_SUCCESS)%Z then mret (L8W8JWT_BASE64_FAILURE, sb, Null)
      else
        sb <- cb_push sb (lit ".") ;;
        sb <- cb_push sb s ;;
        mret (L8W8JWT_SUCCESS, sb, signature).
Lemma finish_does p sb x o w : (15 <= p_size_bits p)%N -> allocs w -> grows w -> signs p x o ->
  appends (finish p sb x w) (fun s _ r => fst r = (L8W8JWT_SUCCESS, grown sb (lit "." ++ b64url s)))
    (fun rc _ r => rc <> L8W8JWT_SUCCESS /\ fst (fst r) = rc) o.
Proof.
  intros Hp A G H. destruct o as [s|rc|u]; cbn [signs appends] in *.
  - destruct H as (buf & n & -> & Hn & L & Es & Hs). unfold finish. unfold mbind at 1. cbn [lift negb Z.eqb L8W8JWT_SUCCESS].
    destruct (N.eqb_spec n 0) as [E|_]; [lia|].
    destruct (encode_seg_ok p None buf n w) as (m & E); [lia|lia|exact Hs|lia|unfold INT_MAX; lia|apply A|].
    mstep E. cbn [negb Z.eqb L8W8JWT_SUCCESS]. clear E.
    assert (G1 : grows (w_ok w)) by (eapply grows_later; [apply later_ok|exact G]).
    mstep (push_does _ sb (lit ".") (w_ok w) G1).
    assert (G2 : grows (w_push (w_ok w))) by (eapply grows_later; [apply later_push|exact G1]).
    match goal with |- context [cb_push ?b ?t] => mstep (push_does _ b t (w_push (w_ok w)) G2) end.
    do 2 eexists. split; [reflexivity|]. cbn [fst]. f_equal. unfold grown. cbn [cb_id cb_elems]. rewrite <- app_assoc, Es. reflexivity.
  - destruct H as (Nz & [(buf & n & ->)|[(-> & buf & ->)|(-> & buf & n & -> & Hn & Hs)]]); unfold finish, mbind at 1; cbn [lift].
    + destruct (Z.eqb_spec rc L8W8JWT_SUCCESS) as [E|_]; [contradiction|]. cbn [negb]. do 2 eexists. split; [reflexivity|]. auto.
    + cbn [negb Z.eqb L8W8JWT_SUCCESS N.eqb]. do 2 eexists. split; [reflexivity|]. split; [discriminate|reflexivity].
    + cbn [negb Z.eqb L8W8JWT_SUCCESS]. destruct (N.eqb_spec n 0) as [E|_]; [lia|].
      assert (E : encode_segment p (Ptr None buf) n w = Ret (L8W8JWT_OVERFLOW, Null, []) w).
      { unfold encode_segment, mbind at 1.
        destruct (N.ltb_spec n (size_mod p)) as [Hm|Hm]; [rewrite encode_size_overflow by (auto; lia); reflexivity|].
        unfold l8w8jwt_base64_encode. cbn [negb is_null orb]. destruct (N.eqb_spec n 0); [lia|].
        assert (H0 : (0 < size_mod p)%N) by (unfold size_mod; apply N.neq_0_lt_0, N.pow_nonzero; lia).
        assert (Ho : (b64_olen p n <? n)%N = true).
        { apply N.ltb_lt. eapply N.lt_le_trans; [|exact Hm]. unfold b64_olen. apply N.mod_lt. lia. }
        rewrite Ho. reflexivity. }
      mstep E. cbn [negb Z.eqb L8W8JWT_SUCCESS L8W8JWT_OVERFLOW]. do 2 eexists. split; [reflexivity|]. split; [discriminate|reflexivity].
  - destruct H as [->|(-> & buf & n & -> & Hl & Hs)]; [reflexivity|]. unfold finish. unfold mbind at 1. cbn [lift negb Z.eqb L8W8JWT_SUCCESS].
    destruct (N.eqb_spec n 0) as [E|_]; [lia|].
    assert (E : encode_segment p (Ptr None buf) n w = Undef OOBRead).
    { unfold encode_segment, mbind at 1. unfold l8w8jwt_base64_encode. cbn [negb is_null orb]. destruct (N.eqb_spec n 0); [lia|].
      rewrite olen_lt_iff by lia. destruct (N.leb_spec (size_mod p) (n * 4)); [lia|].
      unfold mbind at 1. rewrite malloc_eq, A. unfold mbind at 1. cbn [deref lift]. unfold mbind at 1.
        unfold take. destruct (N.leb_spec n (N.of_nat (length buf))); [lia|]. reflexivity. }
    unfold mbind at 1. rewrite E. reflexivity.
Qed.

(** ** The algorithms *)
Lemma digest_none e j msg : e_md e (j_hash j) msg = None -> digest_of e j msg = None.
Proof. unfold digest_of. intros ->. reflexivity. Qed.
Lemma digest_some e j msg d : e_md e (j_hash j) msg = Some d -> digest_of e j msg = Some (fit (md_size (j_hash j)) d).
Proof. unfold digest_of. intros ->. reflexivity. Qed.
Lemma mpi_none x n : mpi_write_binary x n = None -> (256 ^ N.of_nat n <= x)%N.
Proof. unfold mpi_write_binary. destruct (N.ltb_spec x (256 ^ N.of_nat n)); [discriminate|auto]. Qed.
Section Sign.
Variables (p : platform) (e : env) (ep : enc_params) (k msg : bytes) (j : jwa) (kl : N) (key : bytes).
Hypothesis Hp : (15 <= p_size_bits p)%N.
Hypothesis Hj : supported (ep_alg ep) j.
Hypothesis Ht1 : take key (kl - 1) = OK (hmac_key k).
Hypothesis Ht2 : take key kl = if (N.of_nat (length (pem_text k)) <=? 8192)%N then OK (pem_text k) else KO OOBRead.
Let pw := ep_secret_key_pw ep.
Let pwl := ep_secret_key_pw_length ep.

Lemma hs_does : md_info_from_alg (ep_alg ep) = Some (j_hash j) -> Z.to_N (32 + 16 * ep_alg ep) = md_size (j_hash j) ->
  exists o, hs_signing e j k msg o /\ signs p (sign_hs e (ep_alg ep) key kl msg) o.
Proof.
  intros Hmd Hsz. unfold sign_hs. rewrite Hmd, Ht1, Hsz. cbn [ubind].
  destruct (e_hmac e (j_hash j) (hmac_key k) msg) as [m|] eqn:E.
  - eexists. split; [apply HS_sign; exact E|]. apply signs_made; [exact Hp|destruct (j_hash j); cbn; lia|].
    apply fit_exact. rewrite fit_length. lia.
  - eexists. split; [apply HS_fail; exact E|]. apply signs_fail. discriminate.
Qed.

Lemma keyed_does (use : pk -> product -> Prop) (run : pk -> U sig_or_err) :
  (forall key, exists o, use key o /\ signs p (run key) o) ->
  exists o, keyed e k pw pwl use o
    /\ signs p (k' <-u take key kl ;; match e_parse_key e k' pw pwl with None => OK (sig_fail L8W8JWT_KEY_PARSE_FAILURE) | Some pk => run pk end) o.
Proof.
  intros H. rewrite Ht2. destruct (N.leb_spec (N.of_nat (length (pem_text k))) 8192) as [L|L]; cbn [ubind].
  - destruct (e_parse_key e (pem_text k) pw pwl) as [q|] eqn:E.
    + destruct (H q) as (o & U & S). exists o. split; [eapply K_key; eauto|exact S].
    + eexists. split; [apply K_parse; auto|]. apply signs_fail. discriminate.
  - eexists. split; [apply K_over; exact L|]. apply signs_break.
Qed.

Lemma rs_does : md_info_from_alg (ep_alg ep) = Some (j_hash j) ->
  exists o, keyed e k pw pwl (fun q => rs_signing e j q msg) o /\ signs p (sign_rs e ep key kl msg) o.
Proof.
  intros Hmd. unfold sign_rs. rewrite Hmd. apply keyed_does. intros q.
  destruct (negb (e_can_do e q PK_RSA) && negb (e_can_do e q PK_RSA_ALT)) eqn:Ec.
  { eexists. split; [apply RS_kind; intros ([H|H] & _); rewrite H in Ec; [discriminate|destruct (negb _); discriminate]|]. apply signs_fail. discriminate. }
  destruct (N.ltb_spec (e_bitlen e q) 2048) as [L|L].
  { eexists. split; [apply RS_kind; intros (_ & H); lia|]. apply signs_fail. discriminate. }
  assert (R : rsa_ok e q).
  { split; [|exact L]. destruct (e_can_do e q PK_RSA); [left; reflexivity|]. destruct (e_can_do e q PK_RSA_ALT); [right; reflexivity|discriminate Ec]. }
  destruct (e_md e (j_hash j) msg) as [d|] eqn:Ed.
  2:{ eexists. split; [apply RS_digest; [exact R|apply digest_none; exact Ed]|]. apply signs_fail. discriminate. }
  apply digest_some in Ed. destruct (e_pk_sign e q (j_hash j) _) as [s|] eqn:Es.
  2:{ eexists. split; [eapply RS_fail; eauto|]. apply signs_fail. discriminate. }
  destruct s as [|c s'] eqn:E0.
  { eexists. split; [eapply RS_fail; eauto|]. split; [discriminate|]. right. left. split; [reflexivity|]. eexists. rewrite firstn_nil. reflexivity. }
  rewrite <- E0 in *. eexists. split; [eapply RS_sign; eauto; rewrite E0; discriminate|].
  cbv zeta. change SIGBUF with 4096%N at 2 3.
  assert (Lf : (0 < N.of_nat (length (firstn (N.to_nat 4096) s)) <= 4096)%N) by (rewrite firstn_length, E0; cbn [length]; lia).
  apply signs_made; [exact Hp|exact Lf|]. apply fit_exact. reflexivity.
Qed.

Lemma ps_does : md_info_from_alg (ep_alg ep) = Some (j_hash j) ->
  exists o, keyed e k pw pwl (fun q => ps_signing p e j q msg) o /\ signs p (sign_ps e ep key kl msg) o.
Proof.
  intros Hmd. unfold sign_ps. rewrite Hmd. apply keyed_does. intros q.
  destruct (e_can_do e q PK_RSASSA_PSS) eqn:Ec; cbn [negb].
  2:{ eexists. split; [apply PS_kind; intros (H & _); congruence|]. apply signs_fail. discriminate. }
  destruct (N.ltb_spec (e_bitlen e q) 2048) as [L|L].
  { eexists. split; [apply PS_kind; intros (_ & H); lia|]. apply signs_fail. discriminate. }
  assert (R : pss_ok e q) by (split; [exact Ec|exact L]).
  destruct (e_md e (j_hash j) msg) as [d|] eqn:Ed.
  2:{ eexists. split; [apply PS_digest; [exact R|apply digest_none; exact Ed]|]. apply signs_fail. discriminate. }
  apply digest_some in Ed. destruct (e_pk_rsa e q) eqn:Er; cbn [negb].
  2:{ eexists. split; [eapply PS_not_rsa; eauto|]. apply signs_break. }
  change SIGBUF with 4096%N at 1. destruct (N.ltb_spec 4096 (e_rsa_len e q)) as [W|W].
  { eexists. split; [eapply PS_wide; eauto|]. apply signs_break. }
  destruct (e_pss_sign e q (j_hash j) _) as [s|] eqn:Es.
  2:{ eexists. split; [eapply PS_fail; eauto|]. apply signs_fail. discriminate. }
  assert (Nz : (0 < e_bitlen e q / 8)%N) by lia.
  destruct (N.leb_spec (2 ^ p_size_bits p) (4 * (e_bitlen e q / 8))) as [O|O].
  { eexists. split; [eapply PS_size; eauto|]. split; [discriminate|]. right. right. split; [reflexivity|].
    do 2 eexists. split; [reflexivity|]. split; [exact Nz|]. unfold size_mod. lia. }
  destruct (N.leb_spec (e_bitlen e q / 8) 4096) as [B|B].
  - eexists. split; [eapply PS_sign; eauto|]. apply signs_made; [exact Hp|lia|reflexivity].
  - eexists. split; [eapply PS_over; eauto|]. right. split; [reflexivity|]. do 2 eexists. split; [reflexivity|].
    split; [rewrite fit_length, N2Nat.id; exact B|]. unfold size_mod. lia.
Qed.

Lemma es_does curve bits width : j_family j = ES curve bits width ->
  exists o, keyed e k pw pwl (fun q => es_signing e j curve bits width q msg) o /\ signs p (sign_es e ep key kl msg) o.
Proof.
  intros Ef. destruct (es_table ep j curve bits width Hj Ef) as (Hmd & Hes & Hw).
  unfold sign_es. rewrite Hmd. apply keyed_does. intros q.
  destruct (e_can_do e q PK_ECDSA) eqn:Ec; cbn [negb].
  2:{ eexists. split; [apply ES_kind; exact Ec|]. apply signs_fail. discriminate. }
  destruct (e_pk_ec e q) eqn:Eec; cbn [negb].
  2:{ eexists. split; [apply ES_not_ec; auto|]. apply signs_break. }
  destruct (e_ecdsa_from_keypair e q) eqn:Epair; cbn [negb].
  2:{ eexists. split; [apply ES_pair; auto|]. apply signs_fail. discriminate. }
  destruct (e_md e (j_hash j) msg) as [d|] eqn:Ed.
  2:{ eexists. split; [apply ES_digest; auto; apply digest_none; exact Ed|]. apply signs_fail. discriminate. }
  apply digest_some in Ed. rewrite Hes.
  destruct (ecp_group_eqb (e_group e q) curve) eqn:Eg; cbn [negb].
  2:{ eexists. split; [eapply ES_curve; eauto; left; intros E; apply ecp_group_eqb_eq in E; congruence|]. apply signs_fail. discriminate. }
  apply ecp_group_eqb_eq in Eg.
  destruct (N.eqb_spec (e_bitlen e q) bits) as [Eb|Eb]; cbn [negb].
  2:{ eexists. split; [eapply ES_curve; eauto|]. apply signs_fail. discriminate. }
  destruct (e_ecdsa_sign e q _) as [[r s]|] eqn:Es.
  2:{ eexists. split; [eapply ES_fail; eauto|]. apply signs_fail. discriminate. }
  assert (Half : N.to_nat (N.of_nat (2 * width) / 2) = width) by lia. rewrite Half.
  destruct (mpi_write_binary r width) as [br|] eqn:E1.
  2:{ apply mpi_none in E1. eexists. split; [eapply ES_big; eauto|]. apply signs_fail. discriminate. }
  destruct (mpi_write_binary s width) as [bs|] eqn:E2.
  2:{ apply mpi_none in E2. eexists. split; [eapply ES_big; eauto|]. apply signs_fail. discriminate. }
  apply mpi_write_inv in E1 as (L1 & V1). apply mpi_write_inv in E2 as (L2 & V2).
  eexists. split; [apply (ES_sign e j curve bits width q msg _ r s br bs Ec Eec Epair Ed Eg Eb Es L1 V1 L2 V2)|]. apply signs_made; [exact Hp|lia|]. apply fit_exact. rewrite app_length. lia.
Qed.

Lemma ed_does : (0 < ep_secret_key_length ep)%N -> caller_key (ep_secret_key ep) (ep_secret_key_length ep) k ->
  exists o, ed_signing p e k msg o /\ signs p (sign_ed p e ep msg) o.
Proof.
  intros Hn (b & m & Eq & Hm & Ek). unfold sign_ed. destruct (p_eddsa p) eqn:Ee; cbn [negb].
  2:{ eexists. split; [apply ED_unbuilt; exact Ee|]. apply signs_fail. discriminate. }
  rewrite Eq. cbn [deref ubind]. set (n := ep_secret_key_length ep) in *.
  assert (Lk : length k = N.to_nat n) by (rewrite Ek, firstn_length; lia).
  assert (Hx : hmac_key k = without_final_nul k) by reflexivity.
  assert (Lh : length (hmac_key k) = if is_nul (last k x01) then (N.to_nat n - 1)%nat else N.to_nat n).
  { unfold hmac_key. destruct (is_nul (last k x01)); [|exact Lk].
    assert (Hne : k <> []) by (intros ->; simpl in Lk; lia).
    destruct (exists_last Hne) as (k0 & z & E0). rewrite E0, removelast_last. rewrite E0, app_length in Lk. cbn [length] in Lk. lia. }
  assert (Bad : length (hmac_key k) <> 128%nat -> exists o, ed_signing p e k msg o /\ signs p (OK (sig_fail L8W8JWT_WRONG_KEY_TYPE)) o).
  { intros H. eexists. split; [apply ED_key; auto|]. apply signs_fail. discriminate. }
  assert (Hok : exists ok, (if (n =? 128)%N then OK true
          else if (n =? 129)%N then (b <-u read_at m 128 ;; OK (is_nul b)) else OK false) = OK ok
          /\ (ok = false -> length (hmac_key k) <> 128%nat) /\ (ok = true -> n = 128%N \/ (n = 129%N /\ is_nul (last k x01) = true))).
  { destruct (N.eqb_spec n 128) as [E|E]; [exists true; split; [reflexivity|]; split; [discriminate|auto]|].
    destruct (N.eqb_spec n 129) as [E9|E9].
    - rewrite read_at_ok by lia. cbn [ubind].
      assert (El : nth (N.to_nat 128) m x00 = last k x01).
      { assert (Hne : k <> []) by (intros ->; simpl in Lk; lia). destruct (exists_last Hne) as (k0 & z & E0).
        rewrite E0, last_last. rewrite E0 in Lk. rewrite app_length in Lk. cbn [length] in Lk.
        assert (Em : m = (k0 ++ [z]) ++ skipn (N.to_nat n) m) by (rewrite <- E0, Ek, firstn_skipn; reflexivity).
        rewrite Em. rewrite <- app_assoc. rewrite app_nth2 by lia. replace (N.to_nat 128 - length k0)%nat with 0%nat by lia. reflexivity. }
      rewrite El. eexists. split; [reflexivity|]. split; [|auto]. intros X. rewrite Lh, X. lia.
    - exists false. split; [reflexivity|]. split; [|discriminate]. intros _. rewrite Lh. destruct (is_nul _); lia. }
  destruct Hok as (ok & -> & Hf & Ht). cbn [ubind]. destruct ok; cbn [negb]; [|apply Bad; auto]. clear Hf. specialize (Ht eq_refl).
  rewrite hexstr2bin_cases by (rewrite ?repeat_length; lia). rewrite <- Ek, <- Hx.
  destruct (Nat.eqb_spec (length (hmac_key k) mod 2) 0) as [Ev|Ev]; cbn [negb ubind].
  2:{ apply Bad. intros X. rewrite X in Ev. apply Ev. reflexivity. }
  assert (L128 : length (hmac_key k) = 128%nat).
  { rewrite Lh in Ev |- *. destruct Ht as [->|(-> & ->)]; [|reflexivity]. destruct (is_nul (last k x01)); [discriminate Ev|reflexivity]. }
  rewrite L128. change (65 <? N.of_nat (128 / 2) + 1)%N with false. cbv iota.
  destruct (loose_loop p (hmac_key k) [] (repeat x00 65)) as (Hl & Hu); [rewrite L128; cbn; lia|].
  unfold cur_start. rewrite Hl, L128. cbn [ubind negb Z.eqb]. rewrite L128 in Hu. change (128 / 2)%nat with 64%nat in *.
  eexists. split; [apply ED_sign; auto|]. apply signs_made; [exact Hp|lia|].
  assert (F : forall t, firstn 64 (loose_unhex p (hmac_key k) ++ t) = loose_unhex p (hmac_key k)).
  { intros t. rewrite <- Hu at 1. rewrite firstn_app, firstn_all, Nat.sub_diag. apply app_nil_r. }
  unfold cur_buf. cbn [c_done c_rest]. rewrite rev_app_distr, rev_involutive. cbn [rev app].
  rewrite F. apply fit_exact. rewrite fit_length. reflexivity.
Qed.

Lemma sign_does : (0 < ep_secret_key_length ep)%N -> caller_key (ep_secret_key ep) (ep_secret_key_length ep) k ->
  exists o, signing p e j k pw pwl msg o /\ signs p (sign_switch p e ep key kl msg) o.
Proof.
  intros Hn Hk.
  assert (Hf : match j_family j with
               | HS => sign_switch p e ep = sign_hs e (ep_alg ep)
                       /\ md_info_from_alg (ep_alg ep) = Some (j_hash j)
                       /\ Z.to_N (32 + 16 * ep_alg ep) = md_size (j_hash j)
               | RS => sign_switch p e ep = sign_rs e ep /\ md_info_from_alg (ep_alg ep) = Some (j_hash j)
               | PS => sign_switch p e ep = sign_ps e ep /\ md_info_from_alg (ep_alg ep) = Some (j_hash j)
               | ES _ _ _ => sign_switch p e ep = sign_es e ep
               | ED => forall key kl, sign_switch p e ep key kl = sign_ed p e ep
               end).
  { unfold sign_switch. pose proof Hj as [Hin E]. rewrite <- E. simpl in Hin.
    decompose [or] Hin; try contradiction; subst j; simpl; repeat split; reflexivity || lia. }
  unfold signing. destruct (j_family j) as [| | |curve bits width|] eqn:Ef.
  - destruct Hf as (-> & Hmd & Hsz). apply hs_does; auto.
  - destruct Hf as (-> & Hmd). apply rs_does; auto.
  - destruct Hf as (-> & Hmd). apply ps_does; auto.
  - rewrite Hf. apply es_does; auto.
  - rewrite Hf. apply ed_does; auto.
Qed.
End Sign.

(** ** The signature *)
Lemma wsb_does p e sb ep j k w :
  (15 <= p_size_bits p)%N -> allocs w -> grows w -> supported (ep_alg ep) j ->
  caller_key (ep_secret_key ep) (ep_secret_key_length ep) k -> (0 < ep_secret_key_length ep <= 8192)%N ->
  exists o, andthen (seeded e (cb_elems sb)) (fun _ => signing p e j k (ep_secret_key_pw ep) (ep_secret_key_pw_length ep) (cb_elems sb)) o
    /\ appends (write_signature_body p e sb ep w) (fun s _ r => fst r = (L8W8JWT_SUCCESS, grown sb (lit "." ++ b64url s)))
         (fun rc _ r => rc <> L8W8JWT_SUCCESS /\ fst (fst r) = rc) o.
Proof.
  intros Hp A G Hj Hk Hn. unfold write_signature_body.
  pose proof Hk as (b & m & Eq & Hm & Ek).
  assert (Lk : length k = N.to_nat (ep_secret_key_length ep)) by (rewrite Ek, firstn_length; lia).
  unfold mbind at 1. rewrite Eq, load_key_ok by lia. rewrite <- Ek. cbn [lift].
  destruct (adjust_key_eq k (ep_secret_key_length ep) Lk Hn) as (kl & Ha & Ekl & Ht1 & Ht2).
  unfold mbind at 1. rewrite Ha. cbn [lift].
  set (key := k ++ repeat x00 (N.to_nat (L8W8JWT_MAX_KEY_SIZE - ep_secret_key_length ep))) in *. clearbody key.
  destruct (e_seed_ok e) eqn:Es; cbn [negb].
  2:{ exists (Fails 500). split; [apply At_stop; [unfold seeded; rewrite Es; reflexivity|discriminate]|].
      do 2 eexists. split; [reflexivity|]. split; [discriminate|reflexivity]. }
  assert (Lp : N.of_nat (length (pem_text k)) = kl).
  { rewrite Ekl. unfold pem_text. destruct (is_nul (last k x01)); [|rewrite app_length; cbn [length]]; lia. }
  rewrite <- Lp in Ht2. rewrite Lp in Ht2 at 1.
  destruct (sign_does p e ep k (cb_elems sb) j kl key Hp Hj Ht1 Ht2) as (o & S & R); [lia|exact Hk|].
  exists o. split.
  - eapply At_go; [unfold seeded; rewrite Es; reflexivity|exact S].
  - exact (finish_does p sb _ o w Hp A G R).
Qed.

Lemma ws_does p e sb ep j k w :
  (15 <= p_size_bits p)%N -> wf w -> allocs w -> grows w -> supported (ep_alg ep) j ->
  caller_key (ep_secret_key ep) (ep_secret_key_length ep) k -> (0 < ep_secret_key_length ep <= 8192)%N ->
  exists o, andthen (seeded e (cb_elems sb)) (fun _ => signing p e j k (ep_secret_key_pw ep) (ep_secret_key_pw_length ep) (cb_elems sb)) o
    /\ appends (write_signature p e sb ep w) (fun s _ r => r = (L8W8JWT_SUCCESS, grown sb (lit "." ++ b64url s)))
         (fun rc _ r => rc <> L8W8JWT_SUCCESS /\ fst r = rc) o.
Proof.
  intros Hp Hwf A G Hj Hk Hn. unfold write_signature.
  assert (Hfree : forall w rc sb' sg w1, wf w -> write_signature_body p e sb ep w = Ret (rc, sb', sg) w1 ->
            exists w2, free sg w1 = Ret tt w2 /\ quiet w w2).
  { clear -Hp. intros w rc sb' sg w1 Hwf H. apply wsb_inv in H; [|lia|auto].
    destruct H as [(_ & _ & -> & Q)|(_ & _ & Q & (m & ->) & _)].
    - exists w1. split; [reflexivity|exact Q].
    - exists (w_free w1 (w_next w)). cbn [free]. split; [|apply quiet_alloc_free; auto].
      apply free_id_eq. eapply quiet_live; [exact Q|]. cbn. apply upd_live_same. }
  destruct (p_small_stack p) eqn:Es.
  - unfold mbind at 1. rewrite calloc_eq, A. unfold mbind at 1.
    rewrite calloc_eq. change (w_alloc (w_ok w)) with (w_alloc w). rewrite A. cbn [is_null orb].
    assert (A2 : allocs (w_ok (w_ok w))) by (eapply allocs_later; [eapply later_trans; apply later_ok|exact A]).
    assert (G2 : grows (w_ok (w_ok w))) by (eapply grows_later; [eapply later_trans; apply later_ok|exact G]).
    destruct (wsb_does p e sb ep j k (w_ok (w_ok w)) Hp A2 G2 Hj Hk Hn) as (o & S & R). exists o. split; [exact S|].
    assert (Rest : forall rc sb' sg w1, write_signature_body p e sb ep (w_ok (w_ok w)) = Ret (rc, sb', sg) w1 ->
      exists w', (_ <- zeroize (Ptr (Some (w_next (w_ok w))) (repeat x00 (N.to_nat L8W8JWT_MAX_KEY_SIZE))) L8W8JWT_MAX_KEY_SIZE ;;
        _ <- free sg ;; _ <- free (Ptr (Some (w_next (w_ok w))) (repeat x00 (N.to_nat L8W8JWT_MAX_KEY_SIZE))) ;;
        _ <- free (Ptr (Some (w_next w)) (repeat x00 (N.to_nat SIGBUF))) ;; mret (rc, sb')) w1 = Ret (rc, sb') w').
    { intros rc sb' sg w1 H1. destruct (Hfree _ _ _ _ _ (wf_ok _ (wf_ok _ Hwf)) H1) as (w2 & H2 & Q).
      unfold mbind at 1. unfold zeroize.
      replace (negb _) with false by (rewrite repeat_length; symmetry; apply negb_false_iff, N.leb_le; lia).
      assert (L1 : w_live w1 (w_next (w_ok w)) = true).
      { apply wsb_inv in H1; [|lia|auto using wf_ok].
        destruct H1 as [(_ & _ & _ & Q1)|(_ & _ & Q1 & _)]; eapply quiet_live; try exact Q1.
        - cbn. apply upd_live_same.
        - cbn. unfold upd_live. rewrite Nat.eqb_refl. destruct (Nat.eqb _ _); reflexivity. }
      rewrite L1. mstep H2.
      cbn [free]. unfold mbind at 1. rewrite free_id_eq.
      2:{ eapply quiet_live; [exact Q|]. cbn. apply upd_live_same. }
      unfold mbind at 1. rewrite free_id_eq.
      2:{ cbn [w_free w_live]. rewrite upd_live_other by (cbn; lia).
          eapply quiet_live; [exact Q|]. cbn [w_ok w_live w_next]. rewrite upd_live_other by lia.
          apply upd_live_same. }
      eexists. reflexivity. }
    destruct o as [s|rc|u]; cbn [appends] in R |- *.
    + destruct R as (((rc & sb') & sg) & w1 & H & E). cbn [fst] in E. injection E as -> ->. mstep H.
      destruct (Rest _ _ _ _ H) as (w' & K). do 2 eexists. split; [exact K|reflexivity].
    + destruct R as (((rc' & sb') & sg) & w1 & H & Nz & E). cbn [fst] in E. subst rc'. mstep H.
      destruct (Rest _ _ _ _ H) as (w' & K). do 2 eexists. split; [exact K|]. auto.
    + unfold mbind at 1. rewrite R. reflexivity.
  - destruct (wsb_does p e sb ep j k w Hp A G Hj Hk Hn) as (o & S & R). exists o. split; [exact S|].
    destruct o as [s|rc|u]; cbn [appends] in R |- *.
    + destruct R as (((rc & sb') & sg) & w1 & H & E). cbn [fst] in E. injection E as -> ->.
      destruct (Hfree _ _ _ _ _ Hwf H) as (w2 & H2 & Q). mstep H. mstep H2. do 2 eexists. split; reflexivity.
    + destruct R as (((rc' & sb') & sg) & w1 & H & Nz & E). cbn [fst] in E. subst rc'.
      destruct (Hfree _ _ _ _ _ Hwf H) as (w2 & H2 & Q). mstep H. mstep H2. do 2 eexists. split; [reflexivity|]. auto.
    + unfold mbind at 1. rewrite R. reflexivity.
Qed.

(** ** The token *)
Lemma checked ep : l8w8jwt_validate_encoding_params (Some ep) <> L8W8JWT_SUCCESS
    /\ ((null_args ep /\ l8w8jwt_validate_encoding_params (Some ep) = 100%Z) \/ (~ null_args ep /\ bad_args ep /\ l8w8jwt_validate_encoding_params (Some ep) = 200%Z))
  \/ l8w8jwt_validate_encoding_params (Some ep) = L8W8JWT_SUCCESS /\ ~ null_args ep /\ ~ bad_args ep.
Proof.
  unfold l8w8jwt_validate_encoding_params, null_args, bad_args. change L8W8JWT_MAX_KEY_SIZE with 8192%N.
  assert (Kn : is_null (ep_secret_key ep) = true <-> ep_secret_key ep = Null) by (destruct (ep_secret_key ep); cbn; split; congruence).
  assert (Pn : is_cnull (ep_payload_claims ep) = true <-> ep_payload_claims ep = CNull) by (destruct (ep_payload_claims ep); cbn; split; congruence).
  assert (Hn : is_cnull (ep_header_claims ep) = true <-> ep_header_claims ep = CNull) by (destruct (ep_header_claims ep); cbn; split; congruence).
  destruct (is_null (ep_secret_key ep) || negb (ep_out_nn ep) || negb (ep_out_length_nn ep)) eqn:E1.
  { left. split; [discriminate|]. left. split; [|reflexivity]. apply orb_true_iff in E1 as [E1|E1]; [apply orb_true_iff in E1 as [E1|E1]|].
    - left. apply Kn, E1.
    - right. left. apply negb_true_iff, E1.
    - right. right. apply negb_true_iff, E1. }
  assert (NN : ~ (ep_secret_key ep = Null \/ ep_out_nn ep = false \/ ep_out_length_nn ep = false)).
  { apply orb_false_iff in E1 as [E1 E3]. apply orb_false_iff in E1 as [E1 E2]. apply negb_false_iff in E2, E3.
    intros [H|[H|H]]; [apply Kn in H|..]; congruence. }
  destruct ((ep_secret_key_length ep =? 0)%N || (8192 <? ep_secret_key_length ep)%N) eqn:E2.
  { left. split; [discriminate|]. right. split; [exact NN|]. split; [|reflexivity]. lia. }
  destruct (negb (is_cnull (ep_payload_claims ep)) && (ep_payload_claims_count ep =? 0)%N) eqn:E3.
  { left. split; [discriminate|]. right. split; [exact NN|]. split; [|reflexivity]. right. right. left.
    apply andb_true_iff in E3 as [E3 E4]. split; [intros H; apply Pn in H; rewrite H in E3; discriminate|lia]. }
  destruct (negb (is_cnull (ep_header_claims ep)) && (ep_header_claims_count ep =? 0)%N) eqn:E4.
  { left. split; [discriminate|]. right. split; [exact NN|]. split; [|reflexivity]. right. right. right.
    apply andb_true_iff in E4 as [E4 E5]. split; [intros H; apply Hn in H; rewrite H in E4; discriminate|lia]. }
  right. split; [reflexivity|]. split; [exact NN|]. intros [H|[H|[(H & H')|(H & H')]]]; [lia|lia|..].
  - rewrite H' in E3. destruct (is_cnull (ep_payload_claims ep)); [apply H, Pn; reflexivity|discriminate E3].
  - rewrite H' in E4. destruct (is_cnull (ep_header_claims ep)); [apply H, Hn; reflexivity|discriminate E4].
Qed.

Lemma encode_does p e ep w :
  (15 <= p_size_bits p)%N -> wf w -> allocs w -> grows w -> enc_given ep ->
  exists o, encoding p e ep o
    /\ appends (l8w8jwt_encode p e (Some ep) w)
         (fun t _ r => exists id, r = EncRes L8W8JWT_SUCCESS (Some (Ptr (Some id) (t ++ [x00]))) (Some (N.of_nat (length t))))
         (fun rc _ r => rc <> L8W8JWT_SUCCESS /\ r = EncRes rc None None) o.
Proof.
  intros Hp Hwf A G Hr. unfold l8w8jwt_encode.
  destruct (checked ep) as [(Nz & C)|(Ev & Nn & Nb)].
  { destruct (Z.eqb_spec (l8w8jwt_validate_encoding_params (Some ep)) L8W8JWT_SUCCESS) as [E|_]; [contradiction|]. cbn [negb].
    exists (Fails (l8w8jwt_validate_encoding_params (Some ep))). split.
    - destruct C as [(N & ->)|(N & B & ->)]; [apply En_null; exact N|apply En_bad; auto].
    - do 2 eexists. split; [reflexivity|]. split; [exact Nz|reflexivity]. }
  rewrite Ev. cbn [negb Z.eqb L8W8JWT_SUCCESS].
  assert (Hk : exists k, caller_key (ep_secret_key ep) (ep_secret_key_length ep) k).
  { destruct Hr as (_ & _ & _ & _ & _ & _ & [H|H]); [|exact H]. destruct Nn. left. exact H. }
  destruct Hk as (k & Hk).
  assert (Hn : (0 < ep_secret_key_length ep <= 8192)%N) by (unfold bad_args in Nb; lia).
  unfold mbind at 1. rewrite cb_init_eq, A. pose proof (wf_ok _ Hwf) as W1.
  assert (A1 : allocs (w_ok w)) by (eapply allocs_later; [apply later_ok|exact A]).
  assert (G1 : grows (w_ok w)) by (eapply grows_later; [apply later_ok|exact G]).
  assert (L : w_live (w_ok w) (w_next w) = true) by (cbn; apply upd_live_same).
  assert (Hfree : forall (sb' : chillbuff byte) w' (res : enc_res), cb_id sb' = w_next w -> w_live w' (w_next w) = true ->
            exists w'', (_ <- cb_free sb' ;; mret res) w' = Ret res w'').
  { intros sb' w' res I Lv. unfold cb_free. rewrite I. unfold mbind. rewrite free_id_eq by exact Lv. eexists. reflexivity. }
  destruct (Z_le_dec 0 (ep_alg ep)) as [R0|R0]; [destruct (Z_le_dec (ep_alg ep) 13) as [R1|R1]|].
  2,3: assert (Ns : forall j, ~ supported (ep_alg ep) j) by (intros j Hj; apply supported_range in Hj; lia);
    exists (Fails 200); split; [apply En_alg; auto|]; unfold encode_body;
    assert (E : exists w', write_header_and_payload p (CB (w_next w) []) ep (w_ok w) = Ret (L8W8JWT_INVALID_ARG, CB (w_next w) []) w' /\ w_live w' (w_next w) = true);
    [unfold write_header_and_payload, mbind at 1; rewrite cb_init_eq, A1, header_prefix_none by lia; unfold cb_free, mbind; cbn [cb_id];
     rewrite free_id_eq by (cbn; apply upd_live_same); eexists; split; [reflexivity|]; cbn [w_free w_live w_ok w_next]; rewrite !upd_live_other by lia; apply upd_live_same|];
    destruct E as (w' & E & Lw); unfold mbind at 1; mstep E; cbn [negb Z.eqb L8W8JWT_SUCCESS L8W8JWT_INVALID_ARG mret];
    destruct (Hfree (CB (w_next w) []) w' (EncRes L8W8JWT_INVALID_ARG None None) eq_refl Lw) as (w'' & K);
    do 2 eexists; split; [exact K|]; split; [discriminate|reflexivity].
  destruct (supported_exists (ep_alg ep)) as (j & Hj); [lia|].
  destruct (whp_does p (CB (w_next w) []) ep j (w_ok w)) as (o1 & T & D); [lia|auto..|].
  unfold encode_body.
  destruct o1 as [t|rc|u]; cbn [appends] in D.
  2:{ destruct D as ((rc' & sb1) & w1 & D & Nz & E). cbn [fst] in E. subst rc'.
      exists (Fails rc). split; [eapply En_go; eauto; apply At_stop; [exact T|discriminate]|]. unfold mbind at 1. mstep D.
      apply whp_inv in D as (Q & I & _); [|lia|auto]. destruct (Z.eqb_spec rc L8W8JWT_SUCCESS) as [E|_]; [contradiction|]. cbn [negb mret].
      destruct (Hfree sb1 w1 (EncRes rc None None) I (quiet_live _ _ _ Q L)) as (w'' & K).
      do 2 eexists. split; [exact K|]. auto. }
  2:{ exists (Breaks u). split; [eapply En_go; eauto; apply At_stop; [exact T|discriminate]|]. unfold mbind at 1. unfold mbind at 1. cbn [appends]. rewrite D. reflexivity. }
  destruct D as (r1 & w1 & D & ->). unfold mbind at 1. mstep D. apply whp_inv in D as (Q & _ & _); [|lia|auto].
  cbn [negb Z.eqb L8W8JWT_SUCCESS]. unfold grown. cbn [cb_id cb_elems app].
  destruct (Z.eqb_spec (ep_alg ep) (-1)) as [E|_]; [lia|]. cbn [negb].
  assert (W2 : wf w1) by (eapply wf_quiet; eauto).
  destruct (ws_does p e (CB (w_next w) t) ep j k w1 Hp W2) as (o2 & S & D); auto;
    [eapply allocs_later; [apply quiet_later, Q|exact A1]|eapply grows_later; [apply quiet_later, Q|exact G1]|].
  cbn [cb_elems] in S.
  destruct o2 as [s|rc|u]; cbn [appends] in D.
  2:{ destruct D as ((rc' & sb1) & w2 & D & Nz & E). cbn [fst] in E. subst rc'.
      exists (Fails rc). split.
      { eapply En_go; eauto. eapply At_go; [exact T|]. inversion S as [o' S1 S2|m o' S1 S2]; subst; [apply At_stop; [exact S1|discriminate]|].
        eapply At_go; [exact S1|]. apply At_stop; [exact S2|discriminate]. }
      mstep D. apply ws_inv in D as (Q2 & I & _); [|lia|auto]. destruct (Z.eqb_spec rc L8W8JWT_SUCCESS) as [E|_]; [contradiction|]. cbn [negb mret].
      destruct (Hfree sb1 w2 (EncRes rc None None) I (quiet_live _ _ _ (quiet_trans _ _ _ Q Q2) L)) as (w'' & K).
      do 2 eexists. split; [exact K|]. auto. }
  2:{ exists (Breaks u). split.
      { eapply En_go; eauto. eapply At_go; [exact T|]. inversion S as [o' S1 S2|m o' S1 S2]; subst; [apply At_stop; [exact S1|discriminate]|].
        eapply At_go; [exact S1|]. apply At_stop; [exact S2|discriminate]. }
      unfold mbind at 1. cbn [appends]. rewrite D. reflexivity. }
  destruct D as (r2 & w2 & D & ->). mstep D. apply ws_inv in D as (Q2 & _ & _); [|lia|auto]. unfold grown. cbn [cb_id cb_elems].
  cbn [negb Z.eqb L8W8JWT_SUCCESS].
  exists (Made (t ++ lit "." ++ b64url s)). split.
  { eapply En_go; eauto. eapply At_go; [exact T|]. inversion S as [o' S1 S2|m o' S1 S2]; subst; [destruct (S2 s); reflexivity|].
    eapply At_go; [exact S1|]. eapply At_go; [exact S2|]. reflexivity. }
  set (tok := t ++ lit "." ++ b64url s). clearbody tok.
  destruct (write_token_total (CB (w_next w) tok) w2) as (res & w3 & K). mstep K.
  assert (A2 : allocs w2) by (exact (allocs_later _ _ (quiet_later _ _ (quiet_trans _ _ _ Q Q2)) A1)).
  apply write_token_inv in K as [(_ & F & _)|(-> & _ & ->)]; [rewrite A2 in F; discriminate|].
  cbn [mret].
  match goal with |- context [mret ?r] => destruct (Hfree (CB (w_next w) tok) (w_ok w2) r eq_refl) as (w'' & K) end.
  { cbn [w_ok w_live]. unfold upd_live at 1. destruct (Nat.eqb _ _); [reflexivity|]. eapply quiet_live; [|exact L]. eapply quiet_trans; eauto. }
  do 2 eexists. split; [exact K|]. exists (w_next w2). reflexivity.
Qed.
