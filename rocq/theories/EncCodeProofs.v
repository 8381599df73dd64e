(** * Lemmas: which event makes which return code of encoding *)
From Verif Require Import Base BaseProofs HeapProofs Util UtilProofs Claim Base64 SpecB64
  Base64EncProofs Base64EncApi Base64DecProofs Base64Api Jsmn Env Encode Decode SpecJson SpecJwa ClaimProofs UnescapeProofs
  EncodeProofs SignProofs EncodeTotal SpecEnc JsonProofs PropEncode DecodeProofs DecodeInv JsmnProofs ParseProofs
  PropClaim ReadProofs ValidateProofs JsmnJson JsmnSize PropVerify PropValidate PropLeak PropJson DecodeTotal CodeProofs.
From Coq Require Import ZifyBool ZifyNat ZifyN.
Ltac Zify.zify_post_hook ::= Z.div_mod_to_equations.
Local Opaque L8W8JWT_MAX_KEY_SIZE.

Lemma later_fwd w w' : later w w' -> fwd w w'.
Proof. intros (E & _ & _ & L & _). split; auto. Qed.
Lemma quiet_fwd w w' : quiet w w' -> fwd w w'.
Proof. intros [H _]. apply later_fwd, H. Qed.

(** ** Keys and signatures *)
(** A parsed private key fits the algorithm. *)
Definition key_fits (e : env) (jw : jwa) (pk : pk) : Prop :=
  match j_family jw with
  | RS => (e_can_do e pk PK_RSA = true \/ e_can_do e pk PK_RSA_ALT = true) /\ (2048 <= e_bitlen e pk)%N
  | PS => e_can_do e pk PK_RSASSA_PSS = true /\ (2048 <= e_bitlen e pk)%N
  | ES curve bits _ => e_can_do e pk PK_ECDSA = true /\ e_group e pk = curve /\ e_bitlen e pk = bits
  | HS | ED => True
  end.
(** The backend produces no (usable) signature of the digest [d]. *)
Definition no_signature (e : env) (jw : jwa) (pk : pk) (d : bytes) : Prop :=
  match j_family jw with
  | RS => forall s, e_pk_sign e pk (j_hash jw) d = Some s -> s = []
  | PS => e_pss_sign e pk (j_hash jw) d = None
  | ES _ _ width => forall r s, e_ecdsa_sign e pk d = Some (r, s) ->
      (256 ^ N.of_nat width <= r)%N \/ (256 ^ N.of_nat width <= s)%N
  | HS | ED => False
  end.
Inductive sign_cause (p : platform) (e : env) (jw : jwa) (k : bytes) (pw : ptr) (pwl : N) (msg : bytes) : Z -> Prop :=
| SC_no_eddsa : j_family jw = ED -> p_eddsa p = false -> sign_cause p e jw k pw pwl msg 800
| SC_ed_key : j_family jw = ED -> length (hmac_key k) <> 128%nat -> sign_cause p e jw k pw pwl msg 450
| SC_hmac : j_family jw = HS -> e_hmac e (j_hash jw) (hmac_key k) msg = None -> sign_cause p e jw k pw pwl msg 400
| SC_parse : j_family jw <> HS -> j_family jw <> ED -> e_parse_key e (pem_text k) pw pwl = None ->
    sign_cause p e jw k pw pwl msg 420
| SC_keypair pk c b n : j_family jw = ES c b n -> e_parse_key e (pem_text k) pw pwl = Some pk ->
    e_ecdsa_from_keypair e pk = false -> sign_cause p e jw k pw pwl msg 420
| SC_kind pk : j_family jw <> HS -> j_family jw <> ED -> e_parse_key e (pem_text k) pw pwl = Some pk -> ~ key_fits e jw pk ->
    sign_cause p e jw k pw pwl msg 450
| SC_digest : j_family jw <> HS -> j_family jw <> ED -> e_md e (j_hash jw) msg = None -> sign_cause p e jw k pw pwl msg 410
| SC_sign pk d : e_parse_key e (pem_text k) pw pwl = Some pk -> e_md e (j_hash jw) msg = Some d ->
    no_signature e jw pk (fit (md_size (j_hash jw)) d) -> sign_cause p e jw k pw pwl msg 400
| SC_overlong pk : j_family jw = PS -> e_parse_key e (pem_text k) pw pwl = Some pk ->
    (size_mod p <= 4 * (e_bitlen e pk / 8))%N -> sign_cause p e jw k pw pwl msg 425.

Section Sign.
Variables (p : platform) (e : env) (ep : enc_params) (k : bytes) (n : N) (msg : bytes).
Hypothesis (Hk : length k = N.to_nat n) (Hn : (0 < n <= 8192)%N).
Let key := k ++ repeat x00 (N.to_nat (L8W8JWT_MAX_KEY_SIZE - n)).
Let cause jw := sign_cause p e jw k (ep_secret_key_pw ep) (ep_secret_key_pw_length ep) msg.
(** The switch ends with an error, or with a signature of no bytes. *)
Let failed jw (m : U sig_or_err) := forall rc buf len, m = OK (rc, buf, len) -> (rc <> 0%Z /\ cause jw rc) \/ (rc = 0%Z /\ (len = 0%N -> cause jw 400%Z) /\ (len <= 4096)%N /\ length buf = 4096%nat).

Ltac ok H := injection H as <- <- <-.
Lemma sign_hs_code jw kl :
  supported (ep_alg ep) jw -> j_family jw = HS -> adjust_key_length key n = OK kl ->
  failed jw (sign_hs e (ep_alg ep) key kl msg).
Proof.
  intros Hj Hf Ha rc buf len H. destruct (adjust_key_eq k n Hk Hn) as (kl' & Ha' & _ & Ht & _).
  fold key in Ha', Ht. rewrite Ha in Ha'. injection Ha' as <-.
  assert (Hmd : md_info_from_alg (ep_alg ep) = Some (j_hash jw)
                /\ Z.to_N (32 + 16 * ep_alg ep) = md_size (j_hash jw)).
  { destruct Hj as [Hin <-]. simpl in Hin.
    decompose [or] Hin; try contradiction; subst; try discriminate Hf; split; reflexivity. }
  destruct Hmd as [Hmd Hsz]. unfold sign_hs in H. rewrite Hmd in H.
  apply ubind_inv in H as (k' & Ht' & H). rewrite Ht in Ht'. injection Ht' as <-.
  destruct (e_hmac e (j_hash jw) (hmac_key k) msg) as [mac|] eqn:Em.
  - rewrite Hsz in H. ok H. right. split; [reflexivity|]. rewrite fit_length. unfold SIGBUF.
    destruct (j_hash jw); cbn; (split; [discriminate|lia]).
  - ok H. left. split; [discriminate|]. apply SC_hmac; auto.
Qed.
Lemma hash_rs jw : supported (ep_alg ep) jw -> j_family jw <> HS -> j_family jw <> ED -> md_info_from_alg (ep_alg ep) = Some (j_hash jw).
Proof.
  intros [Hin <-] N1 N2. simpl in Hin. decompose [or] Hin; try contradiction; subst; try (exfalso; first [now apply N1|now apply N2]); reflexivity.
Qed.
Lemma sign_rs_code jw kl :
  supported (ep_alg ep) jw -> j_family jw = RS -> adjust_key_length key n = OK kl ->
  failed jw (sign_rs e ep key kl msg).
Proof.
  intros Hj Hf Ha rc buf len H. destruct (adjust_key_eq k n Hk Hn) as (kl' & Ha' & _ & _ & Ht).
  fold key in Ha', Ht. rewrite Ha in Ha'. injection Ha' as <-.
  assert (F1 : j_family jw <> HS) by (rewrite Hf; discriminate). assert (F2 : j_family jw <> ED) by (rewrite Hf; discriminate).
  unfold sign_rs in H. rewrite (hash_rs jw Hj F1 F2) in H.
  apply ubind_inv in H as (k' & Ht' & H). rewrite Ht in Ht'.
  destruct (kl <=? 8192)%N; [|discriminate]. injection Ht' as <-.
  destruct (e_parse_key e (pem_text k) _ _) as [pk|] eqn:Ek.
  2:{ ok H. left. split; [discriminate|]. apply SC_parse; auto. }
  destruct (negb (e_can_do e pk PK_RSA) && negb (e_can_do e pk PK_RSA_ALT)) eqn:Ec.
  { ok H. left. split; [discriminate|]. apply (SC_kind _ _ _ _ _ _ _ pk); auto. unfold key_fits. rewrite Hf.
    intros ([C|C] & _); rewrite C in Ec; [discriminate Ec|]. rewrite andb_false_r in Ec. discriminate Ec. }
  destruct (N.ltb_spec (e_bitlen e pk) 2048) as [Hb|Hb].
  { ok H. left. split; [discriminate|]. apply (SC_kind _ _ _ _ _ _ _ pk); auto. unfold key_fits. rewrite Hf. intros (_ & C). lia. }
  destruct (e_md e (j_hash jw) msg) as [d|] eqn:Ed.
  2:{ ok H. left. split; [discriminate|]. apply SC_digest; auto. }
  destruct (e_pk_sign e pk (j_hash jw) (fit (md_size (j_hash jw)) d)) as [s|] eqn:Es.
  - set (s' := firstn (N.to_nat SIGBUF) s) in *. ok H.
    right. split; [reflexivity|]. rewrite fit_length. split; [|split; [unfold s', SIGBUF; rewrite firstn_length; lia|unfold SIGBUF; lia]].
    intros E. apply (SC_sign _ _ _ _ _ _ _ pk d); auto. unfold no_signature. rewrite Hf. intros s2 E2. rewrite Es in E2. injection E2 as <-.
    unfold s' in E. destruct s as [|c s]; [reflexivity|]. exfalso. rewrite firstn_length in E. cbn [length] in E. unfold SIGBUF in E. lia.
  - ok H. left. split; [discriminate|]. apply (SC_sign _ _ _ _ _ _ _ pk d); auto. unfold no_signature. rewrite Hf.
    intros s C. congruence.
Qed.
Lemma sign_ps_code jw kl :
  supported (ep_alg ep) jw -> j_family jw = PS -> adjust_key_length key n = OK kl ->
  forall rc buf len, sign_ps e ep key kl msg = OK (rc, buf, len) ->
  (rc <> 0%Z /\ cause jw rc) \/ (rc = 0%Z /\ len <> 0%N /\ ((size_mod p <= len * 4)%N -> cause jw 425%Z) /\ length buf = 4096%nat).
Proof.
  intros Hj Hf Ha rc buf len H. destruct (adjust_key_eq k n Hk Hn) as (kl' & Ha' & _ & _ & Ht).
  fold key in Ha', Ht. rewrite Ha in Ha'. injection Ha' as <-.
  assert (F1 : j_family jw <> HS) by (rewrite Hf; discriminate). assert (F2 : j_family jw <> ED) by (rewrite Hf; discriminate).
  unfold sign_ps in H. rewrite (hash_rs jw Hj F1 F2) in H.
  apply ubind_inv in H as (k' & Ht' & H). rewrite Ht in Ht'.
  destruct (kl <=? 8192)%N; [|discriminate]. injection Ht' as <-.
  destruct (e_parse_key e (pem_text k) _ _) as [pk|] eqn:Ek.
  2:{ ok H. left. split; [discriminate|]. apply SC_parse; auto. }
  destruct (e_can_do e pk PK_RSASSA_PSS) eqn:Ec; cbn [negb] in H.
  2:{ ok H. left. split; [discriminate|]. apply (SC_kind _ _ _ _ _ _ _ pk); auto. unfold key_fits. rewrite Hf. intros (C & _). congruence. }
  destruct (N.ltb_spec (e_bitlen e pk) 2048) as [Hb|Hb].
  { ok H. left. split; [discriminate|]. apply (SC_kind _ _ _ _ _ _ _ pk); auto. unfold key_fits. rewrite Hf. intros (_ & C). lia. }
  destruct (e_md e (j_hash jw) msg) as [d|] eqn:Ed.
  2:{ ok H. left. split; [discriminate|]. apply SC_digest; auto. }
  destruct (e_pk_rsa e pk) eqn:Er; [|discriminate]. cbn [negb] in H.
  destruct (N.ltb_spec SIGBUF (e_rsa_len e pk)) as [Hr|Hr]; [discriminate|].
  destruct (e_pss_sign e pk (j_hash jw) (fit (md_size (j_hash jw)) d)) as [s|] eqn:Es.
  - ok H. right. split; [reflexivity|]. rewrite fit_length. split; [lia|]. split; [|unfold SIGBUF; lia].
    intros C. apply (SC_overlong _ _ _ _ _ _ _ pk); auto. lia.
  - ok H. left. split; [discriminate|]. apply (SC_sign _ _ _ _ _ _ _ pk d); auto. unfold no_signature. rewrite Hf. exact Es.
Qed.
Lemma sign_es_code jw curve bits width kl :
  supported (ep_alg ep) jw -> j_family jw = ES curve bits width -> adjust_key_length key n = OK kl ->
  failed jw (sign_es e ep key kl msg).
Proof.
  intros Hj Hf Ha rc buf len H. destruct (adjust_key_eq k n Hk Hn) as (kl' & Ha' & _ & _ & Ht).
  fold key in Ha', Ht. rewrite Ha in Ha'. injection Ha' as <-.
  assert (F1 : j_family jw <> HS) by (rewrite Hf; discriminate). assert (F2 : j_family jw <> ED) by (rewrite Hf; discriminate).
  destruct (es_table _ _ _ _ _ Hj Hf) as (Hmd & Hes & Hw).
  unfold sign_es in H. rewrite Hmd in H.
  apply ubind_inv in H as (k' & Ht' & H). rewrite Ht in Ht'.
  destruct (kl <=? 8192)%N; [|discriminate]. injection Ht' as <-.
  destruct (e_parse_key e (pem_text k) _ _) as [pk|] eqn:Ek.
  2:{ ok H. left. split; [discriminate|]. apply SC_parse; auto. }
  assert (Kind : ~ key_fits e jw pk -> cause jw 450%Z) by (intros; apply (SC_kind _ _ _ _ _ _ _ pk); auto).
  unfold key_fits in Kind. rewrite Hf in Kind.
  destruct (e_can_do e pk PK_ECDSA) eqn:Ec; cbn [negb] in H.
  2:{ ok H. left. split; [discriminate|]. apply Kind. intros (C & _). congruence. }
  destruct (e_pk_ec e pk) eqn:Er; [|discriminate]. cbn [negb] in H.
  destruct (e_ecdsa_from_keypair e pk) eqn:Ep; cbn [negb] in H.
  2:{ ok H. left. split; [discriminate|]. eapply SC_keypair; eauto. }
  destruct (e_md e (j_hash jw) msg) as [d|] eqn:Ed.
  2:{ ok H. left. split; [discriminate|]. apply SC_digest; auto. }
  rewrite Hes in H.
  destruct (ecp_group_eqb (e_group e pk) curve) eqn:Eg; cbn [negb] in H.
  2:{ ok H. left. split; [discriminate|]. apply Kind. intros (_ & C & _). rewrite C in Eg. destruct curve; discriminate Eg. }
  destruct (N.eqb_spec (e_bitlen e pk) bits) as [Eb|Eb]; cbn [negb] in H.
  2:{ ok H. left. split; [discriminate|]. apply Kind. intros (_ & _ & C). contradiction. }
  assert (Sig : no_signature e jw pk (fit (md_size (j_hash jw)) d) -> cause jw 400%Z) by (intros; apply (SC_sign _ _ _ _ _ _ _ pk d); auto).
  unfold no_signature in Sig. rewrite Hf in Sig.
  destruct (e_ecdsa_sign e pk (fit (md_size (j_hash jw)) d)) as [[r s]|] eqn:Es.
  2:{ ok H. left. split; [discriminate|]. apply Sig. intros r s C. congruence. }
  replace (N.to_nat (N.of_nat (2 * width) / 2)) with width in H by lia.
  unfold mpi_write_binary in H.
  destruct (N.ltb_spec r (256 ^ N.of_nat width)) as [Lr|Lr].
  2:{ ok H. left. split; [discriminate|]. apply Sig. intros r2 s2 C. injection C as <- <-. left. exact Lr. }
  destruct (N.ltb_spec s (256 ^ N.of_nat width)) as [Ls|Ls].
  2:{ ok H. left. split; [discriminate|]. apply Sig. intros r2 s2 C. injection C as <- <-. right. exact Ls. }
  injection H as <- <- <-. right. split; [reflexivity|]. rewrite fit_length. unfold SIGBUF. split; [lia|]. split; lia.
Qed.
Lemma sign_ed_code jw b m :
  ep_secret_key ep = Ptr b m -> ep_secret_key_length ep = n -> (n <= N.of_nat (length m))%N -> k = firstn (N.to_nat n) m ->
  j_family jw = ED -> failed jw (sign_ed p e ep msg).
Proof.
  intros Ek En Hm Hkm Hf rc buf len H. unfold sign_ed in H. rewrite Ek, En in H.
  destruct (p_eddsa p) eqn:Ed; cbn [negb deref ubind] in H.
  2:{ ok H. left. split; [discriminate|]. apply SC_no_eddsa; auto. }
  apply ubind_inv in H as (ok & Hok & H).
  assert (Hne : k <> []) by (intros E; rewrite E in Hk; simpl in Hk; lia).
  destruct (exists_last Hne) as (k0 & z & E0).
  assert (L : length k = (length k0 + 1)%nat) by (rewrite E0, app_length; reflexivity).
  assert (HL : length (hmac_key k) = if is_nul z then length k0 else length k).
  { unfold hmac_key. rewrite E0. rewrite last_last, removelast_last. destruct (is_nul z); reflexivity. }
  destruct ok; cbn [negb] in H.
  2:{ ok H. left. split; [discriminate|]. apply SC_ed_key; auto. rewrite HL.
      destruct (N.eqb_spec n 128); [discriminate|]. destruct (N.eqb_spec n 129) as [E9|E9]; [|destruct (is_nul z); lia].
      apply ubind_inv in Hok as (z' & Hz & Hok). apply read_at_inv in Hz as [Hl ->].
      assert (Ez : nth (N.to_nat 128) m x00 = z).
      { rewrite <- (firstn_skipn (N.to_nat 129) m), <- E9, <- Hkm, E0, <- app_assoc, app_nth2 by lia.
        replace (N.to_nat 128 - length k0)%nat with 0%nat by lia. reflexivity. }
      rewrite Ez in Hok. injection Hok as Hok. rewrite Hok. lia. }
  rewrite hexstr2bin_cases in H by (rewrite ?repeat_length; lia). rewrite <- Hkm in H.
  assert (Hnul : without_final_nul k = hmac_key k) by reflexivity. rewrite Hnul in H.
  destruct (Nat.eqb_spec (length (hmac_key k) mod 2) 0) as [Ev|Ev]; cbn [negb] in H.
  2:{ ok H. left. split; [discriminate|]. apply SC_ed_key; auto. intros C. rewrite C in Ev. now apply Ev. }
  destruct (N.ltb_spec 65 (N.of_nat (length (hmac_key k) / 2) + 1)) as [Hs|Hs].
  { ok H. left. split; [discriminate|]. apply SC_ed_key; auto. intros C. rewrite C in Hs. cbn in Hs. lia. }
  destruct (hex_loop_ok p (hmac_key k) [] (repeat x00 65)) as (o & Ho & Hlo & Hv).
  { rewrite repeat_length. lia. }
  unfold cur_start in H. rewrite Ho in H. cbn [ubind negb Z.eqb] in H.
  injection H as <- <- <-. right. split; [reflexivity|]. rewrite fit_length. unfold SIGBUF. split; [discriminate|]. split; lia.
Qed.
End Sign.

(** ** Base64 of a segment *)
Lemma encode_seg_code p b mem n w rc seg s w' :
  (6 <= p_size_bits p)%N -> encode_segment p (Ptr b mem) n w = Ret (rc, seg, s) w' ->
  (rc = 0%Z /\ served w w') \/ (rc = 300%Z /\ starved w w') \/ (served w w' /\ rc = 200%Z /\ n = 0%N)
  \/ (served w w' /\ rc = 310%Z /\ (size_mod p <= n * 4)%N).
Proof.
  intros Hp H. unfold encode_segment in H. minvas H as r w1 Hb.
  unfold l8w8jwt_base64_encode in Hb. cbn [negb is_null orb] in Hb.
  destruct (N.eqb_spec n 0) as [E0|E0].
  { injection Hb as <- <-. cbn in H. injection H as <- <- <- <-. right. right. left. split; [apply served_refl|auto]. }
  cbv zeta in Hb. destruct (b64_olen p n <? n)%N eqn:Eo.
  { injection Hb as <- <-. cbn in H. injection H as <- <- <- <-. right. right. right. split; [apply served_refl|]. split; [reflexivity|].
    destruct (N.ltb_spec n (size_mod p)) as [Hn|Hn]; [|lia].
    rewrite olen_lt_iff in Eo by (auto; lia). apply N.leb_le. exact Eo. }
  minvas Hb as o w2 Hm. rewrite malloc_eq in Hm. destruct (w_alloc w (w_next w)) eqn:Ea; injection Hm as <- <-.
  2:{ injection Hb as <- <-. cbn in H. injection H as <- <- <- <-. right. left. split; [reflexivity|apply starved_no, Ea]. }
  minvas Hb as m w3 Hm. apply lift_inv in Hm as [Hd ->]. minvas Hb as d w4 Hm. apply lift_inv in Hm as [Ht ->].
  left.
  minvas Hb as [buf len] w5 Hm. apply lift_inv in Hm as [_ ->]. injection Hb as <- <-. cbn [b_rc b_out b_len negb Z.eqb L8W8JWT_SUCCESS] in H.
  minvas H as m2 w6 Hm. apply lift_inv in Hm as [_ ->]. minvas H as s2 w7 Hm. apply lift_inv in Hm as [_ ->].
  injection H as <- _ _ <-. split; [reflexivity|apply served_ok, Ea].
Qed.

Lemma lacks_within a b c d : fwd a b -> starved b c -> fwd c d -> lacks_memory a d.
Proof.
  intros F1 (F2 & L) F3. apply (lacks_split a c d); [eapply fwd_trans; eauto|exact F3|]. left.
  apply (lacks_split a b c); auto.
Qed.
Lemma fwd_ok w : fwd w (w_ok w).
Proof. apply later_fwd, later_ok. Qed.
Lemma fwd_free w id : fwd w (w_free w id).
Proof. split; auto. Qed.
Lemma fwd_refl w : fwd w w.
Proof. split; auto. Qed.

(** ** Claims *)
Lemma push_same A (b : chillbuff A) t w b' w' : cb_push b t w = Ret b' w' -> served w w'.
Proof. intros H. apply cb_push_inv in H as (-> & _). apply served_same; reflexivity. Qed.
Lemma escape_each_served p s : forall sb w sb' w', escape_each p sb s w = Ret sb' w' -> served w w'.
Proof.
  induction s as [|c s IH]; intros sb w sb' w' H; cbn [escape_each] in H; [injection H as _ <-; apply served_refl|].
  minvas H as e w1 Hm. apply lift_inv in Hm as [_ ->]. minvas H as sb1 w2 Hm. apply push_same in Hm.
  eapply served_trans; [exact Hm|]. eapply IH, H.
Qed.
Lemma escape_served p sb q n w sb' w' : l8w8jwt_escape_claim_string p sb q n w = Ret sb' w' -> served w w'.
Proof.
  unfold l8w8jwt_escape_claim_string. destruct (n =? 0)%N; [intros H; injection H as _ <-; apply served_refl|]. intros H.
  minvas H as m w1 Hm. apply lift_inv in Hm as [_ ->]. minvas H as s w2 Hm. apply lift_inv in Hm as [_ ->].
  eapply escape_each_served, H.
Qed.
Lemma write_each_served p : forall cs sb eb n first w sb' w', write_each p sb eb cs n first w = Ret sb' w' -> served w w'.
Proof.
  induction cs as [|c cs IH]; intros sb eb n first w sb' w' H; cbn [write_each] in H; destruct (n =? 0)%N;
    try (injection H as _ <-; apply served_refl); [discriminate|].
  destruct (is_null (c_key c)); [eapply IH, H|].
  minvas H as sb1 w1 H1. assert (S1 : served w w1) by (destruct first; [injection H1 as _ <-; apply served_refl|eapply push_same, H1]).
  eapply served_trans; [exact S1|]. clear S1 H1 w.
  minvas H as kl w2 Hm. apply lift_inv in Hm as [_ ->]. minvas H as vl w3 Hm. apply lift_inv in Hm as [_ ->].
  minvas H as eb1 w4 H4. apply escape_served in H4. minvas H as sb2 w5 H5. apply push_same in H5.
  minvas H as sb3 w6 H6. apply push_same in H6. minvas H as sb4 w7 H7. apply push_same in H7.
  eapply served_trans; [exact H4|]. eapply served_trans; [exact H5|]. eapply served_trans; [exact H6|]. eapply served_trans; [exact H7|].
  clear H4 H5 H6 H7. minvas H as [sb5 eb5] w8 H8. eapply served_trans; [|eapply IH, H]. clear H.
  destruct (c_type c =? L8W8JWT_CLAIM_TYPE_STRING)%Z.
  - minvas H8 as a x1 H1. apply push_same in H1. minvas H8 as b x2 H2. apply escape_served in H2. minvas H8 as c1 x3 H3. apply push_same in H3.
    minvas H8 as d x4 H4. apply push_same in H4. injection H8 as _ _ <-.
    eapply served_trans; [exact H1|]. eapply served_trans; [exact H2|]. eapply served_trans; eauto.
  - destruct (vl =? 0)%N; [injection H8 as _ _ <-; apply served_refl|].
    minvas H8 as m x1 H1. apply lift_inv in H1 as [_ ->]. minvas H8 as v x2 H2. apply lift_inv in H2 as [_ ->].
    minvas H8 as d x4 H4. apply push_same in H4. injection H8 as _ _ <-. exact H4.
Qed.
Lemma write_claims_served p sb c n w rc sb' w' :
  l8w8jwt_write_claims p sb c n w = Ret (rc, sb') w' -> served w w' \/ (starved w w' /\ c <> CNull /\ sb' = sb).
Proof.
  unfold l8w8jwt_write_claims. destruct c as [|b cs]; [intros H; injection H as _ _ <-; left; apply served_refl|].
  destruct (n =? 0)%N; [intros H; injection H as _ _ <-; left; apply served_refl|]. intros H.
  minvas H as o w1 Hm. rewrite cb_init_eq in Hm. destruct (w_alloc w (w_next w)) eqn:Ea; injection Hm as <- <-.
  - minvas H as sb1 w2 H2. apply write_each_served in H2. minvas H as u w3 H3. apply free_id_inv in H3 as [_ ->].
    injection H as _ _ <-. left. eapply served_trans; [apply served_ok, Ea|]. eapply served_trans; [exact H2|]. apply served_same; reflexivity.
  - injection H as _ <- <-. right. split; [apply starved_no, Ea|]. split; [discriminate|reflexivity].
Qed.
Lemma opt_claims_served p buff claims n (sep : bool) w0 w buff' w' :
  later w0 w -> wf w -> grows w ->
  (if (0 <? n)%N
   then (buff <- (if sep then cb_push buff (lit ",") else mret buff) ;;
         r <- l8w8jwt_write_claims p buff claims n ;; mret (snd r))
   else mret buff) w = Ret buff' w' ->
  quiet w w'
  /\ exists t, wrote claims n (allocs w0) t
      /\ cb_elems buff' = cb_elems buff ++ opt_claims n (if sep then lit "," else []) t
      /\ (served w w' \/ (fwd w w' /\ claims <> CNull /\ (0 < n)%N /\ t = [])).
Proof.
  intros Hl Hwf Hg H. pose proof H as H2. apply (opt_claims_inv p _ _ _ _ w0) in H2 as (Q & _ & t & Hw & Ht); auto.
  specialize (Ht Hg). split; [exact Q|]. exists t. split; [exact Hw|]. split; [exact Ht|].
  unfold opt_claims in Ht. destruct (N.ltb_spec 0 n) as [Hn|Hn]; [|injection H as _ <-; left; apply served_refl].
  minvas H as b1 w1 H1. minvas H as [rc b2] w2 H2. injection H as <- <-. cbn [snd] in *.
  assert (S1 : served w w1) by (destruct sep; [eapply push_same, H1|injection H1 as _ <-; apply served_refl]).
  apply write_claims_served in H2 as [S2|(S2 & C & ->)]; [left; eapply served_trans; eauto|].
  right. split; [apply quiet_fwd, Q|]. split; [exact C|]. split; [exact Hn|].
  assert (E1 : cb_elems b1 = cb_elems buff ++ (if sep then lit "," else [])).
  { destruct sep; [apply cb_push_inv in H1 as (_ & _ & _ & E); rewrite (E Hg); reflexivity|injection H1 as <- _; rewrite app_nil_r; reflexivity]. }
  rewrite E1 in Ht. apply app_inv_head in Ht. rewrite <- (app_nil_r (if sep then lit "," else [])) in Ht at 1.
  apply app_inv_head in Ht. symmetry. exact Ht.
Qed.

(** ** Header and payload *)
(** Some group of claims that was asked for is missing in the text to be signed. *)
Definition claims_missing (ep : enc_params) (msg : bytes) : Prop :=
  exists h t1 r t2,
    msg = b64url (h ++ opt_claims (ep_header_claims_count ep) (lit ",") t1 ++ lit "}") ++ lit "."
          ++ b64url (lit "{" ++ r ++ opt_claims (ep_payload_claims_count ep) (comma ep) t2 ++ lit "}")
    /\ header_prefix (ep_alg ep) = Some h
    /\ ((ep_header_claims ep <> CNull /\ (0 < ep_header_claims_count ep)%N /\ t1 = [])
        \/ r = []
        \/ (ep_payload_claims ep <> CNull /\ (0 < ep_payload_claims_count ep)%N /\ t2 = [])).
Definition too_long (p : platform) (t : bytes) : Prop := (size_mod p <= 4 * N.of_nat (length t))%N.
Lemma whp_code p sb ep w rc sb' w' :
  (6 <= p_size_bits p)%N -> wf w -> grows w ->
  write_header_and_payload p sb ep w = Ret (rc, sb') w' ->
  (rc = 0%Z /\ (served w w' \/ exists msg, cb_elems sb' = cb_elems sb ++ msg /\ claims_missing ep msg))
  \/ (rc = 300%Z /\ lacks_memory w w') \/ (rc = 200%Z /\ header_prefix (ep_alg ep) = None)
  \/ (rc = 310%Z /\ exists t, (header_text ep (allocs w) t \/ payload_text ep (allocs w) t) /\ too_long p t).
Proof.
  intros Hp Hwf Hgr H. unfold write_header_and_payload in H. minvas H as o w1 Hi.
  rewrite cb_init_eq in Hi. destruct (w_alloc w (w_next w)) eqn:Ea; injection Hi as <- <-.
  2:{ injection H as <- <- <-. right. left. split; [reflexivity|]. apply starved_no, Ea. }
  pose proof (wf_ok _ Hwf) as Hwf0.
  destruct (header_prefix (ep_alg ep)) as [h|] eqn:Eh.
  2:{ minvas H as u w2 Hf. injection H as <- <- <-. auto. }
  assert (G : forall x, later (w_ok w) x -> grows x).
  { intros x Hx. eapply grows_later; [|exact Hgr]. eapply later_trans; [apply later_ok|exact Hx]. }
  assert (GL : forall x, quiet (w_ok w) x -> grows x) by (intros x [Hx _]; auto).
  minvas H as b1 w1 Hm. apply cb_push_inv in Hm as (-> & Hid1 & _ & Hg1).
  minvas H as b2 w2 Hm.
  apply (opt_claims_served p b1 _ _ true w) in Hm as (Hq2 & t1 & Ht1 & Hg2 & D1);
    [|eapply later_trans; [apply later_ok|apply later_push]|apply wf_push; auto|apply GL, quiet_push].
  assert (Q2 : quiet (w_ok w) w2) by (eapply quiet_trans; [apply quiet_push|exact Hq2]).
  minvas H as b3 w3 Hm. apply cb_push_inv in Hm as (-> & Hid3 & _ & Hg3).
  assert (Q3 : quiet (w_ok w) (w_push w2)) by (eapply quiet_trans; [exact Q2|apply quiet_push]).
  set (w3 := w_push w2) in *.
  assert (E3 : cb_elems b3 = h ++ opt_claims (ep_header_claims_count ep) (lit ",") t1 ++ lit "}").
  { rewrite (Hg3 (GL _ Q2)). cbn [cb_elems]. rewrite Hg2, Hg1 by (apply GL, quiet_refl).
    cbn [cb_elems app]. rewrite <- !app_assoc. reflexivity. }
  minvas H as [[r1 seg1] s1] w4 Hseg. pose proof Hseg as Hcode. apply encode_seg_code in Hcode; [|exact Hp].
  apply encode_seg_inv in Hseg; auto.
  destruct Hseg as [(Hr & -> & -> & Q4)|(-> & Hn1 & _ & _ & _ & -> & (m1 & ->) & ->)].
  { destruct (Z.eqb_spec r1 L8W8JWT_SUCCESS) as [E|_]; [congruence|]. cbn [negb] in H.
    minvas H as u w5 Hf. injection H as <- <- <-.
    destruct Hcode as [(-> & _)|[(-> & S)|[(_ & -> & C)|(_ & -> & C)]]].
    - now destruct Hr.
    - right. left. split; [reflexivity|]. apply (lacks_within w w3 w4 w5); [|exact S|apply free_id_inv in Hf as [_ ->]; apply fwd_free].
      eapply fwd_trans; [apply fwd_ok|apply quiet_fwd, Q3].
    - exfalso. unfold cb_len in C. rewrite E3, !app_length in C. cbn in C. lia.
    - right. right. right. split; [reflexivity|]. eexists. split; [left; exists h, t1; split; [exact Eh|]; split; [exact Ht1|reflexivity]|].
      unfold too_long. rewrite <- E3. unfold cb_len in C. lia. }
  cbn [negb Z.eqb L8W8JWT_SUCCESS] in H.
  minvas H as sb1 w5 Hm. apply cb_push_inv in Hm as (-> & Hsid1 & _ & Hsg1).
  minvas H as u w6 Hf. pose proof Hf as Sf. apply free_served in Sf.
  assert (W3 : wf w3) by (eapply wf_quiet; [exact Q3|auto]).
  apply (free_seg w3) in Hf as (Q6 & _); [|exact W3|apply quiet_push|reflexivity].
  assert (Q6' : quiet (w_ok w) w6) by (eapply quiet_trans; eauto).
  assert (W6 : wf w6) by (eapply wf_quiet; [exact Q6'|auto]).
  minvas H as tbuf w7 Hm. apply lift_inv in Hm as [Htb ->].
  minvas H as b4 w8 Hm. apply cb_push_inv in Hm as (-> & Hid4 & _ & Hg4).
  minvas H as [r5 b5] w9 Hm. pose proof Hm as D2. apply write_claims_served in D2.
  assert (Q7 : quiet (w_ok w) (w_push w6)) by (eapply quiet_trans; [exact Q6'|apply quiet_push]).
  apply (wrote_inv p b4 _ _ w) in Hm as (Hq9 & Hid5 & t2 & Ht2 & Hg5);
    [|eapply later_trans; [apply later_ok|apply quiet_later, Q7]|apply wf_push; auto].
  cbn [snd] in H.
  assert (Q9 : quiet (w_ok w) w9) by (eapply quiet_trans; eauto).
  assert (W9 : wf w9) by (eapply wf_quiet; [exact Q9|auto]).
  minvas H as b6 w10 Hm.
  apply (opt_claims_served p b5 _ _ _ w) in Hm as (Hq10 & t3 & Ht3 & Hg6 & D3);
    [|eapply later_trans; [apply later_ok|apply quiet_later, Q9]|auto|apply GL, Q9].
  assert (Q10 : quiet (w_ok w) w10) by (eapply quiet_trans; eauto).
  minvas H as b7 w11 Hm. apply cb_push_inv in Hm as (-> & Hid7 & _ & Hg7).
  assert (Q11 : quiet (w_ok w) (w_push w10)) by (eapply quiet_trans; [exact Q10|apply quiet_push]).
  assert (W11 : wf (w_push w10)) by (eapply wf_quiet; [exact Q11|auto]).
  set (w11 := w_push w10) in *.
  assert (E7 : cb_elems b7 = lit "{" ++ t2 ++ opt_claims (ep_payload_claims_count ep) (comma ep) t3 ++ lit "}").
  { rewrite (Hg7 (GL _ Q10)). cbn [cb_elems]. rewrite Hg6, (Hg5 (GL _ Q7)), (Hg4 (GL _ Q6')).
    cbn [cb_elems cb_clear app]. rewrite <- !app_assoc. reflexivity. }
  minvas H as [[r2 seg2] s2] w12 Hseg. pose proof Hseg as Hcode2. apply encode_seg_code in Hcode2; [|exact Hp].
  apply encode_seg_inv in Hseg; auto.
  destruct Hseg as [(Hr & -> & -> & Q12)|(-> & Hn2 & _ & _ & _ & -> & (m2 & ->) & ->)].
  { destruct (Z.eqb_spec r2 L8W8JWT_SUCCESS) as [E|_]; [congruence|]. cbn [negb] in H.
    minvas H as u2 w13 Hf. injection H as <- <- <-.
    destruct Hcode2 as [(-> & _)|[(-> & S)|[(_ & -> & C)|(_ & -> & C)]]].
    - now destruct Hr.
    - right. left. split; [reflexivity|]. apply (lacks_within w w11 w12 w13); [|exact S|apply free_id_inv in Hf as [_ ->]; apply fwd_free].
      eapply fwd_trans; [apply fwd_ok|apply quiet_fwd, Q11].
    - exfalso. unfold cb_len in C. rewrite E7, !app_length in C. cbn in C. lia.
    - right. right. right. split; [reflexivity|]. eexists.
      split; [right; exists tbuf, t2, t3; split; [exact Htb|]; split; [exact Ht2|]; split; [exact Ht3|reflexivity]|].
      unfold too_long. rewrite <- E7. unfold cb_len in C. lia. }
  cbn [negb Z.eqb L8W8JWT_SUCCESS] in H.
  minvas H as sb2 w13 Hm. apply cb_push_inv in Hm as (-> & Hsid2 & _ & Hsg2).
  minvas H as sb3 w14 Hm2. apply cb_push_inv in Hm2 as (-> & Hsid3 & _ & Hsg3).
  minvas H as u2 w15 Hf. apply free_served in Hf. minvas H as u3 w16 Hf2. apply free_id_inv in Hf2 as [_ ->]. injection H as <- <- <-. left. split; [reflexivity|].
  assert (F : forall b : chillbuff byte, firstn (N.to_nat (cb_len b)) (cb_elems b) = cb_elems b).
  { intros b. unfold cb_len. rewrite Nat2N.id. apply firstn_all. }
  rewrite F, E7 in Hsg3. rewrite F, E3 in Hsg1.
  assert (K : later (w_ok w) (w_ok w11)) by (eapply later_trans; [apply quiet_later, Q11|apply later_ok]).
  assert (E : cb_elems sb3 = cb_elems sb ++ b64url (h ++ opt_claims (ep_header_claims_count ep) (lit ",") t1 ++ lit "}") ++ lit "."
          ++ b64url (lit "{" ++ t2 ++ opt_claims (ep_payload_claims_count ep) (comma ep) t3 ++ lit "}")).
  { rewrite Hsg3 by (apply G; eapply later_trans; [exact K|apply later_push]).
    cbn [cb_elems]. rewrite Hsg2 by (apply G; exact K). cbn [cb_elems].
    rewrite Hsg1 by (apply G; eapply later_trans; [apply quiet_later, Q3|apply later_ok]).
    cbn [cb_elems]. rewrite <- !app_assoc. reflexivity. }
  destruct D1 as [D1|(_ & D1)].
  2:{ right. eexists. split; [exact E|]. exists h, t1, t2, t3. split; [reflexivity|]. split; [exact Eh|]. left. exact D1. }
  destruct D3 as [D3|(_ & D3)].
  2:{ right. eexists. split; [exact E|]. exists h, t1, t2, t3. split; [reflexivity|]. split; [exact Eh|]. right. right. exact D3. }
  destruct D2 as [D2|(_ & _ & D2)].
  2:{ right. eexists. split; [exact E|]. exists h, t1, t2, t3. split; [reflexivity|]. split; [exact Eh|]. right. left.
      specialize (Hg5 (GL _ Q7)). rewrite D2 in Hg5. rewrite <- (app_nil_r (cb_elems b4)) in Hg5 at 1.
      apply app_inv_head in Hg5. symmetry. exact Hg5. }
  left. destruct Hcode as [(_ & S1)|[(C & _)|[(_ & C & _)|(_ & C & _)]]]; [|discriminate..].
  destruct Hcode2 as [(_ & S2)|[(C & _)|[(_ & C & _)|(_ & C & _)]]]; [|discriminate..].
  assert (P : forall x, served x (w_push x)) by (intros x; apply served_same; reflexivity).
  assert (P2 : forall x i, served x (w_free x i)) by (intros x i; apply served_same; reflexivity).
  eapply served_trans; [apply served_ok, Ea|]. eapply served_trans; [apply P|]. eapply served_trans; [exact D1|].
  eapply served_trans; [apply P|]. eapply served_trans; [exact S1|]. eapply served_trans; [apply P|].
  eapply served_trans; [exact Sf|]. eapply served_trans; [apply P|]. eapply served_trans; [exact D2|]. eapply served_trans; [exact D3|].
  eapply served_trans; [apply P|]. eapply served_trans; [exact S2|]. eapply served_trans; [apply P|]. eapply served_trans; [apply P|].
  eapply served_trans; [exact Hf|]. apply P2.
Qed.


(** ** The signature *)
Lemma sign_switch_code p e ep key kl msg rc buf len :
  load_key (ep_secret_key ep) (ep_secret_key_length ep) = OK key ->
  adjust_key_length key (ep_secret_key_length ep) = OK kl ->
  (0 <= ep_alg ep <= 13)%Z ->
  sign_switch p e ep key kl msg = OK (rc, buf, len) ->
  exists jw k, supported (ep_alg ep) jw /\ caller_key (ep_secret_key ep) (ep_secret_key_length ep) k
  /\ let cause := sign_cause p e jw k (ep_secret_key_pw ep) (ep_secret_key_pw_length ep) msg in
     (rc <> 0%Z /\ cause rc)
     \/ (rc = 0%Z /\ (len = 0%N -> cause 400%Z) /\ ((len <= 4096)%N \/ ((size_mod p <= len * 4)%N -> cause 425%Z)) /\ length buf = 4096%nat).
Proof.
  intros Hl Ha R H. set (n := ep_secret_key_length ep) in *.
  destruct (load_key_inv _ _ _ Hl) as (b & m & Eq & Hm & Hn & Ek).
  set (k := firstn (N.to_nat n) m) in *.
  assert (Hk : length k = N.to_nat n) by (unfold k; rewrite firstn_length; lia).
  assert (Hn0 : (0 < n)%N).
  { unfold adjust_key_length in Ha. destruct (N.eqb_spec n 0); [discriminate|lia]. }
  assert (Hck : caller_key (ep_secret_key ep) n k) by (exists b, m; auto).
  destruct (supported_exists _ R) as (j & Hj).
  exists j, k. split; [exact Hj|]. split; [exact Hck|]. subst key. cbv zeta.
  assert (Hf : match j_family j with
               | HS => sign_switch p e ep = sign_hs e (ep_alg ep)
               | RS => sign_switch p e ep = sign_rs e ep
               | PS => sign_switch p e ep = sign_ps e ep
               | ES _ _ _ => sign_switch p e ep = sign_es e ep
               | ED => forall key kl, sign_switch p e ep key kl = sign_ed p e ep
               end).
  { unfold sign_switch. destruct Hj as [Hin <-]. simpl in Hin.
    decompose [or] Hin; try contradiction; subst; simpl; reflexivity. }
  destruct (j_family j) eqn:Ef; rewrite Hf in H.
  - destruct (sign_hs_code p e ep k n msg Hk (conj Hn0 Hn) j kl Hj Ef Ha rc buf len H) as [F|F]; [left|right]; tauto.
  - destruct (sign_rs_code p e ep k n msg Hk (conj Hn0 Hn) j kl Hj Ef Ha rc buf len H) as [F|F]; [left|right]; tauto.
  - destruct (sign_ps_code p e ep k n msg Hk (conj Hn0 Hn) j kl Hj Ef Ha rc buf len H) as [F|(F1 & F2 & F3 & F4)]; [left; tauto|right].
    split; [exact F1|]. split; [intros C; contradiction|]. auto.
  - destruct (sign_es_code p e ep k n msg Hk (conj Hn0 Hn) j curve bits width kl Hj Ef Ha rc buf len H) as [F|F]; [left|right]; tauto.
  - destruct (sign_ed_code p e ep k n msg Hk (conj Hn0 Hn) j b m Eq eq_refl Hm eq_refl Ef rc buf len H) as [F|F]; [left|right]; tauto.
Qed.

(** What the signature part may return besides success. *)
Definition ws_cause (p : platform) (e : env) (ep : enc_params) (msg : bytes) (lacks : Prop) (rc : Z) : Prop :=
  (rc = 300%Z /\ lacks) \/ (rc = 425%Z /\ lacks) \/ (rc = 500%Z /\ e_seed_ok e = false)
  \/ exists jw k, supported (ep_alg ep) jw /\ caller_key (ep_secret_key ep) (ep_secret_key_length ep) k
     /\ sign_cause p e jw k (ep_secret_key_pw ep) (ep_secret_key_pw_length ep) msg rc.
Lemma ws_cause_imp p e ep msg (a b : Prop) rc : (a -> b) -> ws_cause p e ep msg a rc -> ws_cause p e ep msg b rc.
Proof. unfold ws_cause. tauto. Qed.
Lemma wsb_code p e sb ep w rc sb' sg w' :
  (15 <= p_size_bits p)%N -> wf w -> (0 <= ep_alg ep <= 13)%Z ->
  write_signature_body p e sb ep w = Ret (rc, sb', sg) w' ->
  fwd w w' /\ ((rc = 0%Z /\ served w w') \/ ws_cause p e ep (cb_elems sb) (lacks_memory w w') rc).
Proof.
  intros Hp Hwf R H.
  assert (Hp6 : (6 <= p_size_bits p)%N) by lia.
  split.
  { apply wsb_inv in H; auto. destruct H as [(_ & _ & _ & Q)|(_ & _ & Q & _)]; [apply quiet_fwd, Q|].
    eapply fwd_trans; [apply fwd_ok|apply quiet_fwd, Q]. }
  unfold write_signature_body in H.
  minvas H as key w1 Hm. apply lift_inv in Hm as [Hl ->].
  minvas H as kl w2 Hm. apply lift_inv in Hm as [Ha ->].
  destruct (e_seed_ok e) eqn:Es; cbn [negb] in H.
  2:{ injection H as <- _ _ _. right. right. right. left. auto. }
  minvas H as [[r buf] len] w3 Hm. apply lift_inv in Hm as [Hs ->].
  destruct (sign_switch_code _ _ _ _ _ _ _ _ _ Hl Ha R Hs) as (jw & k & Hj & Hk & C). cbv zeta in C.
  destruct C as [(C1 & C2)|(-> & C2 & C3 & C4)].
  { destruct (Z.eqb_spec r L8W8JWT_SUCCESS) as [->|Hr]; [now destruct C1|]. cbn [negb] in H. injection H as <- _ _ _.
    right. right. right. right. eauto. }
  cbn [negb Z.eqb L8W8JWT_SUCCESS] in H. destruct (N.eqb_spec len 0) as [El|Hlen].
  { injection H as <- _ _ _. right. right. right. right. exists jw, k. split; [exact Hj|]. split; [exact Hk|]. exact (C2 El). }
  minvas H as [[r seg] s] w3 Hseg. pose proof Hseg as Hcode. apply encode_seg_code in Hcode; [|exact Hp6].
  destruct Hcode as [(-> & S)|[(-> & S)|[(_ & -> & C)|(_ & -> & C)]]]; [| |contradiction|].
  - cbn [negb Z.eqb L8W8JWT_SUCCESS] in H. minvas H as sb1 w4 Hm. apply push_same in Hm. minvas H as sb2 w5 Hm2. apply push_same in Hm2.
    injection H as <- _ _ <-. left. split; [reflexivity|]. eapply served_trans; [exact S|]. eapply served_trans; eauto.
  - cbn in H. injection H as <- _ _ <-. right. right. left. split; [reflexivity|apply S].
  - cbn in H. injection H as <- _ _ <-. right. right. right. right. exists jw, k. split; [exact Hj|]. split; [exact Hk|].
    destruct C3 as [C3|C3]; [|exact (C3 C)]. exfalso.
    assert (2 ^ 15 <= size_mod p)%N by (unfold size_mod; apply N.pow_le_mono_r; lia). cbn in *. lia.
Qed.
Lemma fwd_served_free q w u w' : free q w = Ret u w' -> fwd w w'.
Proof. intros H. apply served_fwd, (free_served _ _ _ _ H). Qed.
Lemma ws_code p e sb ep w rc sb' w' :
  (15 <= p_size_bits p)%N -> wf w -> (0 <= ep_alg ep <= 13)%Z ->
  write_signature p e sb ep w = Ret (rc, sb') w' ->
  (rc = 0%Z /\ served w w') \/ ws_cause p e ep (cb_elems sb) (lacks_memory w w') rc.
Proof.
  intros Hp Hwf R H. unfold write_signature in H. destruct (p_small_stack p).
  - minvas H as sigb w1 Hc1. minvas H as kb w2 Hc2. minvas H as [[r sb1] sg] w3 Hb.
    minvas H as u1 w4 Hz. apply zeroize_same in Hz as ->.
    minvas H as u2 w5 Hf1. minvas H as u3 w6 Hf2. minvas H as u4 w7 Hf3. injection H as <- _ <-.
    assert (F : fwd w3 w7) by (eapply fwd_trans; [eapply fwd_served_free; eauto|]; eapply fwd_trans; eapply fwd_served_free; eauto).
    rewrite calloc_eq in Hc1, Hc2.
    destruct (w_alloc w (w_next w)) eqn:E1; injection Hc1 as <- <-.
    2:{ cbn [is_null orb] in Hb. injection Hb as <- _ _ <-. right. left. split; [reflexivity|].
        apply (lacks_within w w (w_no w) w7); [apply fwd_refl|apply starved_no, E1|].
        eapply fwd_trans; [|exact F]. destruct (w_alloc (w_no w) _); injection Hc2 as _ <-; apply later_fwd; [apply later_ok|apply later_no]. }
    destruct (w_alloc (w_ok w) (w_next (w_ok w))) eqn:E2; injection Hc2 as <- <-.
    2:{ cbn [is_null orb] in Hb. injection Hb as <- _ _ <-. right. left. split; [reflexivity|].
        apply (lacks_within w (w_ok w) (w_no (w_ok w)) w7); [apply fwd_ok|apply starved_no, E2|exact F]. }
    assert (SF : served w3 w7) by (eapply served_trans; [eapply free_served; eauto|]; eapply served_trans; eapply free_served; eauto).
    cbn [is_null orb] in Hb. apply wsb_code in Hb as (Fb & [(-> & S)|C]); auto using wf_ok.
    { left. split; [reflexivity|]. eapply served_trans; [apply served_ok, E1|]. eapply served_trans; [apply served_ok, E2|].
      eapply served_trans; eauto. }
    right. eapply ws_cause_imp; [|exact C]. intros L.
    apply (lacks_within w (w_ok (w_ok w)) w3 w7); [eapply fwd_trans; apply fwd_ok|split; auto|exact F].
  - minvas H as [[r sb1] sg] w3 Hb. minvas H as u2 w5 Hf1. injection H as <- _ <-.
    apply wsb_code in Hb as (Fb & [(-> & S)|C]); auto.
    { left. split; [reflexivity|]. eapply served_trans; [exact S|]. eapply free_served; eauto. }
    right. eapply ws_cause_imp; [|exact C]. intros L. apply (lacks_within w w w3 w5); [apply fwd_refl|split; auto|eapply fwd_served_free; eauto].
Qed.
