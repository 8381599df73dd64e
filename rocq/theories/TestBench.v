(** * A backend and a keyring for the project's tests (examples of C87) *)
From Verif Require Import Base BaseProofs HeapProofs Util UtilProofs Claim Base64 SpecB64
  Base64EncProofs Base64EncApi Base64DecProofs Base64Api Jsmn Env Encode Decode SpecJson SpecJwa ClaimProofs UnescapeProofs
  EncodeProofs SignProofs EncodeTotal SpecEnc JsonProofs PropEncode DecodeProofs DecodeInv JsmnProofs ParseProofs
  PropClaim ReadProofs ValidateProofs JsmnJson JsmnSize PropVerify PropValidate PropLeak PropJson DecodeTotal DecodeOk PropSafe
  PropRoundTrip PropIssued PropTime Examples PropEncMemory PropPrograms Walk Exact Complete PropComplete
  EncComplete PropEncComplete PropUnclosed Tests TestProofs TestVerdict PropTests.
From Coq Require Import ZifyBool ZifyNat ZifyN.
Ltac Zify.zify_post_hook ::= Z.div_mod_to_equations.
Local Opaque L8W8JWT_MAX_KEY_SIZE SIGBUF.

(** The text of a key is its name, with the mark of a certificate if it is one; Ed25519 keys are
    hexadecimal. A signature shows the number of the key pair. *)
Definition certificates : list (string * nat) :=
  [("X509_TEST_CERTIFICATE", 3%nat); ("X509_PRIME256v1_TEST_CERTIFICATE", 14%nat); ("X509_secp384r1_TEST_CERTIFICATE", 22%nat);
   ("X509_secp521r1_TEST_CERTIFICATE", 32%nat)]%string.
Definition private_keys : list (string * nat) :=
  [("RSA_PRIVATE_KEY", 1%nat); ("X509_TEST_PRIVATE_KEY", 3%nat); ("ES256_PRIVATE_KEY", 10%nat); ("ES256K_PRIVATE_KEY", 12%nat);
   ("X509_PRIME256v1_PRIVATE_KEY", 14%nat); ("ES384_PRIVATE_KEY", 20%nat); ("X509_secp384r1_PRIVATE_KEY", 22%nat);
   ("ES512_PRIVATE_KEY", 30%nat); ("X509_secp521r1_PRIVATE_KEY", 32%nat)]%string.
Definition public_keys : list (string * nat) :=
  [("RSA_PUBLIC_KEY", 1%nat); ("RSA_PUBLIC_KEY_2", 2%nat); ("ES256_PUBLIC_KEY", 10%nat); ("ES256_PUBLIC_KEY_2", 11%nat);
   ("ES256K_PUBLIC_KEY_2", 13%nat); ("ES384_PUBLIC_KEY", 20%nat); ("ES384_PUBLIC_KEY_2", 21%nat); ("ES512_PUBLIC_KEY", 30%nat);
   ("ES512_PUBLIC_KEY_2", 31%nat)]%string.
Definition ring (name : string) : bytes :=
  if String.eqb name "ED25519_PRIVATE_KEY" then repeat x61 128 else if String.eqb name "ED25519_PUBLIC_KEY" then repeat x61 64
  else if String.eqb name "ED25519_PRIVATE_KEY_2" then repeat x62 128 else if String.eqb name "ED25519_PUBLIC_KEY_2" then repeat x62 64
  else if existsb (fun c => String.eqb name (fst c)) certificates then lit "-----BEGIN CERTIFICATE-----" ++ lit name else lit name.
Definition look_up (l : list (string * nat)) (text : bytes) : option nat :=
  match find (fun c => bytes_eqb text (ring (fst c) ++ [x00])) l with Some c => Some (snd c) | None => None end.
Definition is_rsa (id : nat) : bool := (id <? 10)%nat.
Definition bench_group (id : nat) : ecp_group :=
  if (id <? 10)%nat then OtherGroup else if (id <? 12)%nat then SECP256R1 else if (id <? 14)%nat then SECP256K1 else if (id <? 20)%nat then SECP256R1
  else if (id <? 30)%nat then SECP384R1 else SECP521R1.
Definition bench_bits (id : nat) : N :=
  if (id <? 10)%nat then 2048 else if (id <? 20)%nat then 256 else if (id <? 30)%nat then 384 else 521.
Definition mark (id : nat) : byte := n2b (N.of_nat id).
Definition bench : env := {|
  e_seed_ok := true; e_hmac := e_hmac toy; e_md := e_md toy; e_parse_key := fun t _ _ => look_up private_keys t;
  e_parse_public_key := look_up public_keys; e_x509_parse := look_up certificates;
  e_can_do := fun id t => match t with PK_ECDSA => negb (is_rsa id) | _ => is_rsa id end; e_bitlen := bench_bits;
  e_pk_sign := fun id _ d => Some (fit 256 (mark id :: d)); e_pk_verify := fun id _ d s => bytes_eqb s (fit 256 (mark id :: d));
  e_pk_rsa := is_rsa; e_rsa_len := fun _ => 256%N;
  e_pss_sign := fun id _ d => Some (fit 256 (mark id :: d)); e_pss_verify := fun id _ d s => bytes_eqb s (fit 256 (mark id :: d));
  e_pk_ec := fun id => negb (is_rsa id); e_ecdsa_from_keypair := fun _ => true; e_group := bench_group;
  e_ecdsa_sign := fun id _ => Some (N.of_nat id, 5%N); e_ecdsa_verify := fun id _ r s => ((r =? N.of_nat id) && (s =? 5))%N;
  e_ed_sign := fun _ kb => firstn 32 kb; e_ed_verify := fun s _ kb => bytes_eqb s (fit 64 kb); e_time := 0%Z;
  e_checknum := e_checknum toy_num; e_jsmn := jsmn_parse; e_tok_junk := e_tok_junk toy |}.

Definition marked_certificate (k : bytes) : bool := substrb (lit "-----BEGIN CERTIFICATE-----") (before_nul k).
Lemma certificate_marked k : marked_certificate k = true <-> certificate k.
Proof. apply substrb_spec. Qed.
Definition private_of (k : bytes) : option nat := look_up private_keys (pem_text k).
Definition public_of (k : bytes) : option nat := if marked_certificate k then look_up certificates (pem_text k) else look_up public_keys (pem_text k).
Lemma public_bench k id : public_key_of bench k id <-> public_of k = Some id.
Proof.
  unfold public_key_of, public_of. rewrite <- certificate_marked. destruct (marked_certificate k); split; intros H.
  - destruct H as [[_ H]|[C _]]; [exact H|congruence].
  - left. auto.
  - destruct H as [[C _]|[_ H]]; [discriminate C|exact H].
  - right. split; [discriminate|exact H].
Qed.

(** ** Deciding that the keys fit *)
Definition jwa_of (alg : Z) : option jwa := find (fun j => (j_id j =? alg)%Z) jwa_table.
Lemma jwa_of_supported alg j : supported alg j -> jwa_of alg = Some j.
Proof. intros [H <-]. cbn [jwa_table In] in H. repeat (destruct H as [<-|H]; [reflexivity|]). destruct H. Qed.
Lemma jwa_of_found alg j : jwa_of alg = Some j -> supported alg j.
Proof. intros H. apply find_some in H as [H1 H2]. split; [exact H1|lia]. Qed.
Definition signs_bench (j : jwa) (k : bytes) : bool :=
  (N.of_nat (length (pem_text k)) <=? 8192)%N &&
  match j_family j with
  | HS => true
  | RS | PS => match private_of k with Some id => is_rsa id | None => false end
  | ES c b w => match private_of k with
                | Some id => negb (is_rsa id) && ecp_group_eqb (bench_group id) c && (bench_bits id =? b)%N && (N.of_nat id <? 256)%N && (0 <? w)%nat
                | None => false end
  | ED => (length (hmac_key k) =? 128)%nat
  end.
Lemma width_fits n w : (n < 256)%N -> (0 < w)%nat -> exists b, length b = w /\ big_endian b = n.
Proof.
  intros Hn Hw. exists (repeat x00 (w - 1) ++ [n2b n]). rewrite app_length, repeat_length. cbn [length]. split; [lia|].
  assert (G : forall m, big_endian (repeat x00 m ++ [n2b n]) = n).
  { induction m as [|m IH]; cbn [repeat app big_endian].
    - cbn. rewrite b2n_n2b; lia.
    - rewrite IH. change (b2n x00) with 0%N. lia. }
  apply G.
Qed.
Lemma bench_digest j msg : exists d, digest_of bench j msg = Some d.
Proof. unfold digest_of. cbn. eauto. Qed.
Lemma group_eqb a b : ecp_group_eqb a b = true -> a = b.
Proof. destruct a, b; cbn; congruence. Qed.
Lemma rsa_bits id : is_rsa id = true -> bench_bits id = 2048%N.
Proof. unfold is_rsa, bench_bits. intros ->. reflexivity. Qed.
Lemma bench_signs j k : signs_bench j k = true -> signs pe bench j k Null 0.
Proof.
  unfold signs_bench, signs, signing. intros H msg. apply andb_true_iff in H as [Hl H]. destruct (bench_digest j msg) as (d & Hd).
  assert (L : (N.of_nat (length (pem_text k)) <= 8192)%N) by lia. clear Hl.
  destruct (j_family j) as [| | |c b w|].
  - eexists. eapply HS_sign. reflexivity.
  - destruct (private_of k) as [id|] eqn:E; [|discriminate]. eexists. eapply K_key; [exact L|exact E|].
    eapply RS_sign; [split; [left; exact H|cbn; rewrite rsa_bits by exact H; lia]|exact Hd|reflexivity|].
    intros C. apply (f_equal (@length byte)) in C. rewrite fit_length in C. discriminate C.
  - destruct (private_of k) as [id|] eqn:E; [|discriminate]. eexists. eapply K_key; [exact L|exact E|].
    eapply PS_sign; [split; [exact H|cbn; rewrite rsa_bits by exact H; lia]|exact Hd|exact H|cbn; lia|reflexivity| |].
    + cbn [e_bitlen bench]. rewrite rsa_bits by exact H. vm_compute. reflexivity.
    + cbn [e_bitlen bench]. rewrite rsa_bits by exact H. vm_compute. discriminate.
  - destruct (private_of k) as [id|] eqn:E; [|discriminate]. repeat (apply andb_true_iff in H as [H ?]).
    destruct (width_fits (N.of_nat id) w) as (br & B1 & B2); [lia|lia|]. destruct (width_fits 5 w) as (bs & B3 & B4); [lia|lia|].
    exists (br ++ bs). eapply K_key; [exact L|exact E|].
    eapply ES_sign; [exact H|exact H|reflexivity|exact Hd|apply group_eqb; assumption|cbn; lia|reflexivity|exact B1|exact B2|exact B3|exact B4].
  - eexists. apply ED_sign; [reflexivity|lia].
Qed.

Definition same_pair (good : nat -> bool) (k k' : bytes) : bool :=
  match private_of k, public_of k' with Some id, Some id' => good id && (id =? id')%nat | _, _ => false end.
Definition hex_of (k : bytes) (n : nat) : option bytes :=
  if (length k =? n)%nat then unhex k else if (length k =? S n)%nat && bytes_eqb (skipn n k) [x00] then unhex (firstn n k) else None.
Definition matches_bench (j : jwa) (k k' : bytes) : bool :=
  (negb (marked_certificate k') || match look_up certificates (pem_text k') with Some _ => true | None => false end) &&
  match j_family j with
  | HS => bytes_eqb (hmac_key k') (hmac_key k)
  | RS | PS => same_pair is_rsa k k'
  | ES _ _ _ => same_pair (fun id => negb (is_rsa id)) k k'
  | ED => match hex_of k 128, hex_of k' 64 with Some kb, Some kb' => bytes_eqb (fit 64 (firstn 32 kb)) (fit 64 kb') | _, _ => false end
  end.
Lemma hex_of_spec k n kb : hex_of k n = Some kb -> exists hx, (k = hx \/ k = hx ++ [x00]) /\ length hx = n /\ unhex hx = Some kb.
Proof.
  unfold hex_of. destruct (Nat.eqb_spec (length k) n) as [E|E]; [intros H; exists k; auto|].
  destruct (Nat.eqb_spec (length k) (S n)) as [E2|E2]; [|discriminate]. cbn [andb]. destruct (bytes_eqb (skipn n k) [x00]) eqn:B; [|discriminate].
  apply bytes_eqb_eq in B. intros H. exists (firstn n k). split; [right; rewrite <- B, firstn_skipn; reflexivity|].
  split; [rewrite firstn_length; lia|exact H].
Qed.
Lemma same_pair_spec good k k' : same_pair good k k' = true -> exists id, private_of k = Some id /\ public_key_of bench k' id /\ good id = true.
Proof.
  unfold same_pair. destruct (private_of k) as [id|]; [|discriminate]. destruct (public_of k') as [id'|] eqn:E; [|discriminate].
  intros H. apply andb_true_iff in H as [H1 H2]. assert (id = id') as <- by lia. exists id. split; [reflexivity|]. split; [apply public_bench; exact E|exact H1].
Qed.
Lemma bench_matches j k k' : matches_bench j k k' = true -> key_usable pe bench j k' /\ matching_keys bench bench j k Null 0 k'.
Proof.
  unfold matches_bench. intros H. apply andb_true_iff in H as [Hc H]. unfold key_usable, matching_keys. cbv zeta. split.
  - split.
    + intros C. apply certificate_marked in C. rewrite C in Hc. cbn [negb orb] in Hc. cbn [e_x509_parse bench]. destruct (look_up _ _); [discriminate|discriminate Hc].
    + destruct (j_family j); try exact I; try reflexivity.
  - destruct (j_family j) as [| | |c b w|].
    + apply bytes_eqb_eq. exact H.
    + apply same_pair_spec in H as (id & E & P & _). exists id, id. split; [auto|]. intros d s Es. injection Es as <-.
      split; [rewrite fit_length; vm_compute; discriminate|apply bytes_eqb_eq; reflexivity].
    + apply same_pair_spec in H as (id & E & P & G). exists id, id. split; [auto|]. split; [exact G|]. split; [reflexivity|].
      split; [cbn [e_bitlen e_rsa_len bench]; rewrite rsa_bits by exact G; reflexivity|]. intros d s Es. injection Es as <-.
      split; [rewrite fit_length; reflexivity|apply bytes_eqb_eq; reflexivity].
    + apply same_pair_spec in H as (id & E & P & G). exists id, id. split; [auto|]. split; [exact G|]. intros d r s Es. injection Es as <- <-.
      cbn [e_ecdsa_verify bench]. rewrite N.eqb_refl. reflexivity.
    + destruct (hex_of k 128) as [kb|] eqn:E1; [|discriminate]. destruct (hex_of k' 64) as [kb'|] eqn:E2; [|discriminate].
      apply hex_of_spec in E1 as (hx & X1 & X2 & X3). apply hex_of_spec in E2 as (hx' & X4 & X5 & X6).
      exists hx, kb, hx', kb'. repeat (split; [assumption|]). intros msg. exact H.
Qed.

Definition other_pair (good : nat -> bool) (k k' : bytes) : bool :=
  match private_of k, public_of k' with
  | Some id, Some id' => good id' && negb (N.of_nat id =? N.of_nat id')%N && (id <? 256)%nat && (id' <? 256)%nat
  | _, _ => false end.
Definition md_eqb (a b : md) : bool := (md_size a =? md_size b)%N.
Definition rejects_bench (j : jwa) (k : bytes) (j' : jwa) (k' : bytes) : bool :=
  (negb (marked_certificate k') || match look_up certificates (pem_text k') with Some _ => true | None => false end) && md_eqb (j_hash j) (j_hash j') &&
  match j_family j, j_family j' with
  | HS, HS => match hmac_key k, hmac_key k' with c :: _, c' :: _ => negb (Byte.eqb c c') | _, _ => false end
  | RS, RS | PS, PS => other_pair is_rsa k k'
  | ES _ _ w, ES _ _ w' => other_pair (fun id => negb (is_rsa id)) k k' && (w =? w')%nat
  | ED, ED => (length (hmac_key k') =? 64)%nat && (length (hmac_key k) =? 128)%nat
      && match hex_of k 128, hex_of k' 64 with Some kb, Some kb' => negb (bytes_eqb (fit 64 (firstn 32 kb)) (fit 64 kb')) | _, _ => false end
  | _, _ => false
  end.
Lemma other_pair_spec good k k' : other_pair good k k' = true ->
  exists id id', private_of k = Some id /\ public_key_of bench k' id' /\ good id' = true /\ mark id <> mark id' /\ id <> id'.
Proof.
  unfold other_pair. destruct (private_of k) as [id|]; [|discriminate]. destruct (public_of k') as [id'|] eqn:E; [|discriminate].
  intros H. repeat (apply andb_true_iff in H as [H ?]). exists id, id'. split; [reflexivity|]. split; [apply public_bench; exact E|]. split; [exact H|].
  split; [|lia]. unfold mark. intros C. apply (f_equal b2n) in C. rewrite !b2n_n2b in C by lia. lia.
Qed.
Lemma md_eqb_eq a b : md_eqb a b = true -> a = b.
Proof. destruct a, b; vm_compute; congruence. Qed.
Lemma fit_cons n c s : (0 < n)%N -> exists r, fit n (c :: s) = c :: r.
Proof. intros Hn. unfold fit. destruct (N.to_nat n) eqn:E; [lia|]. cbn. eauto. Qed.
Lemma keyed_made e k pw pwl use s : keyed e k pw pwl use (Made s) -> exists key, e_parse_key e (pem_text k) pw pwl = Some key /\ use key (Made s).
Proof. intros H. inversion H; subst; eauto. Qed.
Lemma md_pos h : (0 < md_size h)%N.
Proof. destruct h; reflexivity. Qed.
Lemma bench_rejects j k j' k' : rejects_bench j k j' k' = true -> rejects pe bench pe bench j k j' k'.
Proof.
  unfold rejects_bench, rejects. intros H msg s st Sg. apply andb_true_iff in H as [H H2]. apply andb_true_iff in H as [Hc Hh]. apply md_eqb_eq in Hh.
  assert (Nb : ~ bad_certificate bench k').
  { intros [C1 C2]. apply certificate_marked in C1. rewrite C1 in Hc. cbn [negb orb] in Hc. cbn [e_x509_parse bench] in C2. rewrite C2 in Hc. discriminate Hc. }
  clear Hc. unfold turned_down, misused, verifies, signing in *. cbv zeta.
  assert (Md : forall h m, e_md bench h m <> None) by discriminate.
  destruct (j_family j) as [| | |c b w|] eqn:F, (j_family j') as [| | |c' b' w'|] eqn:F'; try discriminate H2.
  - inversion Sg as [|m Em Es]. clear Sg. injection Em as <-. split; [intros rc [[C _]|[_ []]]; contradiction|]. split.
    + intros u (_ & C & _). rewrite app_length, fit_length, Hh in C. lia.
    + intros (lk & E & V). unfold signature_read, verified_by in *. rewrite F' in *. destruct V as (mac & Em & V). injection Em as <-.
      destruct (hmac_key k) as [|x y]; [discriminate|]. destruct (hmac_key k') as [|x' y']; [discriminate|]. cbn [app] in *.
      destruct (fit_cons (md_size (j_hash j')) x' (y' ++ msg) (md_pos _)) as (r' & R').
      rewrite (fit_exact _ (fit _ (x' :: _))) in V by (rewrite fit_length; lia). rewrite R' in V.
      destruct (fit_cons (md_size (j_hash j)) x (y ++ msg) (md_pos _)) as (r & R).
      rewrite (fit_exact _ (fit _ (x :: _))) in E by (rewrite fit_length; lia). rewrite R in E.
      rewrite V in E. pose proof (md_pos (j_hash j')) as P. destruct (N.to_nat (md_size (j_hash j'))) eqn:En; [lia|]. cbn [firstn app] in E.
      injection E as -> _. rewrite byte_eqb_refl in H2. discriminate H2.
  - apply other_pair_spec in H2 as (id & id' & E1 & E2 & G & Nm & _). apply keyed_made in Sg as (key & Ek & Sg).
    assert (key = id) as -> by (cbn in Ek; unfold private_of in E1; congruence). inversion Sg as [| | |d s' _ _ Es _ Es']. subst. injection Es as <-. split; [|split; [auto|]].
    + intros rc [[C _]|[_ [[C _]|[_ [C _]]]]]; [contradiction|exact (Md _ _ C)|exact (C _ E2)].
    + intros (lk & El & V). unfold signature_read, verified_by in *. rewrite F' in *. rewrite El in V. clear El lk. destruct V as (key & d' & Pk & _ & V).
      rewrite (PropRoundTrip.public_key_fun _ _ _ _ Pk E2) in V. apply bytes_eqb_eq in V.
      destruct (fit_cons 256 (mark id) d eq_refl) as (r & R). destruct (fit_cons 256 (mark id') d' eq_refl) as (r' & R'). rewrite R, R' in V.
      destruct (N.to_nat 4096) eqn:En; [lia|]. cbn [firstn] in V. congruence.
  - apply other_pair_spec in H2 as (id & id' & E1 & E2 & G & Nm & _). apply keyed_made in Sg as (key & Ek & Sg).
    assert (key = id) as -> by (cbn in Ek; unfold private_of in E1; congruence). inversion Sg as [| | | | | | |d s' Kn _ _ _ Es _ _ Es']. subst. injection Es as <-.
    destruct Kn as [Kn _]. cbn [e_can_do bench] in Kn. cbn [e_bitlen e_rsa_len bench] in *. rewrite rsa_bits in * by exact Kn.
    change (2048 / 8)%N with 256%N in *. rewrite !(fit_exact 256 (fit 256 _)) by (rewrite ?fit_length; reflexivity). split; [|split].
    + intros rc [[C _]|[_ [[C _]|[_ [C _]]]]]; [contradiction|exact (Md _ _ C)|exact (C _ E2)].
    + intros u (key & Pk & [[C _]|(_ & C & _)]).
      * rewrite (PropRoundTrip.public_key_fun _ _ _ _ Pk E2) in C. cbn [e_pk_rsa bench] in C. congruence.
      * rewrite app_length, fit_length in C. lia.
    + intros (lk & El & V). unfold signature_read, verified_by in *. rewrite F' in *. destruct El as (key0 & Pk0 & El). rewrite El in V. clear El lk. destruct V as (key & d' & Pk & _ & _ & _ & V).
      rewrite (PropRoundTrip.public_key_fun _ _ _ _ Pk E2) in V. apply bytes_eqb_eq in V. change (e_rsa_len bench key0) with 256%N in V.
      destruct (fit_cons 256 (mark id) d eq_refl) as (r & R). destruct (fit_cons 256 (mark id') d' eq_refl) as (r' & R'). rewrite R, R' in V.
      destruct (N.to_nat 256) eqn:En; [lia|]. cbn [firstn app] in V. congruence.
  - apply andb_true_iff in H2 as [H2 Hw]. apply other_pair_spec in H2 as (id & id' & E1 & E2 & G & _ & Nm). apply keyed_made in Sg as (key & Ek & Sg).
    assert (key = id) as -> by (cbn in Ek; unfold private_of in E1; congruence).
    inversion Sg as [| | | | | | |d r0 s0 br bs _ _ _ _ _ _ Es L1 B1 L2 B2 Es']. subst. injection Es as Er Es. split; [|split].
    + intros rc [[C _]|[_ [[C _]|[[_ [C _]]|(_ & _ & pk & _ & _ & C)]]]]; [contradiction|exact (Md _ _ C)|exact (C _ E2)|discriminate C].
    + intros u (key & Pk & C & _). rewrite (PropRoundTrip.public_key_fun _ _ _ _ Pk E2) in C. cbn [e_pk_ec bench] in C. congruence.
    + intros (lk & El & V). unfold signature_read, verified_by in *. rewrite F' in *. rewrite El in V. clear El lk. destruct V as (key & d' & r1 & s1 & Pk & _ & _ & Eq & Le & V).
      rewrite (PropRoundTrip.public_key_fun _ _ _ _ Pk E2) in V. cbn [e_ecdsa_verify bench] in V. apply andb_true_iff in V as [V _].
      assert (X : firstn (2 * (length (br ++ bs) / 2)) (br ++ bs) = br ++ bs).
      { apply firstn_all2. rewrite app_length, L2. replace (length br + length br)%nat with (2 * length br)%nat by lia.
        rewrite Nat.mul_comm, Nat.div_mul by lia. lia. }
      rewrite X in Eq. assert (El : length br = length r1).
      { apply (f_equal (@length byte)) in Eq. rewrite !app_length in Eq. lia. }
      apply app_eq_length in Eq as [Eq _]; [|exact El]. rewrite <- Eq, <- Er in V. lia.
  - apply andb_true_iff in H2 as [H2 H3]. apply andb_true_iff in H2 as [H1 H2]. inversion Sg as [| |_ _ Es]. clear Sg.
    destruct (hex_of k 128) as [kb|] eqn:E1; [|discriminate]. destruct (hex_of k' 64) as [kb'|] eqn:E2; [|discriminate].
    split; [|split].
    + intros rc [[C _]|[_ [[C _]|[_ [C _]]]]]; [contradiction|discriminate C|lia].
    + intros u [C _]. rewrite app_length, fit_length in C. lia.
    + intros V. cbn [e_ed_verify e_ed_sign bench] in V. apply bytes_eqb_eq in V. rewrite firstn_app, fit_length in V.
      change (64 - N.to_nat 64)%nat with 0%nat in V. rewrite firstn_O, app_nil_r, firstn_all2 in V by (rewrite fit_length; lia).
      assert (Hx : forall k n kb, hex_of k n = Some kb -> length (hmac_key k) = n -> loose_unhex pe (hmac_key k) = kb).
      { clear. intros k n kb H L. apply loose_hex. apply hex_of_spec in H as (hx & [->| ->] & L2 & U).
        - unfold hmac_key in *. rewrite (unhex_last _ _ U). exact U.
        - unfold hmac_key. rewrite last_last. cbn [is_nul]. change (is_nul x00) with true. cbv iota. rewrite removelast_last. exact U. }
      rewrite (Hx _ _ _ E1), (Hx _ _ _ E2) in V by lia.
      assert (X : fit 64 (firstn 32 kb) = fit 64 kb') by exact V. rewrite X in H3.
      rewrite (proj2 (bytes_eqb_eq _ _) eq_refl) in H3. discriminate H3.
Qed.

Definition key_fits_bench (k : key_ref) : bool := (0 <? length (key_bytes ring k))%nat && (N.of_nat (length (key_bytes ring k)) <? 8192)%N.
Definition fits_bench (t : test) : bool :=
  let i := t_issue t in let k := key_bytes ring (i_key i) in
  key_fits_bench (i_key i) &&
  match jwa_of (i_alg i) with
  | None => false
  | Some j => signs_bench j k
      && forallb (fun a => let k' := key_bytes ring (a_key a) in
           key_fits_bench (a_key a) &&
           (if intended a then (a_alg a =? i_alg i)%Z && matches_bench j k k'
            else match jwa_of (a_alg a) with Some j' => rejects_bench j k j' k' | None => false end)) (t_askings t)
  end.
Lemma bench_fits t : fits_bench t = true -> fits pe bench ring t.
Proof.
  unfold fits_bench, fits. cbv zeta. intros H. apply andb_true_iff in H as [Hk H].
  assert (Kf : forall k, key_fits_bench k = true -> key_fits ring k) by (intros k Hx; unfold key_fits_bench, key_fits in *; lia).
  split; [apply Kf; exact Hk|]. destruct (jwa_of (i_alg (t_issue t))) as [j|] eqn:Ej; [|discriminate]. apply andb_true_iff in H as [Hs H].
  split.
  - intros j' Hj. apply jwa_of_supported in Hj. assert (j' = j) as -> by congruence. apply bench_signs. exact Hs.
  - apply Forall_forall. intros a Ha. rewrite forallb_forall in H. specialize (H a Ha). cbv zeta in H. apply andb_true_iff in H as [H1 H2].
    split; [apply Kf; exact H1|]. unfold agrees. cbv zeta. intros j' Hj. apply jwa_of_supported in Hj. assert (j' = j) as -> by congruence.
    destruct (intended a).
    + apply andb_true_iff in H2 as [H2 H3]. apply bench_matches in H3 as [H3 H4]. split; [lia|]. split; [exact H3|]. split; [split; reflexivity|exact H4].
    + destruct (jwa_of (a_alg a)) as [j2|] eqn:Ea; [|discriminate]. exists j2. split; [apply jwa_of_found; exact Ea|]. apply bench_rejects. exact H2.
Qed.
Lemma suite_fits : forallb fits_bench suite = true.
Proof. vm_compute. reflexivity. Qed.
Lemma bench_checknum : checknum_right bench.
Proof. exact toy_num_right. Qed.
