(** * Exactly when decoding is defined *)
From Verif Require Import Base BaseProofs HeapProofs Util UtilProofs Claim Base64 SpecB64
  Base64EncApi Base64DecProofs Base64Api Jsmn Env Encode Decode SpecJson SpecJwa ClaimProofs UnescapeProofs
  SignProofs DecodeProofs DecodeInv JsmnProofs ParseProofs PropClaim ReadProofs ValidateProofs JsmnJson EncodeTotal
  DecodeTotal DecodeOk OverRead Walk.
From Coq Require Import ZifyBool ZifyNat ZifyN.
Ltac Zify.zify_post_hook ::= Z.div_mod_to_equations.
Local Opaque L8W8JWT_MAX_KEY_SIZE.

(** ** Verification *)
(** The key is turned down with an error code before the signature is looked at. *)
Definition refused (p : platform) (e : env) (j : jwa) (k msg : bytes) : Prop :=
  (certificate k /\ e_x509_parse e (pem_text k) = None)
  \/ match j_family j with
     | HS => False
     | RS | PS => (forall pk, ~ public_key_of e k pk) \/ e_md e (j_hash j) msg = None
     | ES _ _ _ => (forall pk, ~ public_key_of e k pk) \/ e_md e (j_hash j) msg = None
                   \/ exists pk, public_key_of e k pk /\ e_pk_ec e pk = true /\ e_ecdsa_from_keypair e pk = false
     | ED => p_eddsa p = false \/ length (hmac_key k) <> 64%nat
     end.
(** Verification reads past the block [mem] of the signature, or through the NULL that stands for the
    part the key lacks. *)
Definition misused (e : env) (j : jwa) (k msg mem : bytes) (u : ub) : Prop :=
  match j_family j with
  | HS => (exists mac, e_hmac e (j_hash j) (hmac_key k) msg = Some mac)
          /\ (N.of_nat (length mem) < md_size (j_hash j))%N /\ u = OOBRead
  | RS => False
  | PS => exists pk, public_key_of e k pk
          /\ (e_pk_rsa e pk = false /\ u = NullDeref
              \/ e_pk_rsa e pk = true /\ (N.of_nat (length mem) < e_rsa_len e pk)%N /\ u = OOBRead)
  | ES _ _ _ => exists pk, public_key_of e k pk /\ e_pk_ec e pk = false /\ u = NullDeref
  | ED => (length mem < 64)%nat /\ u = OOBRead
  end.
Lemma public_key_fun e k a b : public_key_of e k a -> public_key_of e k b -> a = b.
Proof. intros [[H1 H2]|[H1 H2]] [[H3 H4]|[H3 H4]]; congruence || contradiction. Qed.
Lemma take_short mem n : (N.of_nat (length mem) < n)%N -> take mem n = KO OOBRead.
Proof. intros H. unfold take. destruct (N.leb_spec n (N.of_nat (length mem))); [lia|reflexivity]. Qed.

(** What verification comes to. *)
Definition comes_to (p : platform) (e : env) (j : jwa) (k msg mem : bytes) (y : U verdict) : Prop :=
  (refused p e j k msg /\ exists r, y = OK (VExit r) /\ r <> L8W8JWT_SUCCESS)
  \/ (~ refused p e j k msg /\ exists u, misused e j k msg mem u /\ (forall u', misused e j k msg mem u' -> u' = u) /\ y = KO u)
  \/ (~ refused p e j k msg /\ (forall u, ~ misused e j k msg mem u) /\ exists f, y = OK (VFlag f)).

Section Exact.
Variables (p : platform) (e : env) (k : bytes) (n : N).
Hypothesis Hk : length k = N.to_nat n.
Hypothesis Hn : (0 < n <= 8192)%N.
Hypothesis Hlast : (n < 8192)%N \/ is_nul (last k x01) = true.
Let key := k ++ repeat x00 (N.to_nat (L8W8JWT_MAX_KEY_SIZE - n)).

Lemma verify_switch_exact alg j crt kl msg hash mem slen :
  supported alg j -> adjust_key_length key n = OK kl -> load_cert e key kl = OK (Some crt) ->
  verify_hash e alg msg = Some hash ->
  match j_family j with HS | ED => True | _ => e_md e (j_hash j) msg <> None end -> (slen <= N.of_nat (length mem))%N ->
  comes_to p e j k msg mem (verify_switch p e alg crt key kl msg hash mem slen).
Proof.
  intros Hj Ha Hc Hh Hmd Hsl.
  destruct (key_parts k n Hk Hn Hlast) as (kl' & Ha' & Hkl & Ekl & E1 & E2). fold key in Ha', E1, E2. rewrite Ha' in Ha. assert (Ek : kl' = kl) by congruence.
  rewrite Ek in *. clear Ha Ek kl'.
  destruct (public_key_ok e k n Hk Hn Hlast kl crt Ha' Hc) as (o & Ho & Hpk). fold key in Ho.
  assert (Hcr : ~ (certificate k /\ e_x509_parse e (pem_text k) = None)).
  { apply (load_cert_inv e k n Hk Hn kl) in Hc; auto. intros [C1 C2]. destruct Hc as [(_ & E)|(C & _)]; [|contradiction].
    rewrite C2 in E. discriminate. }
  assert (G : forall (y : U verdict), match j_family j with
    | HS => y = (kk <-u take key (kl - 1) ;;
          match e_hmac e (j_hash j) kk msg with
          | None => OK (VFlag true)
          | Some mac => eq <-u memcmp_eq mem (fit 64 (fit (md_size (j_hash j)) mac)) (md_size (j_hash j)) ;; OK (VFlag (negb eq))
          end)
    | RS => y = (o <-u public_key e crt key kl ;;
          match o with
          | None => OK (VExit L8W8JWT_KEY_PARSE_FAILURE)
          | Some pk => s <-u take mem slen ;; OK (VFlag (negb (e_pk_verify e pk (j_hash j) hash s)))
          end)
    | PS => y = (o <-u public_key e crt key kl ;;
          match o with
          | None => OK (VExit L8W8JWT_KEY_PARSE_FAILURE)
          | Some pk => if negb (e_pk_rsa e pk) then KO NullDeref
              else s <-u take mem (e_rsa_len e pk) ;; OK (VFlag (negb (e_pss_verify e pk (j_hash j) hash s)))
          end)
    | ES _ _ _ => y = (o <-u public_key e crt key kl ;;
          match o with
          | None => OK (VExit L8W8JWT_KEY_PARSE_FAILURE)
          | Some pk =>
              let half := (slen / 2)%N in
              if negb (e_pk_ec e pk) then KO NullDeref
              else if negb (e_ecdsa_from_keypair e pk) then OK (VExit L8W8JWT_KEY_PARSE_FAILURE)
              else r <-u take mem half ;; s <-u take (skipn (N.to_nat half) mem) half ;;
                OK (VFlag (negb (e_ecdsa_verify e pk hash (mpi_read_binary r) (mpi_read_binary s))))
          end)
    | ED => y = (if negb (p_eddsa p) then OK (VExit L8W8JWT_UNSUPPORTED_ALG)
          else
            ok <-u (if (kl =? 64)%N then OK true
                    else if (kl =? 65)%N
                    then (b <-u read_at key 64 ;; OK (is_nul b)) else OK false) ;;
            if negb ok then OK (VExit L8W8JWT_WRONG_KEY_TYPE)
            else
              '(r, out, _) <-u l8w8jwt_hexstr2bin p (Ptr None key) kl
                                 (Ptr None (repeat x00 33)) 33 false ;;
              if negb (r =? 0)%Z then OK (VExit L8W8JWT_WRONG_KEY_TYPE)
              else
                match out with
                | None => KO UninitUse
                | Some pub => s <-u take mem 64 ;; OK (VFlag (negb (e_ed_verify e s msg (firstn 32 pub))))
                end)
    end -> comes_to p e j k msg mem y).
  { intros y. unfold comes_to, refused, misused. destruct (j_family j) as [| | |c bt wd|].
    - intros ->. rewrite E1. cbn [ubind]. right. destruct (e_hmac _ _ _ _) as [mac|].
      2:{ right. split; [tauto|]. split; [intros u ((mac & C) & _); discriminate|]. eauto. }
      unfold memcmp_eq. destruct (N.leb_spec (md_size (j_hash j)) (N.of_nat (length mem))) as [L|L].
      + right. split; [tauto|]. split; [intros u (_ & C & _); lia|]. rewrite take_ok by exact L. cbn [ubind].
        rewrite take_ok by (rewrite fit_length; destruct (j_hash j); simpl; lia). cbn [ubind]. eauto.
      + left. split; [tauto|]. exists OOBRead. split; [eauto|]. split; [tauto|]. rewrite take_short by exact L. reflexivity.
    - intros ->. rewrite Ho. cbn [ubind]. destruct o as [pk|].
      + right. right. split; [intros [C|[C|C]]; [tauto|eapply C; eauto|tauto]|]. split; [auto|].
        rewrite take_ok by exact Hsl. cbn [ubind]. eauto.
      + left. split; [auto|]. eexists. split; [reflexivity|discriminate].
    - intros ->. rewrite Ho. cbn [ubind]. destruct o as [pk|].
      + right. assert (Nr : ~ ((certificate k /\ e_x509_parse e (pem_text k) = None)
          \/ (forall pk0 : Env.pk, ~ public_key_of e k pk0) \/ e_md e (j_hash j) msg = None))
          by (intros [C|[C|C]]; [tauto|eapply C; eauto|tauto]).
        destruct (e_pk_rsa e pk) eqn:Er; cbn [negb].
        * destruct (N.leb_spec (e_rsa_len e pk) (N.of_nat (length mem))) as [L|L].
          -- right. split; [exact Nr|]. split.
             { intros u (pk' & C1 & C2). rewrite (public_key_fun _ _ _ _ C1 Hpk) in C2. destruct C2 as [[C2 _]|(_ & C2 & _)]; [congruence|lia]. }
             rewrite take_ok by exact L. cbn [ubind]. eauto.
          -- left. split; [exact Nr|]. exists OOBRead. split; [exists pk; auto|]. split; [|rewrite take_short by exact L; reflexivity].
             intros u (pk' & C1 & C2). rewrite (public_key_fun _ _ _ _ C1 Hpk) in C2. destruct C2 as [[C2 _]|(_ & _ & C2)]; congruence.
        * left. split; [exact Nr|]. exists NullDeref. split; [exists pk; auto|]. split; [|reflexivity].
          intros u (pk' & C1 & C2). rewrite (public_key_fun _ _ _ _ C1 Hpk) in C2. destruct C2 as [[_ C2]|(C2 & _)]; congruence.
      + left. split; [auto|]. eexists. split; [reflexivity|discriminate].
    - intros ->. rewrite Ho. cbn [ubind]. destruct o as [pk|].
      + destruct (e_pk_ec e pk) eqn:Er; cbn [negb]; cbv zeta.
        * destruct (e_ecdsa_from_keypair e pk) eqn:Ek; cbn [negb].
          -- right. right. split.
             { intros [C|[C|[C|(pk' & C1 & _ & C2)]]]; [tauto|eapply C; eauto|tauto|].
               rewrite (public_key_fun _ _ _ _ C1 Hpk) in C2. congruence. }
             split. { intros u (pk' & C1 & C2 & _). rewrite (public_key_fun _ _ _ _ C1 Hpk) in C2. congruence. }
             rewrite take_ok by lia. cbn [ubind]. rewrite take_ok by (rewrite skipn_length; lia). cbn [ubind]. eauto.
          -- left. split; [right; right; right; eauto|]. eexists. split; [reflexivity|discriminate].
        * right. left. split.
          { intros [C|[C|[C|(pk' & C1 & C2 & _)]]]; [tauto|eapply C; eauto|tauto|].
            rewrite (public_key_fun _ _ _ _ C1 Hpk) in C2. congruence. }
          exists NullDeref. split; [exists pk; auto|]. split; [|reflexivity]. intros u (_ & _ & _ & C). exact C.
      + left. split; [auto|]. eexists. split; [reflexivity|discriminate].
    - intros ->. destruct (p_eddsa p) eqn:Eed; cbn [negb]; [|left; split; [auto|]; eexists; split; [reflexivity|discriminate]].
      assert (Elen : length key = N.to_nat 8192).
      { unfold key. pose proof (key_length k n Hk ltac:(lia)). lia. }
      destruct (pem_text_hmac k n Hk Hn) as [Ep Lp].
      assert (Hok : exists ok, (if (kl =? 64)%N then OK true
                    else if (kl =? 65)%N then (b <-u read_at key 64 ;; OK (is_nul b)) else OK false) = OK ok
                    /\ (ok = true -> kl = 64%N \/ kl = 65%N)
                    /\ (ok = false -> kl <> 65%N)).
      { destruct (N.eqb_spec kl 64); [exists true; repeat split; auto; discriminate|]. destruct (N.eqb_spec kl 65) as [E65|]; [|exists false; repeat split; auto; discriminate].
        rewrite read_at_ok by lia. cbn [ubind]. eexists. split; [reflexivity|]. split; [auto|]. intros K. exfalso.
        unfold take in E2. replace (kl <=? N.of_nat (length key))%N with true in E2 by lia.
        assert (E3 : firstn (N.to_nat kl) key = pem_text k) by congruence.
        assert (E4 : nth (N.to_nat 64) key x00 = nth (N.to_nat 64) (pem_text k) x00).
        { rewrite <- E3. symmetry. rewrite <- (firstn_skipn (N.to_nat kl) key) at 2.
          rewrite app_nth1; [reflexivity|]. rewrite firstn_length. lia. }
        rewrite E4 in K. unfold pem_text in K, Lp, Ekl. unfold hmac_key in Lp.
        assert (Hne : k <> []) by (intros E0; rewrite E0 in Hk; simpl in Hk; lia).
        destruct (exists_last Hne) as (k0 & z & E0). rewrite E0, last_last in *. destruct (is_nul z) eqn:Ez.
        - rewrite app_length in Ekl. cbn [length] in Ekl.
          rewrite app_nth2 in K by lia. replace (N.to_nat 64 - length k0)%nat with 0%nat in K by lia. cbn [nth] in K. congruence.
        - rewrite !app_length in Ekl. cbn [length] in Ekl.
          rewrite app_nth2 in K by (rewrite app_length; cbn [length]; lia).
          replace (N.to_nat 64 - length (k0 ++ [z]))%nat with 0%nat in K by (rewrite app_length; cbn [length]; lia).
          discriminate. }
      destruct Hok as (ok & -> & Hok & Hnok). cbn [ubind].
      destruct ok; cbn [negb]; [|left; split; [right; right; specialize (Hnok eq_refl); lia|]; eexists; split; [reflexivity|discriminate]].
      rewrite hexstr2bin_cases by (rewrite ?repeat_length; specialize (Hok eq_refl); lia).
      assert (Et : firstn (N.to_nat kl) key = pem_text k).
      { unfold take in E2. replace (kl <=? N.of_nat (length key))%N with true in E2 by lia. congruence. }
      rewrite Et, Ep.
      destruct (Nat.eqb_spec (length (hmac_key k) mod 2) 0) as [Ev|Ev]; cbn [negb].
      2:{ cbn [ubind]. left. split; [right; right; intros K; rewrite K in Ev; apply Ev; reflexivity|]. eexists. split; [reflexivity|discriminate]. }
      assert (L64 : length (hmac_key k) = 64%nat) by (specialize (Hok eq_refl); lia).
      rewrite L64. change (33 <? N.of_nat (64 / 2) + 1)%N with false. cbv iota.
      destruct (hex_loop_ok p (hmac_key k) [] (repeat x00 33)) as (od & Hlo & _).
      { rewrite L64, repeat_length. simpl. lia. }
      unfold cur_start. rewrite Hlo. cbn [ubind negb Z.eqb].
      assert (Nr : ~ ((certificate k /\ e_x509_parse e (pem_text k) = None) \/ true = false \/ 64%nat <> 64%nat)) by (intros [C|[C|C]]; [tauto|discriminate|congruence]).
      right. destruct (le_lt_dec 64 (length mem)) as [L|L].
      + right. split; [exact Nr|]. split; [intros u [C _]; lia|]. rewrite take_ok by lia. cbn [ubind]. eauto.
      + left. split; [exact Nr|]. exists OOBRead. split; [auto|]. split; [tauto|]. rewrite take_short by lia. reflexivity. }
  apply G. clear G. unfold verify_switch. pose proof Hj as [Hin <-]. simpl in Hin. clear - Hin.
  decompose [or] Hin; try contradiction; subst; reflexivity.
Qed.
End Exact.

Lemma verify_body_exact p e dp j b jwt h pl rest k mem slen :
  dp_jwt dp = Ptr b jwt -> three_parts jwt h pl rest ->
  supported (dp_alg dp) j -> caller_key (dp_verification_key dp) (dp_verification_key_length dp) k ->
  key_ok (dp_verification_key dp) (dp_verification_key_length dp) -> (slen <= N.of_nat (length mem))%N ->
  comes_to p e j k (h ++ lit "." ++ pl) mem (verify_body p e dp mem slen).
Proof.
  intros Ej H3 Hj Hck (Hn & k' & Hck' & Hl) Hs. unfold verify_body.
  destruct Hck as (kb & m & Eq & Hm & Ek). destruct Hck' as (kb' & m' & Eq' & Hm' & Ek').
  rewrite Eq in Eq'. assert (Em : m' = m) by congruence. subst m'.
  assert (Ekk : k' = k) by congruence. rewrite Ekk in *. clear k' Ek' Ekk Hm' Eq'.
  set (n := dp_verification_key_length dp) in *.
  assert (Hk : length k = N.to_nat n) by (rewrite Ek, firstn_length; lia).
  rewrite Eq, load_key_ok by lia. rewrite <- Ek. cbn [ubind].
  destruct (key_parts k n Hk Hn Hl) as (kl & Ha & _). rewrite Ha. cbn [ubind].
  destruct (load_cert_ok e k n Hk Hn Hl kl Ha) as (crt & Hc). rewrite Hc. cbn [ubind].
  destruct crt as [crt|].
  2:{ left. apply (load_cert_inv e k n Hk Hn kl) in Hc; auto.
      destruct Hc as [(C & E)|(_ & E)]; [|discriminate].
      split; [left; split; [exact C|]; destruct (e_x509_parse e (pem_text k)); [discriminate|reflexivity]|].
      eexists. split; [reflexivity|discriminate]. }
  rewrite Ej. cbn [deref ubind]. destruct (signing_input_cut _ _ _ _ H3) as (-> & S2 & S3). cbn [ubind].
  rewrite S2. cbn [ubind]. rewrite S3.
  destruct (verify_hash e (dp_alg dp) (h ++ lit "." ++ pl)) as [hash|] eqn:Eh.
  2:{ left. split; [|eexists; split; [reflexivity|discriminate]]. right. unfold verify_hash in Eh.
      clear - Hj Eh. destruct Hj as [Hin E0]. rewrite <- E0 in Eh. clear E0. simpl in Hin.
      decompose [or] Hin; try contradiction; subst; cbn [j_id j_family j_hash Z.leb Z.compare Pos.compare Pos.compare_cont andb
        dec_md_info_from_alg] in *; try discriminate Eh;
      match type of Eh with context [e_md e ?x ?y] => destruct (e_md e x y); [discriminate|auto] end. }
  eapply verify_switch_exact; eauto.
  unfold verify_hash in Eh. clear - Hj Eh. destruct Hj as [Hin E0]. rewrite <- E0 in Eh. clear E0. simpl in Hin.
  decompose [or] Hin; try contradiction; subst; cbn [j_id j_family j_hash Z.leb Z.compare Pos.compare Pos.compare_cont andb
    dec_md_info_from_alg] in *; try exact I; intros C; rewrite C in Eh; discriminate Eh.
Qed.

Lemma verify_body_unknown p e dp b jwt h pl rest k mem slen :
  dp_jwt dp = Ptr b jwt -> three_parts jwt h pl rest -> (dp_alg dp < 0 \/ 13 < dp_alg dp)%Z ->
  caller_key (dp_verification_key dp) (dp_verification_key_length dp) k ->
  key_ok (dp_verification_key dp) (dp_verification_key_length dp) ->
  (certificate k /\ e_x509_parse e (pem_text k) = None /\ exists r, verify_body p e dp mem slen = OK (VExit r) /\ r <> L8W8JWT_SUCCESS)
  \/ (~ (certificate k /\ e_x509_parse e (pem_text k) = None) /\ verify_body p e dp mem slen = OK (VFlag false)).
Proof.
  intros Ej H3 Hj Hck (Hn & k' & Hck' & Hl). unfold verify_body.
  destruct Hck as (kb & m & Eq & Hm & Ek). destruct Hck' as (kb' & m' & Eq' & Hm' & Ek').
  rewrite Eq in Eq'. assert (Em : m' = m) by congruence. subst m'.
  assert (Ekk : k' = k) by congruence. rewrite Ekk in *. clear k' Ek' Ekk Hm' Eq'.
  set (n := dp_verification_key_length dp) in *.
  assert (Hk : length k = N.to_nat n) by (rewrite Ek, firstn_length; lia).
  rewrite Eq, load_key_ok by lia. rewrite <- Ek. cbn [ubind].
  destruct (key_parts k n Hk Hn Hl) as (kl & Ha & _). rewrite Ha. cbn [ubind].
  destruct (load_cert_ok e k n Hk Hn Hl kl Ha) as (crt & Hc). rewrite Hc. cbn [ubind].
  apply (load_cert_inv e k n Hk Hn kl) in Hc; auto.
  destruct crt as [crt|].
  2:{ left. destruct Hc as [(C & E)|(_ & E)]; [|discriminate]. split; [exact C|].
      split; [destruct (e_x509_parse e (pem_text k)); [discriminate|reflexivity]|]. eexists. split; [reflexivity|discriminate]. }
  right. split.
  { intros [C1 C2]. destruct Hc as [(_ & E)|(C & _)]; [rewrite C2 in E; discriminate|contradiction]. }
  rewrite Ej. cbn [deref ubind]. destruct (signing_input_cut _ _ _ _ H3) as (-> & S2 & S3). cbn [ubind].
  rewrite S2. cbn [ubind]. rewrite S3. unfold verify_hash, verify_switch.
  assert (E : dec_md_info_from_alg (dp_alg dp) = None).
  { unfold dec_md_info_from_alg. destruct (dp_alg dp) as [|a|a]; [lia| |reflexivity].
    repeat (destruct a as [a|a|]; try reflexivity; try lia). }
  rewrite E. replace ((3 <=? dp_alg dp) && (dp_alg dp <=? 12))%Z with false by lia. reflexivity.
Qed.

(** ** The typ comparison *)
(** The C library's tolower may be called on the byte: with signed char only on ASCII, and on 0xff, which
    is EOF. *)
Definition ctype_ok (p : platform) (b : byte) : Prop := p_char_signed p = true -> (b2n b < 128 \/ b2n b = 255)%N.
(** Comparing at most [n] bytes of the C strings [v] and [x] without regard to case comes to a byte that
    tolower must not be called on. *)
Definition trips (p : platform) (n : N) (v x : bytes) : Prop :=
  exists a c va b d xb, v ++ [x00] = a ++ c :: va /\ x ++ [x00] = b ++ d :: xb /\ length a = length b /\ (N.of_nat (length a) < n)%N
    /\ map ascii_lower a = map ascii_lower b /\ ~ (ctype_ok p c /\ ctype_ok p d).

Definition lowered (p : platform) (b : byte) : Z :=
  if p_char_signed p && (b2n b =? 255)%N then (-1)%Z else b2z (ascii_lower b).
Lemma tolower_exact p b :
  (ctype_ok p b /\ tolower (char_val p b) = OK (lowered p b)) \/ (~ ctype_ok p b /\ tolower (char_val p b) = KO BadCtype).
Proof.
  assert (Hr := b2n_lt b). unfold ctype_ok, lowered. destruct (p_char_signed p) eqn:Es.
  2:{ left. split; [discriminate|]. cbn [andb]. apply tolower_plain. unfold plain. rewrite Es. discriminate. }
  cbn [andb]. destruct (N.ltb_spec (b2n b) 128) as [L|L].
  { left. split; [auto|]. destruct (N.eqb_spec (b2n b) 255); [lia|]. apply tolower_plain. intros _. exact L. }
  unfold char_val. rewrite Es. cbn [andb]. replace (127 <? b2n b)%N with true by lia. unfold tolower, b2z.
  destruct (N.eqb_spec (b2n b) 255) as [E|E].
  - left. split; [auto|]. rewrite E. reflexivity.
  - right. split; [intros C; specialize (C eq_refl); lia|]. replace (Z.of_N (b2n b) - 256 <? -1)%Z with true by lia. reflexivity.
Qed.
Lemma lowered_eq p a b : lowered p a = lowered p b <-> ascii_lower a = ascii_lower b.
Proof.
  assert (F : forall c, b2n c = 255%N -> c = xff) by (intros c E; apply (f_equal n2b) in E; rewrite n2b_b2n in E; exact E).
  assert (G : forall c, ascii_lower c = xff -> c = xff) by (intros c; destruct c; intros E; try discriminate E; reflexivity).
  assert (N0 : forall c, (b2z (ascii_lower c) <> -1)%Z) by (intros c; unfold b2z; lia).
  unfold lowered. destruct (p_char_signed p); cbn [andb].
  2:{ split; [apply b2z_inj|congruence]. }
  destruct (N.eqb_spec (b2n a) 255) as [Ea|Ea], (N.eqb_spec (b2n b) 255) as [Eb|Eb].
  - rewrite (F _ Ea), (F _ Eb). tauto.
  - split; [intros C; symmetry in C; destruct (N0 _ C)|]. rewrite (F _ Ea). intros C. symmetry in C. apply G in C. subst b. exfalso. apply Eb. reflexivity.
  - split; [intros C; destruct (N0 _ C)|]. rewrite (F _ Eb). intros C. apply G in C. subst a. exfalso. apply Ea. reflexivity.
  - split; [apply b2z_inj|congruence].
Qed.

Lemma trips_cons p n c v d x : no_nul (c :: v) -> no_nul (d :: x) -> ctype_ok p c -> ctype_ok p d -> (0 < n)%N ->
  (trips p n (c :: v) (d :: x) <-> ascii_lower c = ascii_lower d /\ trips p (n - 1) v x).
Proof.
  intros Hv Hx Hc Hd Hn. split.
  - intros (a & c' & va & b & d' & xb & E1 & E2 & El & L & Em & K). destruct a as [|c0 a], b as [|d0 b]; cbn [length] in El; try lia.
    + cbn [app] in E1, E2. injection E1 as -> _. injection E2 as -> _. tauto.
    + cbn [app] in E1, E2. injection E1 as -> E1. injection E2 as -> E2. cbn [map length] in Em, L. injection Em as Em1 Em2.
      split; [exact Em1|]. exists a, c', va, b, d', xb. repeat (split; [assumption || lia|]). exact K.
  - intros (E & a & c' & va & b & d' & xb & E1 & E2 & El & L & Em & K).
    exists (c :: a), c', va, (d :: b), d', xb. cbn [app length map]. repeat (split; [congruence || lia|]). exact K.
Qed.
Lemma strncmpic_exact p v r1 : forall x r2 n ret, no_nul v -> no_nul x ->
  (trips p n v x /\ strncmpic_loop p (v ++ x00 :: r1) (x ++ x00 :: r2) n ret = KO BadCtype)
  \/ (~ trips p n v x /\ exists z, strncmpic_loop p (v ++ x00 :: r1) (x ++ x00 :: r2) n ret = OK z).
Proof.
  assert (Nul : ctype_ok p x00) by (intros _; left; reflexivity).
  assert (N0 : forall c, c <> x00 -> ascii_lower c <> x00) by (intros c Hc E; apply Hc, lower_nul, E).
  assert (Zero : forall v x, ~ trips p 0 v x) by (intros v0 x0 (a & c & va & b & d & xb & _ & _ & _ & L & _); lia).
  induction v as [|c v IH]; intros [|d x] r2 n ret Hv Hx; cbn [app strncmpic_loop].
  - change (is_nul x00) with true. cbn [andb]. right. split; [|eauto].
    intros (a & c & va & b & d & xb & E1 & E2 & El & L & _ & K). destruct a as [|? [|? ?]], b as [|? [|? ?]]; cbn [length] in El; try lia; try discriminate; cbn [app] in E1, E2; try discriminate.
    injection E1 as <- _. injection E2 as <- _. tauto.
  - apply no_nul_cons in Hx as [Hd Hx]. change (is_nul x00) with true. pose proof Hd as Hd'. apply is_nul_false in Hd'. rewrite Hd'. cbn [andb].
    destruct (N.eqb_spec n 0) as [->|Hn]; [right; split; [apply Zero|eauto]|].
    destruct (tolower_exact p x00) as [[_ ->]|[C _]]; [|contradiction]. cbn [ubind].
    destruct (tolower_exact p d) as [[Kd ->]|[Kd ->]]; cbn [ubind].
    + right. split.
      * intros (a & c & va & b & d' & xb & E1 & E2 & El & L & Em & K). destruct a as [|? [|? ?]], b as [|d0 b]; cbn [length] in El; try lia; try discriminate; cbn [app] in E1, E2; try discriminate.
        injection E1 as <- _. injection E2 as <- _. tauto.
      * destruct (Z.eqb_spec (lowered p x00 - lowered p d) 0) as [E|E]; cbn [negb]; [|eauto].
        exfalso. apply (N0 d Hd). symmetry. change x00 with (ascii_lower x00). apply lowered_eq with (p := p). lia.
    + left. split; [|reflexivity]. exists [], x00, [], [], d, (x ++ [x00]). repeat (split; [reflexivity || lia|]). split; [simpl; lia|]. split; [reflexivity|]. tauto.
  - apply no_nul_cons in Hv as [Hc Hv]. pose proof Hc as Hc'. apply is_nul_false in Hc'. rewrite Hc'. cbn [andb].
    destruct (N.eqb_spec n 0) as [->|Hn]; [right; split; [apply Zero|eauto]|].
    destruct (tolower_exact p c) as [[Kc ->]|[Kc ->]]; cbn [ubind].
    2:{ left. split; [|reflexivity]. exists [], c, (v ++ [x00]), [], x00, []. repeat (split; [reflexivity || (simpl; lia)|]). tauto. }
    destruct (tolower_exact p x00) as [[_ ->]|[C _]]; [|contradiction]. cbn [ubind].
    right. split.
    + intros (a & c0 & va & b & d' & xb & E1 & E2 & El & L & Em & K). destruct b as [|? [|? ?]], a as [|d0 a]; cbn [length] in El; try lia; try discriminate; cbn [app] in E1, E2; try discriminate.
      injection E1 as <- _. injection E2 as <- _. tauto.
    + destruct (Z.eqb_spec (lowered p c - lowered p x00) 0) as [E|E]; cbn [negb]; [|eauto].
      exfalso. apply (N0 c Hc). change x00 with (ascii_lower x00). apply lowered_eq with (p := p). lia.
  - pose proof Hv as Hv0. pose proof Hx as Hx0. apply no_nul_cons in Hv as [Hc Hv]. apply no_nul_cons in Hx as [Hd Hx].
    pose proof Hc as Hc'. apply is_nul_false in Hc'. rewrite Hc'. cbn [andb].
    destruct (N.eqb_spec n 0) as [->|Hn]; [right; split; [apply Zero|eauto]|].
    assert (Bad : ~ (ctype_ok p c /\ ctype_ok p d) -> trips p n (c :: v) (d :: x)).
    { intros K. exists [], c, (v ++ [x00]), [], d, (x ++ [x00]). repeat (split; [reflexivity || (simpl; lia)|]). exact K. }
    destruct (tolower_exact p c) as [[Kc ->]|[Kc ->]]; cbn [ubind]; [|left; split; [apply Bad; tauto|reflexivity]].
    destruct (tolower_exact p d) as [[Kd ->]|[Kd ->]]; cbn [ubind]; [|left; split; [apply Bad; tauto|reflexivity]].
    destruct (Z.eqb_spec (lowered p c - lowered p d) 0) as [E|E]; cbn [negb].
    + assert (El : ascii_lower c = ascii_lower d) by (apply lowered_eq with (p := p); lia).
      destruct (IH x r2 (n - 1)%N (lowered p c - lowered p d)%Z Hv Hx) as [[T ->]|[T (z & ->)]];
        [left|right]; (split; [|eauto]); rewrite trips_cons by (assumption || lia); tauto.
    + right. split; [|eauto]. rewrite trips_cons by (assumption || lia). intros [C _]. apply E. apply lowered_eq with (p := p) in C. lia.
Qed.

(** The caller's requests, whatever the bytes of the expected typ. *)
Definition requests_readable (e : env) (dp : dec_params) : Prop :=
  expectable (dp_validate_sub dp) (dp_validate_sub_length dp)
  /\ expectable (dp_validate_aud dp) (dp_validate_aud_length dp)
  /\ expectable (dp_validate_iss dp) (dp_validate_iss_length dp)
  /\ expectable (dp_validate_jti dp) (dp_validate_jti_length dp)
  /\ times_ok e dp
  /\ (dp_validate_typ dp = Null \/ exists b x r, dp_validate_typ dp = Ptr b (x ++ x00 :: r) /\ no_nul x).
Definition typ_trips (p : platform) (dp : dec_params) (es : list entry) : Prop :=
  exists b x r v, dp_validate_typ dp = Ptr b (x ++ x00 :: r) /\ no_nul x
    /\ value_of (prefixb (lit "typ")) (map kv_of es) = Some v /\ trips p (dp_validate_typ_length dp) v x.
Lemma cstr_fun (s1 : bytes) : forall s2 r1 r2, no_nul s1 -> no_nul s2 -> s1 ++ x00 :: r1 = s2 ++ x00 :: r2 -> s1 = s2.
Proof.
  induction s1 as [|c s1 IH]; intros [|d s2] r1 r2 H1 H2 E; [reflexivity| | |].
  - cbn [app] in E. injection E as E _. apply no_nul_cons in H2 as [K _]. congruence.
  - cbn [app] in E. injection E as E _. apply no_nul_cons in H1 as [K _]. congruence.
  - cbn [app] in E. injection E as -> E. apply no_nul_cons in H1 as [_ H1], H2 as [_ H2]. f_equal. eauto.
Qed.
Lemma validate_claims_exact p e dp b cs es res :
  Forall2 holds cs es -> Forall entry_plain es -> requests_readable e dp ->
  (typ_trips p dp es /\ l8w8jwt_validate_claims p e dp (CArr b cs) (N.of_nat (length cs)) res = KO BadCtype)
  \/ (~ typ_trips p dp es /\ exists v, l8w8jwt_validate_claims p e dp (CArr b cs) (N.of_nat (length cs)) res = OK v).
Proof.
  intros Hh Hpl (R1 & R2 & R3 & R4 & (T1 & T2 & T3) & R5). pose proof (holds_told _ _ Hh Hpl) as Ht. unfold l8w8jwt_validate_claims. cbv zeta.
  assert (Str : forall name q n fl res, expectable q n -> no_nul (lit name) -> String.length name = 3%nat ->
    exists r, flag_if (negb (is_null q)) (string_check (CArr b cs) (N.of_nat (length cs)) name q n) fl res = OK r).
  { intros name q n fl rs Hq Hz Hl. apply flag_if_ok. intros Hb. destruct Hq as [->|(s & Hs)]; [discriminate|].
    eapply string_check_ok; eauto. }
  assert (Tim : forall name (on : bool) now fails fl res, (on = true -> (I64_MIN <= now <= I64_MAX)%Z) -> no_nul (lit name) ->
    String.length name = 3%nat ->
    exists r, flag_if on (time_check (CArr b cs) (N.of_nat (length cs)) name now fails) fl res = OK r).
  { intros name on now fails fl rs Ho Hz Hl. apply flag_if_ok. intros Hb. eapply time_check_ok; eauto. }
  edestruct (Str "sub"%string) as (r1 & ->); [exact R1|vm_compute; intuition discriminate|reflexivity|cbn [ubind]].
  edestruct (Str "aud"%string) as (r2 & ->); [exact R2|vm_compute; intuition discriminate|reflexivity|cbn [ubind]].
  edestruct (Str "iss"%string) as (r3 & ->); [exact R3|vm_compute; intuition discriminate|reflexivity|cbn [ubind]].
  edestruct (Str "jti"%string) as (r4 & ->); [exact R4|vm_compute; intuition discriminate|reflexivity|cbn [ubind]].
  edestruct (Tim "exp"%string) as (r5 & ->); [exact T1|vm_compute; intuition discriminate|reflexivity|cbn [ubind]].
  edestruct (Tim "nbf"%string) as (r6 & ->); [exact T2|vm_compute; intuition discriminate|reflexivity|cbn [ubind]].
  edestruct (Tim "iat"%string) as (r7 & ->); [exact T3|vm_compute; intuition discriminate|reflexivity|cbn [ubind]].
  destruct R5 as [R5|(eb & x & r & R5 & Hx)].
  { right. split; [intros (b0 & x & r & v & C & _); congruence|]. rewrite R5. cbn [is_null negb flag_if]. eauto. }
  rewrite R5. cbn [is_null negb flag_if]. unfold typ_check.
  pose proof (get_claim_told b cs _ "typ"%string Ht ltac:(vm_compute; intuition discriminate) eq_refl) as G.
  destruct (value_of (prefixb (lit "typ")) (map kv_of es)) as [v|] eqn:Ev.
  - destruct G as (c & k & -> & (_ & _ & (vb & vr & Eval) & _) & Hv). cbn [ubind]. rewrite Eval. cbn [l8w8jwt_strncmpic].
    destruct (strncmpic_exact p v vr x r (dp_validate_typ_length dp) (-1)%Z Hv Hx) as [[T ->]|[T (z & ->)]]; cbn [ubind].
    + left. split; [|reflexivity]. exists eb, x, r, v. auto.
    + right. split; [|eauto]. intros (b0 & x0 & r0 & v0 & E1 & H1 & E2 & K). rewrite R5 in E1. injection E1 as _ E1.
      rewrite <- (cstr_fun _ _ _ _ Hx H1 E1) in K. rewrite Ev in E2. injection E2 as <-. contradiction.
  - rewrite G. cbn [ubind]. right. split; [|eauto]. intros (b0 & x0 & r0 & v0 & _ & _ & E & _). congruence.
Qed.

(** ** Parsing and validation *)
(** Reading the claims of header and payload and comparing the typ goes wrong. *)
Definition unreadable (p : platform) (e : env) (dp : dec_params) (hj ht pj pt : bytes) (u : ub) : Prop :=
  (u = OOBRead /\ (has_fate e hj ht Over \/ exists eh, has_fate e hj ht (Read eh) /\ has_fate e pj pt Over))
  \/ (u = BadCtype /\ exists eh ep, has_fate e hj ht (Read eh) /\ has_fate e pj pt (Read ep) /\ typ_trips p dp (eh ++ ep)).

(** The outcome [y] is undefined exactly for the [u] with [bad u]. *)
Definition exactly {A} (bad : ub -> Prop) (y : res A) : Prop :=
  (exists u, bad u /\ (forall u', bad u' -> u' = u) /\ y = Undef u) \/ ((forall u, ~ bad u) /\ exists x w', y = Ret x w').

Lemma parse_rest_exact p e dp b1 hj ht b2 pj pt sg3 id rs w :
  wf w -> allocs w -> grows w -> uses_jsmn e -> (32 <= p_size_bits p)%N ->
  (Z.of_nat (length hj) <= INT_MAX)%Z -> (Z.of_nat (length pj) <= INT_MAX)%Z -> (13 <= length ht)%nat -> (13 <= length pt)%nat ->
  requests_readable e dp ->
  exactly (unreadable p e dp hj ht pj pt)
    (parse_rest p e dp (Segs (Seg (Ptr b1 (hj ++ ht)) (N.of_nat (length hj))) (Seg (Ptr b2 (pj ++ pt)) (N.of_nat (length pj))) sg3)
       (CB id []) rs w).
Proof.
  intros Hwf Ha Hg Hj Hp L1 L2 T1 T2 Hr. unfold parse_rest. cbn [s_ptr s_len sg_header sg_payload].
  assert (Al : forall x y, later x y -> allocs x -> allocs y) by (intros x y (E0 & _) H0 q; rewrite E0; apply H0).
  destruct (parse_claims_fate p e (CB id []) b1 hj ht w Hj Hp L1 ltac:(lia) Hwf) as (f1 & F1 & U1 & K1). destruct f1 as [eh| |].
  - destruct K1 as (rc & c1 & w1 & E1 & S1 & C1). specialize (S1 Ha). subst rc. destruct (C1 eq_refl) as (n1 & s1 & Ec1 & _ & H1 & P1 & G1).
    rewrite (G1 Hg) in H1. clear C1 G1 s1. mstep E1. change (negb (L8W8JWT_SUCCESS =? L8W8JWT_SUCCESS)%Z) with false. cbv iota.
    apply parse_claims_inv in E1 as (hb & hm & m1 & l1 & _ & _ & (_ & _ & _ & A1) & _); [|exact Hwf].
    assert (W1 : wf w1) by (eapply adds_wf; eauto). assert (Lt : later w w1) by (eapply adds_later; exact A1).
    assert (Al1 : allocs w1) by (eapply Al; eauto). assert (Gr1 : grows w1) by (eapply grows_later; eauto).
    destruct (parse_claims_fate p e c1 b2 pj pt w1 Hj Hp L2 ltac:(lia) W1) as (f2 & F2 & U2 & K2). destruct f2 as [ep| |].
    + destruct K2 as (rc & c2 & w2 & E2 & S2 & C2). specialize (S2 Al1). subst rc. destruct (C2 eq_refl) as (n2 & s2 & Ec2 & _ & H2 & P2 & G2).
      rewrite (G2 Gr1) in H2. clear C2 G2 s2. mstep E2. change (negb (L8W8JWT_SUCCESS =? L8W8JWT_SUCCESS)%Z) with false. cbv iota.
      rewrite Ec1 in Ec2. cbn [cb_elems app] in Ec2. unfold cb_len. rewrite Ec2.
      destruct (validate_claims_exact p e dp (Some (cb_id c2)) (n1 ++ n2) (eh ++ ep) rs) as [[T E]|[T (v & E)]];
        [apply Forall2_app; assumption|apply Forall_app; auto|exact Hr| |]; unfold mbind at 1; rewrite E; cbn [lift].
      * left. exists BadCtype. split; [right; split; [reflexivity|eauto 6]|]. split; [|reflexivity].
        intros u' [(_ & [C|(eh' & _ & C)])|(-> & _)]; [apply U1 in C; discriminate|apply U2 in C; discriminate|reflexivity].
      * right. split; [|do 2 eexists; reflexivity].
        intros u' [(_ & [C|(eh' & _ & C)])|(_ & eh' & ep' & D1 & D2 & C)]; [apply U1 in C; discriminate|apply U2 in C; discriminate|].
        apply U1 in D1. apply U2 in D2. injection D1 as ->. injection D2 as ->. contradiction.
    + destruct K2 as (rc & c2 & w2 & E2 & S2 & _). mstep E2. apply Z.eqb_neq in S2. rewrite S2. cbn [negb]. right. split; [|do 2 eexists; reflexivity].
      intros u' [(_ & [C|(eh' & _ & C)])|(_ & eh' & ep' & D1 & D2 & C)]; [apply U1 in C|apply U2 in C|apply U2 in D2]; discriminate.
    + unfold mbind at 1. rewrite (proj1 K2 Al1). left. exists OOBRead. split; [left; eauto|]. split; [|reflexivity].
      intros u' [(E & _)|(_ & eh' & ep' & D1 & D2 & C)]; [exact E|apply U2 in D2; discriminate].
  - destruct K1 as (rc & c1 & w1 & E1 & S1 & _). mstep E1. apply Z.eqb_neq in S1. rewrite S1. cbn [negb]. right. split; [|do 2 eexists; reflexivity].
    intros u' [(_ & [C|(eh' & C & _)])|(_ & eh' & ep' & D1 & D2 & C)]; [apply U1 in C|apply U1 in C|apply U1 in D1]; discriminate.
  - unfold mbind at 1. rewrite (proj1 K1 Ha). left. exists OOBRead. split; [left; auto|]. split; [|reflexivity].
    intros u' [(E & _)|(_ & eh' & ep' & D1 & D2 & C)]; [exact E|apply U1 in D1; discriminate].
Qed.

(** ** The body of decode *)
Lemma verify_signature_of p e dp rs b mem n w : wf w -> allocs w -> dp_alg dp <> (-1)%Z -> n <> 0%N ->
  match verify_body p e dp mem n with
  | OK v => exists w', l8w8jwt_verify_signature p e dp rs (Ptr b mem) n w = Ret (verdict_result rs v) w' /\ quiet w w'
  | KO u => l8w8jwt_verify_signature p e dp rs (Ptr b mem) n w = Undef u
  end.
Proof.
  intros Hwf Ha Hm Hn. destruct (verify_body p e dp mem n) as [v|u] eqn:Ev.
  - destruct (verify_signature_total p e dp rs b mem n w Hwf (or_intror Ha)) as (rc & r' & w' & H); [eauto|].
    pose proof H as H'. apply verify_signature_inv in H as [Q [([C|[C|C]] & _)|(b' & sg' & v' & _ & E & _ & Hb & Er)]]; try contradiction; try discriminate; auto.
    assert (Es : sg' = mem) by congruence. rewrite Es, Ev in Hb. injection Hb as <-. exists w'. rewrite <- Er. auto.
  - unfold l8w8jwt_verify_signature. cbn [is_null]. replace (dp_alg dp =? -1)%Z with false by lia. replace (n =? 0)%N with false by lia.
    cbn [orb]. cbv zeta. destruct (p_small_stack p).
    + unfold mbind at 1. rewrite calloc_eq, (Ha _). cbn [is_null]. unfold mbind at 1. unfold mbind at 1. cbn [deref lift]. rewrite Ev. reflexivity.
    + unfold mbind at 1. cbn [deref lift]. unfold mbind at 1. rewrite Ev. reflexivity.
Qed.

(** The key was not turned down, the signature read. *)
Definition verdict_reached (p : platform) (e : env) (dp : dec_params) (msg mem : bytes) : Prop :=
  dp_alg dp = (-1)%Z
  \/ exists k, caller_key (dp_verification_key dp) (dp_verification_key_length dp) k
     /\ ((exists j, supported (dp_alg dp) j /\ ~ refused p e j k msg /\ forall u, ~ misused e j k msg mem u)
         \/ (dp_alg dp <> (-1)%Z /\ (forall j, ~ supported (dp_alg dp) j) /\ ~ (certificate k /\ e_x509_parse e (pem_text k) = None))).
Definition bad3 (p : platform) (e : env) (dp : dec_params) (msg hj ht pj pt mem : bytes) (u : ub) : Prop :=
  (exists j k, supported (dp_alg dp) j /\ caller_key (dp_verification_key dp) (dp_verification_key_length dp) k
     /\ ~ refused p e j k msg /\ misused e j k msg mem u)
  \/ (verdict_reached p e dp msg mem /\ unreadable p e dp hj ht pj pt u).

Lemma caller_key_fun q n k k' : caller_key q n k -> caller_key q n k' -> k = k'.
Proof. intros (b & m & E & _ & ->) (b' & m' & E' & _ & ->). congruence. Qed.
Lemma supported_fun a j j' : supported a j -> supported a j' -> j = j'.
Proof.
  intros [H1 E1] [H2 E2]. simpl in H1, H2. decompose [or] H1; try contradiction; subst j; cbn [j_id] in E1; subst a;
    decompose [or] H2; try contradiction; subst j'; try reflexivity; discriminate E2.
Qed.

Lemma decode_body3 p e dp h pl s hj ht pj pt sig st id w :
  wf w -> allocs w -> grows w -> uses_jsmn e -> (32 <= p_size_bits p)%N ->
  c_text p dp (h ++ lit "." ++ pl ++ lit "." ++ s) -> no_dot h -> no_dot pl ->
  b64_decodes h hj ht -> b64_decodes pl pj pt -> b64_decodes s sig st ->
  (Z.of_nat (length hj) <= INT_MAX)%Z -> (Z.of_nat (length pj) <= INT_MAX)%Z ->
  (dp_alg dp <> (-1)%Z -> key_ok (dp_verification_key dp) (dp_verification_key_length dp)) -> requests_readable e dp ->
  exactly (bad3 p e dp (h ++ lit "." ++ pl) hj ht pj pt (sig ++ st)) (decode_body p e dp (CB id []) w).
Proof.
  intros Hwf Ha Hg Hj Hp Ht N1 N2 D1 D2 D3 L1 L2 Hk Hr. unfold decode_body.
  destruct (decode_segments_ok p dp h pl s hj ht pj pt sig st w Hwf Ha Ht N1 N2 D1 D2 D3) as (i1 & i2 & i3 & w1 & H1 & W1 & A1 & Lt1).
  mstep H1. change (negb (L8W8JWT_SUCCESS =? L8W8JWT_SUCCESS)%Z) with false. cbn [s_ptr s_len sg_signature sg_header sg_payload].
  assert (G1 : grows w1) by (eapply grows_later; eauto).
  pose proof Ht as ((b & rest & Ej) & Hz & _ & _).
  assert (T3 : three_parts ((h ++ lit "." ++ pl ++ lit "." ++ s) ++ x00 :: rest) h pl (s ++ x00 :: rest)).
  { split; [rewrite <- !app_assoc; reflexivity|].
    assert (Z1 : no_nul h) by (intros K; apply Hz; rewrite !in_app_iff; auto).
    assert (Z2 : no_nul pl) by (intros K; apply Hz; rewrite !in_app_iff; auto). auto. }
  pose proof (b64_decodes_len _ _ _ D3) as [Ls _]. pose proof (b64_decodes_tail _ _ _ D1) as T1. pose proof (b64_decodes_tail _ _ _ D2) as T2.
  set (msg := h ++ lit "." ++ pl) in *.
  assert (Al : forall x y, later x y -> allocs x -> allocs y) by (intros x y (E0 & _) H0 q; rewrite E0; apply H0).
  (* once the verdict is there *)
  assert (Go : forall rs w2, l8w8jwt_verify_signature p e dp L8W8JWT_VALID (Ptr (Some i3) (sig ++ st)) (N.of_nat (length sig)) w1
                 = Ret (L8W8JWT_SUCCESS, rs) w2 -> quiet w1 w2 -> verdict_reached p e dp msg (sig ++ st) ->
    (forall u, ~ exists j k, supported (dp_alg dp) j /\ caller_key (dp_verification_key dp) (dp_verification_key_length dp) k
       /\ ~ refused p e j k msg /\ misused e j k msg (sig ++ st) u) ->
    exactly (bad3 p e dp msg hj ht pj pt (sig ++ st))
      (parse_rest p e dp (Segs (Seg (Ptr (Some i1) (hj ++ ht)) (N.of_nat (length hj)))
                               (Seg (Ptr (Some i2) (pj ++ pt)) (N.of_nat (length pj)))
                               (Seg (Ptr (Some i3) (sig ++ st)) (N.of_nat (length sig)))) (CB id []) rs w2)).
  { intros rs w2 H2 Q2 V Nm. pose proof (quiet_later _ _ Q2) as Lt2.
    destruct (parse_rest_exact p e dp (Some i1) hj ht (Some i2) pj pt (Seg (Ptr (Some i3) (sig ++ st)) (N.of_nat (length sig))) id rs w2)
      as [(u & B1 & B2 & E)|(B & x & w' & E)]; auto; [eapply wf_quiet; eauto|eapply Al; eauto|eapply grows_later; eauto| |].
    - left. exists u. split; [right; auto|]. split; [|exact E]. intros u' [C|[_ C]]; [destruct (Nm _ C)|auto].
    - right. split; [|eauto]. intros u' [C|[_ C]]; [destruct (Nm _ C)|apply (B _ C)]. }
  fold (parse_rest p e dp (Segs (Seg (Ptr (Some i1) (hj ++ ht)) (N.of_nat (length hj)))
                               (Seg (Ptr (Some i2) (pj ++ pt)) (N.of_nat (length pj)))
                               (Seg (Ptr (Some i3) (sig ++ st)) (N.of_nat (length sig)))) (CB id [])).
  destruct (Z.eq_dec (dp_alg dp) (-1)) as [Em|Em].
  { assert (H2 : l8w8jwt_verify_signature p e dp L8W8JWT_VALID (Ptr (Some i3) (sig ++ st)) (N.of_nat (length sig)) w1
                 = Ret (L8W8JWT_SUCCESS, L8W8JWT_VALID) w1) by (unfold l8w8jwt_verify_signature; rewrite Em; reflexivity).
    mstep H2. change (negb (L8W8JWT_SUCCESS =? L8W8JWT_SUCCESS)%Z) with false. apply Go; [exact H2|apply quiet_refl|left; exact Em|].
    intros u (j & k' & C & _). destruct (supported_range _ _ C). lia. }
  specialize (Hk Em). pose proof Hk as (_ & k & Hck & _).
  pose proof (verify_signature_of p e dp L8W8JWT_VALID (Some i3) (sig ++ st) (N.of_nat (length sig)) w1 W1 A1 Em ltac:(lia)) as HV.
  destruct (Z_le_dec 0 (dp_alg dp)) as [R0|R0]; [destruct (Z_le_dec (dp_alg dp) 13) as [R1|R1]|].
  2,3: assert (Nj : forall j, ~ supported (dp_alg dp) j) by (intros j C; destruct (supported_range _ _ C); lia);
       destruct (verify_body_unknown p e dp b _ h pl _ k (sig ++ st) (N.of_nat (length sig)) Ej T3 ltac:(lia) Hck Hk)
         as [(C1 & C2 & r & E & Hr0)|(C & E)]; rewrite E in HV; destruct HV as (w2 & H2 & Q2); cbn [verdict_result] in H2; pose proof H2 as H2'; mstep H2;
       [apply Z.eqb_neq in Hr0; rewrite Hr0; cbn [negb]; right; split; [|do 2 eexists; reflexivity];
        intros u [(j & k' & C & _)|[[C|(k' & Hk' & [(j & C & _)|(_ & _ & C)])] _]];
          [exact (Nj _ C)|contradiction|exact (Nj _ C)|rewrite (caller_key_fun _ _ _ _ Hk' Hck) in C; tauto]
       |change (negb (L8W8JWT_SUCCESS =? L8W8JWT_SUCCESS)%Z) with false; eapply Go; [exact H2'|exact Q2|right; exists k; auto 6|];
        intros u (j & k' & C' & _); exact (Nj _ C')].
  destruct (supported_exists (dp_alg dp)) as (jw & Hjw); [lia|].
  assert (Same : forall j k', supported (dp_alg dp) j -> caller_key (dp_verification_key dp) (dp_verification_key_length dp) k' -> j = jw /\ k' = k).
  { intros j k' S K. split; [eapply supported_fun; eauto|eapply caller_key_fun; eauto]. }
  pose proof (verify_body_exact p e dp jw b _ h pl _ k (sig ++ st) (N.of_nat (length sig)) Ej T3 Hjw Hck Hk ltac:(rewrite app_length; lia)) as X.
  fold msg in X. destruct X as [(Rf & r & E & Hr0)|[(Rf & u & Mu & Un & E)|(Rf & Mu & f & E)]]; rewrite E in HV.
  - destruct HV as (w2 & H2 & Q2). cbn [verdict_result] in H2. mstep H2. apply Z.eqb_neq in Hr0. rewrite Hr0. cbn [negb].
    right. split; [|do 2 eexists; reflexivity].
    intros u [(j & k' & C1 & C2 & C3 & _)|[[C|(k' & Hk' & [(j & C1 & C3 & _)|(_ & C & _)])] _]].
    + destruct (Same _ _ C1 C2) as [-> ->]. contradiction.
    + contradiction.
    + destruct (Same _ _ C1 Hk') as [-> ->]. contradiction.
    + exact (C _ Hjw).
  - unfold mbind at 1. rewrite HV. left. exists u. split; [left; exists jw, k; auto|]. split; [|reflexivity].
    intros u' [(j & k' & C1 & C2 & _ & C4)|[[C|(k' & Hk' & [(j & C1 & _ & C4)|(_ & C & _)])] _]].
    + destruct (Same _ _ C1 C2) as [-> ->]. auto.
    + contradiction.
    + destruct (Same _ _ C1 Hk') as [-> ->]. destruct (C4 _ Mu).
    + destruct (C _ Hjw).
  - destruct HV as (w2 & H2 & Q2). cbn [verdict_result] in H2. pose proof H2 as H2'. mstep H2. change (negb (L8W8JWT_SUCCESS =? L8W8JWT_SUCCESS)%Z) with false.
    eapply Go; [exact H2'|exact Q2|right; exists k; split; [exact Hck|left; exists jw; auto]|].
    intros u (j & k' & C1 & C2 & _ & C4). destruct (Same _ _ C1 C2) as [-> ->]. exact (Mu _ C4).
Qed.

Lemma decode_segments_two p dp h pl hj ht pj pt w :
  wf w -> allocs w -> c_text p dp (h ++ lit "." ++ pl) -> no_dot h -> no_dot pl -> dp_alg dp = (-1)%Z ->
  b64_decodes h hj ht -> b64_decodes pl pj pt ->
  exists i1 i2 w', l8w8jwt_decode_segments p dp w
    = Ret (L8W8JWT_SUCCESS, Segs (Seg (Ptr (Some i1) (hj ++ ht)) (N.of_nat (length hj)))
                                (Seg (Ptr (Some i2) (pj ++ pt)) (N.of_nat (length pj))) seg0) w'
    /\ wf w' /\ allocs w' /\ later w w'.
Proof.
  intros Hwf Ha ((b & rest & Ej) & Hz & Hl & Hs) N1 N2 Em D1 D2. unfold l8w8jwt_decode_segments.
  assert (Z1 : no_nul h) by (intros K; apply Hz; rewrite !in_app_iff; auto).
  assert (Z2 : no_nul pl) by (intros K; apply Hz; rewrite !in_app_iff; auto).
  rewrite !app_length in Hl, Hs. change (length (lit ".")) with 1%nat in Hl, Hs.
  assert (E1 : (h ++ lit "." ++ pl) ++ x00 :: rest = h ++ x2e :: pl ++ x00 :: rest).
  { rewrite <- !app_assoc. reflexivity. }
  rewrite E1 in Ej. unfold mbind at 1. rewrite Ej. cbn [deref lift].
  unfold mbind at 1. rewrite strchr_some by (auto; discriminate). cbn [lift].
  unfold mbind at 1. rewrite (b64_forward h _ hj ht w Hwf Ha D1). cbn [b_rc]. change (negb (L8W8JWT_SUCCESS =? L8W8JWT_SUCCESS)%Z) with false.
  cbv iota zeta.
  assert (Sk : forall a r, skipn (S (length a)) (a ++ x2e :: r) = r).
  { intros a r. change (a ++ x2e :: r) with (a ++ [x2e] ++ r). rewrite app_assoc.
    replace (S (length a)) with (length (a ++ [x2e])) by (rewrite app_length; cbn [length]; lia). apply skipn_app_exact. }
  rewrite Sk. unfold mbind at 1. rewrite strchr_none by (auto; discriminate). cbn [lift]. rewrite Em. cbn [Z.eqb Pos.eqb negb andb].
  rewrite to_size_small by lia.
  replace (Z.to_N (Z.of_N (dp_jwt_length dp) - Z.of_nat (S (length h)))) with (N.of_nat (length pl)) by lia.
  unfold mbind at 1. rewrite (b64_forward pl _ pj pt (w_ok w) (wf_ok _ Hwf) (allocs_ok _ Ha) D2).
  cbn [b_rc]. change (negb (L8W8JWT_SUCCESS =? L8W8JWT_SUCCESS)%Z) with false. cbv iota zeta.
  unfold seg_upd. cbn [b_out b_len]. do 3 eexists. split; [reflexivity|].
  split; [auto using wf_ok|]. split; [auto using allocs_ok|].
  eapply later_trans; apply later_ok.
Qed.
Lemma decode_body2 p e dp h pl hj ht pj pt id w :
  wf w -> allocs w -> grows w -> uses_jsmn e -> (32 <= p_size_bits p)%N ->
  c_text p dp (h ++ lit "." ++ pl) -> no_dot h -> no_dot pl -> dp_alg dp = (-1)%Z ->
  b64_decodes h hj ht -> b64_decodes pl pj pt ->
  (Z.of_nat (length hj) <= INT_MAX)%Z -> (Z.of_nat (length pj) <= INT_MAX)%Z -> requests_readable e dp ->
  exactly (unreadable p e dp hj ht pj pt) (decode_body p e dp (CB id []) w).
Proof.
  intros Hwf Ha Hg Hj Hp Ht N1 N2 Em D1 D2 L1 L2 Hr. unfold decode_body.
  destruct (decode_segments_two p dp h pl hj ht pj pt w Hwf Ha Ht N1 N2 Em D1 D2) as (i1 & i2 & w1 & H1 & W1 & A1 & Lt1).
  mstep H1. change (negb (L8W8JWT_SUCCESS =? L8W8JWT_SUCCESS)%Z) with false. cbn [s_ptr s_len sg_signature sg_header sg_payload].
  assert (G1 : grows w1) by (eapply grows_later; eauto).
  pose proof (b64_decodes_tail _ _ _ D1) as T1. pose proof (b64_decodes_tail _ _ _ D2) as T2.
  assert (H2 : l8w8jwt_verify_signature p e dp L8W8JWT_VALID (s_ptr seg0) (s_len seg0) w1
               = Ret (L8W8JWT_SUCCESS, L8W8JWT_VALID) w1) by (unfold l8w8jwt_verify_signature; rewrite Em; reflexivity).
  mstep H2. change (negb (L8W8JWT_SUCCESS =? L8W8JWT_SUCCESS)%Z) with false. cbv iota.
  exact (parse_rest_exact p e dp (Some i1) hj ht (Some i2) pj pt seg0 id L8W8JWT_VALID w1 W1 A1 G1 Hj Hp L1 L2 T1 T2 Hr).
Qed.
