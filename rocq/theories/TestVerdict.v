(** * The verdict on an issued token (C87) *)
From Verif Require Import Base BaseProofs HeapProofs Util UtilProofs Claim Base64 SpecB64
  Base64EncProofs Base64EncApi Base64DecProofs Base64Api Jsmn Env Encode Decode SpecJson SpecJwa ClaimProofs UnescapeProofs
  EncodeProofs SignProofs EncodeTotal SpecEnc JsonProofs PropEncode DecodeProofs DecodeInv JsmnProofs ParseProofs
  PropClaim ReadProofs ValidateProofs JsmnJson JsmnSize PropVerify PropValidate PropLeak PropJson DecodeTotal DecodeOk PropSafe
  PropRoundTrip PropIssued PropTime Examples PropEncMemory PropPrograms Walk Exact Complete PropComplete
  EncComplete PropEncComplete PropUnclosed Tests TestProofs.
From Coq Require Import ZifyBool ZifyNat ZifyN.
Ltac Zify.zify_post_hook ::= Z.div_mod_to_equations.
Local Opaque L8W8JWT_MAX_KEY_SIZE SIGBUF.

(** The flags but that of the signature. *)
Lemma flags_expected i c a now v :
  N.testbit v 0 = misses (a_iss a) (i_iss i) -> N.testbit v 1 = misses (a_sub a) (i_sub i) ->
  N.testbit v 2 = misses (a_aud a) (i_aud i) -> N.testbit v 3 = misses (a_jti a) (i_jti i) ->
  N.testbit v 4 = untimely (fun tol t => (t <? now - tol)%Z) (a_exp a) (at_exp c) (i_exp i) ->
  N.testbit v 5 = untimely (fun tol t => (now + tol <? t)%Z) (a_nbf a) (at_nbf c) (i_nbf i) ->
  N.testbit v 6 = untimely (fun tol t => (now + tol <? t)%Z) (a_iat a) (at_iat c) (i_iat i) ->
  N.testbit v 7 = false -> N.testbit v 8 = other_type (a_typ a) -> (forall bit, (9 <= bit)%N -> N.testbit v bit = false) ->
  v = expected i c a now true.
Proof.
  intros B0 B1 B2 B3 B4 B5 B6 B7 B8 B9. unfold expected. rewrite <- B0, <- B1, <- B2, <- B3, <- B4, <- B5, <- B6, <- B8. clear B0 B1 B2 B3 B4 B5 B6 B8.
  apply N.bits_inj. intros bit. destruct (N.lt_ge_cases bit 9) as [C|C].
  - assert (D : In bit [0; 1; 2; 3; 4; 5; 6; 7; 8]%N) by (cbn [In]; lia). clear C. cbn [In] in D.
    destruct D as [<-|[<-|[<-|[<-|[<-|[<-|[<-|[<-|[<-|[]]]]]]]]]]; rewrite ?B7;
      destruct (N.testbit v 0), (N.testbit v 1), (N.testbit v 2), (N.testbit v 3), (N.testbit v 4), (N.testbit v 5), (N.testbit v 6), (N.testbit v 8); reflexivity.
  - rewrite (B9 _ C). symmetry. assert (L : forall x, (x < 512)%N -> N.testbit x bit = false).
    { intros x Hx. destruct (N.eq_dec x 0) as [->|Nx]; [apply N.bits_0|]. apply N.bits_above_log2. apply N.log2_lt_pow2; [lia|].
      apply N.lt_le_trans with (m := (2 ^ 9)%N); [exact Hx|apply N.pow_le_mono_r; lia]. }
    apply L. unfold flag. cbn [negb].
    destruct (N.testbit v 0), (N.testbit v 1), (N.testbit v 2), (N.testbit v 3), (N.testbit v 4), (N.testbit v 5), (N.testbit v 6), (N.testbit v 8); reflexivity.
Qed.
Lemma expected_rejected i c a now : (expected i c a now true + 128)%N = expected i c a now false.
Proof. unfold expected, flag. cbn [negb]. lia. Qed.

Lemma issued_verdict p e keys c i j w id h t s w1 :
  let token := rfc4648_unpadded true h ++ lit "." ++ rfc4648_unpadded true t ++ lit "." ++ rfc4648_unpadded true s in
  (32 <= p_size_bits p)%N -> wf w -> allocs w -> grows w ->
  issue_ok i = true -> clock_ok c i -> supported (i_alg i) j ->
  l8w8jwt_encode p e (Some (issue_params keys c i)) w = Ret (EncRes 0 (Some (Ptr (Some id) (token ++ [x00]))) (Some (N.of_nat (length token)))) w1 ->
  signing p e j (key_bytes keys (i_key i)) Null 0 (rfc4648_unpadded true h ++ lit "." ++ rfc4648_unpadded true t) (Made s) ->
  forall p' e' a verified w2, (32 <= p_size_bits p')%N -> wf w2 -> allocs w2 -> grows w2 -> uses_jsmn e' -> checknum_right e' ->
  asking_ok a = true -> key_fits keys (a_key a) -> (0 <= e_time e' <= 2 ^ 62)%Z -> agrees p e p' e' keys i a verified ->
  exists r w3, l8w8jwt_decode p' e' (Some (asking_params keys (Ptr (Some id) (token ++ [x00])) (N.of_nat (length token)) a)) true (a_claims a) (a_claims a) w2
      = Ret r w3
    /\ dr_rc r = 0%Z /\ dr_valid r = Some (expected i c a (e_time e') verified).
Proof.
  intros token Hb Hwf Ha Hg Hi Hc Hj He Sg p' e' a verified w2 Hb' Hwf2 Ha2 Hg2 Hu Hcn Hak Hkf Ht Hag.
  pose proof (request_size keys c _ Hi) as Rs. set (ep := issue_params keys c i) in *. pose proof Hi as Hi0.
  apply issue_ok_inv in Hi0 as (_ & I1 & I2 & I3 & I4 & I5 & I6 & I7 & I8).
  assert (Ek : forall l, keyed_claims (claims_ptr l) (N.of_nat (length l)) = test_claims l) by exact claims_keyed.
  assert (Eh : keyed_claims (ep_header_claims ep) (ep_header_claims_count ep) = test_claims (i_header i)) by apply Ek.
  assert (Epl : keyed_claims (ep_payload_claims ep) (ep_payload_claims_count ep) = test_claims (i_payload i)) by apply Ek.
  assert (Tm : some_time ep <-> i_iat i <> None \/ i_nbf i <> None \/ i_exp i <> None).
  { unfold some_time, ep, issue_params. cbn [ep_iat ep_nbf ep_exp]. destruct Hc as (C1 & C2 & C3). unfold time_ok in *.
    destruct (i_iat i), (i_nbf i), (i_exp i); cbn [reading_or_zero]; split; intros H;
      solve [left; discriminate | right; left; discriminate | right; right; discriminate | left; lia | right; left; lia | right; right; lia
            | destruct H as [H|[H|H]]; destruct H; reflexivity]. }
  destruct (C72_token_length p e ep w _ _ _ _ ltac:(lia) He eq_refl eq_refl) as [Ln _]. rewrite Rs in Ln.
  assert (Hl : (Z.of_nat (length token) <= INT_MAX)%Z) by (unfold INT_MAX; lia).
  assert (Hs : (N.of_nat (length token) < size_mod p')%N).
  { assert (P : (2 ^ 32 <= size_mod p')%N) by (unfold size_mod; apply N.pow_le_mono_r; lia). change (2 ^ 32)%N with 4294967296%N in P. lia. }
  destruct (C51_issued_tokens p e ep w _ w1 ltac:(lia) Hwf (LocalProofs.grows_appended _ _ Hg) (LocalProofs.allocs_allocated _ _ Ha) He eq_refl)
    as (id' & tk & ht & pt & j0 & k0 & Ho & Hj0 & Hk0 & _ & HD).
  { intros Hn C. rewrite Eh in C. unfold ep in Hn. cbn [issue_params ep_header_claims_count] in Hn. destruct (i_header i); [cbn in Hn; lia|discriminate C]. }
  { intros Hn. rewrite Epl. unfold ep in Hn. cbn [issue_params ep_payload_claims_count] in Hn.
    assert (Np : i_payload i <> []) by (destruct (i_payload i); [cbn in Hn; lia|discriminate]).
    split; intros _; [|left; apply Tm; auto]. split; [left; apply Tm; auto|]. destruct (i_payload i); [contradiction|discriminate]. }
  { rewrite Eh. apply claims_strings. } { rewrite Epl. apply claims_strings. }
  cbn [er_out] in Ho. assert (tk = token) as ->.
  { inversion Ho as [[K1 K2]]. apply app_inj_tail in K2 as [K2 _]. congruence. } clear Ho id'.
  assert (j0 = j) as -> by (eapply supported_fun; eassumption).
  assert (k0 = key_bytes keys (i_key i)) as -> by (eapply caller_key_fun; [exact Hk0|apply key_is_bytes]).
  rewrite Eh, Epl in HD. set (q := Ptr (Some id) (token ++ [x00])). set (n := N.of_nat (length token)).
  assert (Nn : no_nul token).
  { unfold token, no_nul. rewrite !in_app_iff. intros [K3|[[K3|[]]|[K3|[[K3|[]]|K3]]]]; try discriminate K3; revert K3; apply unpadded_clean. }
  assert (Go : forall alg', let dp := with_alg (asking_params keys q n a) alg' in
     alg' = (-1)%Z \/ (alg' = i_alg i /\ right_key p' e e' ep dp j (key_bytes keys (i_key i))) ->
     exists r w3, l8w8jwt_decode p' e' (Some dp) true true true w2 = Ret r w3 /\ dr_rc r = 0%Z /\ dr_valid r = Some (expected i c a (e_time e') true)).
  { intros alg' dp Hal. pose proof (asking_readable p' e' keys q n a Hak Ht) as Rq.
    apply asking_ok_inv in Hak as (A1 & A2 & A3 & A4 & A5 & T1 & T2 & T3).
    destruct (HD p' e' dp w2 Hwf2 Hg2 Ha2 Hb' Hu Hcn (claims_readable _ _) (claims_readable _ _)) as (r & w3 & v & D & R0 & V0 & P1 & P2 & P3 & P4 & _).
    - split; [exists (Some id), []; reflexivity|]. split; [exact Nn|]. split; [reflexivity|exact Hs].
    - exact Hl.
    - destruct Hkf as [F1 F2]. unfold key_ok, dp. cbn [with_alg asking_params dp_verification_key dp_verification_key_length].
      split; [rewrite key_len_bytes; lia|]. exists (key_bytes keys (a_key a)). split; [apply key_is_bytes|left; rewrite key_len_bytes; exact F2].
    - exact Hal.
    - exact Rq.
    - exists r, w3. split; [exact D|]. split; [exact R0|]. rewrite V0. f_equal.
      assert (Us : forall name, In name checked_names -> unshadowed name (test_claims (i_header i) ++ test_claims (i_payload i))).
      { intros name Hn x k rest Hx. apply in_app_iff in Hx as [Hx|Hx]; [exact (claims_unshadowed _ _ I5 Hn x k rest Hx)|exact (claims_unshadowed _ _ I6 Hn x k rest Hx)]. }
      assert (Z0 : forall bit, request_for dp bit = NoRequest -> N.testbit v bit = false).
      { intros bit K. destruct (N.testbit v bit) eqn:E; [exfalso; exact (P4 _ E K)|reflexivity]. }
      assert (Str : forall bit name want iss, In name checked_names -> want_ok want = true -> opt_ok iss = true ->
         In (bit, name, (literal_or_null want, 0%N), (literal_or_null iss, 0%N)) (string_checks dp ep) ->
         request_for dp bit = text_request (literal_or_null want) 0 -> N.testbit v bit = misses want iss).
      { intros bit name want iss Hn O1 O2 Hin Hrq. destruct want as [sw|]; [|apply Z0; exact Hrq].
        destruct (P1 bit name _ _ _ _ (lit sw) Hin) as (_ & K1 & K2); [apply literal_want; exact O1|auto|]. cbn [misses].
        destruct iss as [si|]; [|apply K2; reflexivity]. cbn [opt_ok] in O2.
        destruct (K1 (lit si)) as [K3 K4]; [apply literal_at; auto|apply (lit_text si O2)|]. destruct (bytes_eqb (lit sw) (lit si)) eqn:Eb; cbn [negb].
        - apply K4. apply bytes_eqb_eq. exact Eb.
        - destruct (N.testbit v bit); [reflexivity|]. rewrite (K3 eq_refl) in Eb. rewrite (proj2 (bytes_eqb_eq _ _) eq_refl) in Eb. discriminate. }
      assert (Tim : forall x want tr iss late, time_requested dp x = asked want -> issued_time ep x = reading_or_zero tr iss -> time_ok tr iss ->
         In (time_name x) checked_names -> ordinary_time (limit e' dp x) ->
         request_for dp (time_bit x) = (if asked want then Time (tolerance want) else NoRequest) ->
         (forall z, late (Z.of_N (tolerance want)) z = true <-> out_of_time x (limit e' dp x) z) ->
         N.testbit v (time_bit x) = untimely late want tr iss).
      { intros x want tr iss late E1 E2 Ok Hn Or Hrq Lt. destruct want as [tol|]; [|apply Z0; exact Hrq]. cbn [asked tolerance] in *.
        destruct (P2 x E1 Or (Us _ Hn)) as [K1 K2]. cbn [untimely]. rewrite E2 in K1, K2. destruct iss as [d|]; cbn [reading_or_zero time_ok] in *.
        - rewrite Z.mod_small in K1, K2 by (unfold I64_MAX in *; lia). specialize (Lt (tr + d)%Z). destruct (late (Z.of_N tol) (tr + d)%Z).
          + destruct (N.testbit v (time_bit x)); [reflexivity|]. destruct (K1 eq_refl) as [_ K]. destruct K. apply Lt. reflexivity.
          + apply K2. split; [lia|]. intros K. apply Lt in K. discriminate K.
        - destruct (N.testbit v (time_bit x)); [reflexivity|]. destruct (K1 eq_refl) as [K _]. destruct K. reflexivity. }
      change (2 ^ 61)%N with 2305843009213693952%N in *. change (2 ^ 62)%Z with 4611686018427387904%Z in *. destruct Hc as (C1 & C2 & C3).
      apply flags_expected; auto.
      + exact (Str 0%N (lit "iss") _ _ (or_introl eq_refl) A2 I2 (or_intror (or_intror (or_introl eq_refl))) eq_refl).
      + exact (Str 1%N (lit "sub") _ _ (or_intror (or_introl eq_refl)) A1 I1 (or_introl eq_refl) eq_refl).
      + exact (Str 2%N (lit "aud") _ _ (or_intror (or_intror (or_introl eq_refl))) A3 I3 (or_intror (or_introl eq_refl)) eq_refl).
      + exact (Str 3%N (lit "jti") _ _ (or_intror (or_intror (or_intror (or_introl eq_refl)))) A4 I4 (or_intror (or_intror (or_intror (or_introl eq_refl)))) eq_refl).
      + apply (Tim Exp (a_exp a) _ _ _ eq_refl eq_refl C3 (or_intror (or_intror (or_intror (or_intror (or_introl eq_refl)))))); [unfold ordinary_time, I64_MIN, I64_MAX; cbn; lia|reflexivity|]. intros z. cbn. lia.
      + apply (Tim Nbf (a_nbf a) _ _ _ eq_refl eq_refl C2 (or_intror (or_intror (or_intror (or_intror (or_intror (or_introl eq_refl))))))); [unfold ordinary_time, I64_MIN, I64_MAX; cbn; lia|reflexivity|]. intros z. cbn. lia.
      + apply (Tim Iat (a_iat a) _ _ _ eq_refl eq_refl C1 (or_intror (or_intror (or_intror (or_intror (or_intror (or_intror (or_introl eq_refl)))))))); [unfold ordinary_time, I64_MIN, I64_MAX; cbn; lia|reflexivity|]. intros z. cbn. lia.
      + destruct (a_typ a) as [st|] eqn:Et; [|apply Z0; cbn; rewrite Et; reflexivity]. cbn [opt_ok] in A5. apply lit_text in A5 as (N1 & _).
        destruct (P3 None (lit st) []) as [K1 K2]; [cbn; rewrite Et; reflexivity|exact N1|]. cbn [other_type].
        assert (El : dp_validate_typ_length dp = 3%N) by (cbn; rewrite Et; reflexivity). rewrite El in K1, K2. unfold same_nocase in K1, K2.
        change (map ascii_lower (firstn (N.to_nat 3) (lit "JWT"))) with (lit "jwt") in K1, K2. change (N.to_nat 3) with 3%nat in K1, K2.
        destruct (bytes_eqb (map ascii_lower (firstn 3 (lit st))) (lit "jwt")) eqn:Eb; cbn [negb].
        * apply K2. split; [|lia]. apply bytes_eqb_eq in Eb. congruence.
        * destruct (N.testbit v 8); [reflexivity|]. destruct (K1 eq_refl) as [K _]. rewrite <- K, (proj2 (bytes_eqb_eq _ _) eq_refl) in Eb. discriminate.
      + intros bit Hbit. apply Z0. unfold request_for. destruct bit as [|[[[[]|[]|]|[[]|[]|]|]|[[[]|[]|]|[[]|[]|]|]|]]; try reflexivity; lia. }
  assert (Fin : exists r w3, l8w8jwt_decode p' e' (Some (asking_params keys q n a)) true true true w2 = Ret r w3
     /\ dr_rc r = 0%Z /\ dr_valid r = Some (expected i c a (e_time e') verified)).
  { specialize (Hag j Hj). destruct verified.
    - destruct Hag as (Ea & M1 & M2 & M3). destruct (Go (a_alg a)) as (r & w3 & D); [|exists r, w3; exact D].
      right. split; [exact Ea|]. exists (key_bytes keys (a_key a)). split; [apply key_is_bytes|]. auto.
    - destruct Hag as (j' & Hj' & Rj). destruct (Go (-1)%Z) as (r & w3 & D & R0 & V0); [left; reflexivity|].
      assert (Tx : c_text p' (asking_params keys q n a) token)
        by (split; [exists (Some id), []; reflexivity|]; split; [exact Nn|]; split; [reflexivity|exact Hs]).
      assert (Ko : key_ok (key_ptr keys (a_key a)) (key_len keys (a_key a))).
      { destruct Hkf as [F1 F2]. split; [rewrite key_len_bytes; lia|]. exists (key_bytes keys (a_key a)).
        split; [apply key_is_bytes|left; rewrite key_len_bytes; exact F2]. }
      assert (Rd : requests_readable e' (asking_params keys q n a)) by (apply (requests_ok_readable p'), asking_readable; assumption).
      destruct (rejected p e p' e' j (key_bytes keys (i_key i)) j' (key_bytes keys (a_key a)) h t s (asking_params keys q n a) w2 r w3 _ Hwf2 Ha2 Hg2 Hu Hb'
        Tx Hl Hj' (key_is_bytes _ _) Ko Rd Sg Rj D R0 V0) as (r2 & w4 & D2 & R2 & V2 & _).
      exists r2, w4. rewrite <- expected_rejected. auto. }
  destruct Fin as (r & w3 & D & R0 & V0). destruct (decode_same_verdict p' e' _ (a_claims a) w2 r w3 Hwf2 D R0) as (r2 & w4 & D2 & E1 & E2).
  exists r2, w4. split; [exact D2|]. split; congruence.
Qed.

(** ** What is left on the heap *)
(** Header and payload of such a token are JSON objects. *)
Lemma issued_objects p e keys c i w id token w1 :
  (32 <= p_size_bits p)%N -> wf w -> allocs w -> grows w -> issue_ok i = true -> clock_ok c i ->
  l8w8jwt_encode p e (Some (issue_params keys c i)) w = Ret (EncRes 0 (Some (Ptr (Some id) (token ++ [x00]))) (Some (N.of_nat (length token)))) w1 ->
  exists ht pt s hm pm, token = rfc4648_unpadded true ht ++ lit "." ++ rfc4648_unpadded true pt ++ lit "." ++ s
    /\ json_object hm ht /\ json_object pm pt.
Proof.
  intros Hb Hwf Ha Hg Hi Hc He.
  apply issue_ok_inv in Hi as (_ & I1 & I2 & I3 & I4 & I5 & I6 & I7 & I8). set (ep := issue_params keys c i) in *.
  assert (Eh : keyed_claims (ep_header_claims ep) (ep_header_claims_count ep) = test_claims (i_header i)) by apply claims_keyed.
  assert (Epl : keyed_claims (ep_payload_claims ep) (ep_payload_claims_count ep) = test_claims (i_payload i)) by apply claims_keyed.
  assert (Tm : i_iat i <> None \/ i_nbf i <> None \/ i_exp i <> None -> some_time ep).
  { unfold some_time, ep, issue_params. cbn [ep_iat ep_nbf ep_exp]. destruct Hc as (C1 & C2 & C3). unfold time_ok in *. intros H.
    destruct (i_iat i), (i_nbf i), (i_exp i); cbn [reading_or_zero];
      solve [left; lia | right; left; lia | right; right; lia | destruct H as [H|[H|H]]; destruct H; reflexivity]. }
  destruct (C11_header_and_payload_partial p e ep w _ w1 ltac:(lia) Hwf (LocalProofs.grows_appended _ _ Hg) (LocalProofs.allocs_allocated _ _ Ha) He eq_refl)
    as (id' & ht & pt & s & j & hadd & reg & padd & Ho & _ & O1 & _ & O2 & _).
  { intros Hn C. rewrite Eh in C. unfold ep in Hn. cbn [issue_params ep_header_claims_count] in Hn. destruct (i_header i); [cbn in Hn; lia|discriminate C]. }
  { intros Hn. rewrite Epl. unfold ep in Hn. cbn [issue_params ep_payload_claims_count] in Hn.
    assert (Np : i_payload i <> []) by (destruct (i_payload i); [cbn in Hn; lia|discriminate]).
    split; intros _; [|left; apply Tm; auto]. split; [left; apply Tm; auto|]. destruct (i_payload i); [contradiction|discriminate]. }
  { rewrite Eh. apply claims_strings. } { rewrite Epl. apply claims_strings. }
  cbn [er_out] in Ho. assert (Et : token = rfc4648_unpadded true ht ++ lit "." ++ rfc4648_unpadded true pt ++ lit "." ++ s).
  { assert (K2 : token ++ [x00] = (rfc4648_unpadded true ht ++ lit "." ++ rfc4648_unpadded true pt ++ lit "." ++ s) ++ [x00]) by (rewrite <- !app_assoc; congruence).
    apply app_inj_tail in K2 as [K2 _]. exact K2. }
  eauto 8.
Qed.
Lemma issued_heap p e keys c i w id token w1 :
  (32 <= p_size_bits p)%N -> wf w -> allocs w -> grows w -> issue_ok i = true -> clock_ok c i ->
  l8w8jwt_encode p e (Some (issue_params keys c i)) w = Ret (EncRes 0 (Some (Ptr (Some id) (token ++ [x00]))) (Some (N.of_nat (length token)))) w1 ->
  forall p' e' dp vn cn ln w2 r w3, wf w2 -> grows w2 -> uses_jsmn e' -> c_text p' dp token ->
    l8w8jwt_decode p' e' (Some dp) vn cn ln w2 = Ret r w3 ->
    forall x, w_live w3 x = true <-> w_live w2 x = true \/ In x (given_blocks (dr_claims r)).
Proof.
  intros Hb Hwf Ha Hg Hi Hc He p' e' dp vn cn ln w2 r w3 Hwf2 Hg2 Hu Ht D.
  destruct (issued_objects p e keys c i w id token w1 Hb Hwf Ha Hg Hi Hc He) as (ht & pt & s & hm & pm & Et & O1 & O2).
  assert (Ne : forall ms x, json_object ms x -> x <> []) by (intros ms x Hx ->; inversion Hx).
  destruct (text_decodes ht (Ne _ _ O1)) as (tl1 & D1), (text_decodes pt (Ne _ _ O2)) as (tl2 & D2).
  rewrite Et in Ht.
  destruct (C32_json_tokens_freed p' e' dp _ _ s ht tl1 pt tl2 vn cn ln w2 r w3 Hwf2 (LocalProofs.grows_appended _ _ Hg2) Hu Ht
    (proj1 (unpadded_clean _)) (proj1 (unpadded_clean _)) D1 D2 (ex_intro _ _ (object_text_of _ _ O1)) (ex_intro _ _ (object_text_of _ _ O2)) D) as (_ & _ & K & _).
  exact K.
Qed.
