(** * Property C102: private keys and their passwords *)
From Verif Require Import Base BaseProofs HeapProofs Util UtilProofs Claim Base64 SpecB64
  Base64EncProofs Base64EncApi Base64DecProofs Base64Api Jsmn Env Encode Decode SpecJson SpecJwa ClaimProofs UnescapeProofs
  EncodeProofs SignProofs EncodeTotal SpecEnc JsonProofs PropEncode DecodeProofs DecodeInv JsmnProofs ParseProofs
  PropClaim ReadProofs ValidateProofs JsmnJson JsmnSize PropVerify PropValidate PropLeak PropJson DecodeTotal DecodeOk
  OverRead PropSafe PropRoundTrip CodeProofs EncCodeProofs Walk Exact PropExact Complete EncComplete PropEncComplete PropBuilds PropCert.
From Coq Require Import ZifyBool ZifyNat ZifyN.
Ltac Zify.zify_post_hook ::= Z.div_mod_to_equations.
Local Opaque L8W8JWT_MAX_KEY_SIZE.

(** The request with another key and password. *)
Definition resigned (ep : enc_params) (q : ptr) (n : N) (pw : ptr) (pwl : N) : enc_params :=
  EncParams (ep_alg ep) (ep_iss ep) (ep_iss_length ep) (ep_sub ep) (ep_sub_length ep) (ep_aud ep) (ep_aud_length ep) (ep_jti ep) (ep_jti_length ep)
    (ep_exp ep) (ep_nbf ep) (ep_iat ep) (ep_header_claims ep) (ep_header_claims_count ep) (ep_payload_claims ep) (ep_payload_claims_count ep)
    q n pw pwl (ep_out_nn ep) (ep_out_length_nn ep).

Lemma pem_fits q n k : key_ok q n -> caller_key q n k -> (N.of_nat (length (pem_text k)) <= 8192)%N.
Proof.
  intros (R & k0 & K0 & L) K. rewrite (Exact.caller_key_fun _ _ _ _ K0 K) in L. destruct K as (b & m & _ & Hm & ->).
  assert (Hl : length (firstn (N.to_nat n) m) = N.to_nat n) by (apply firstn_length_le; lia).
  unfold pem_text. destruct (is_nul (last (firstn (N.to_nat n) m) x01)); [|rewrite app_length; cbn [length]]; rewrite Hl; [lia|].
  destruct L as [L|L]; [lia|discriminate L].
Qed.
Lemma andthen_mono (A A' : product -> Prop) (B B' : bytes -> product -> Prop) o : (forall x, A x -> A' x) -> (forall t x, B t x -> B' t x) -> andthen A B o -> andthen A' B' o.
Proof. intros HA HB [x H N|t x H K]; [apply At_stop; auto|eapply At_go; eauto]. Qed.
Lemma payload_resigned p ep q n pw pwl o : payload p ep o -> payload p (resigned ep q n pw pwl) o.
Proof.
  apply andthen_mono.
  - intros x [iat nbf exp sub iss aud jti F T1 T2 T3 S1 S2 S3 S4|F].
    + apply (R_text p (resigned ep q n pw pwl)); assumption.
    + apply (R_foreign p (resigned ep q n pw pwl)). exact F.
  - intros r x. cbn [resigned ep_payload_claims ep_payload_claims_count]. destruct (ep_payload_claims_count ep =? 0)%N; [auto|].
    apply andthen_mono; [auto|]. intros t y (sep & S & ->). exists sep. split; [|reflexivity].
    destruct S as [S|S]; [apply (Sep_comma (resigned ep q n pw pwl))|apply (Sep_none (resigned ep q n pw pwl))]; exact S.
Qed.
Lemma signed_text_resigned p ep q n pw pwl j o : to_be_signed p ep j o -> to_be_signed p (resigned ep q n pw pwl) j o.
Proof.
  apply andthen_mono; [intros x X; exact X|]. intros ht x. apply andthen_mono; [auto|]. intros h y. apply andthen_mono; [|auto].
  intros z. apply payload_resigned.
Qed.
Lemma keyed_same e k k' pw pwl pw' pwl' use x :
  (N.of_nat (length (pem_text k)) <= 8192)%N -> (N.of_nat (length (pem_text k')) <= 8192)%N ->
  e_parse_key e (pem_text k) pw pwl = e_parse_key e (pem_text k') pw' pwl' ->
  keyed e k pw pwl use x -> keyed e k' pw' pwl' use x.
Proof. intros F F' E [H|H P|key o H P U]; [lia|apply K_parse; [exact F'|congruence]|eapply K_key; [exact F'| |exact U]; congruence]. Qed.
Lemma signing_same p e j k k' pw pwl pw' pwl' msg x :
  takes_public_key j -> (N.of_nat (length (pem_text k)) <= 8192)%N -> (N.of_nat (length (pem_text k')) <= 8192)%N ->
  e_parse_key e (pem_text k) pw pwl = e_parse_key e (pem_text k') pw' pwl' ->
  signing p e j k pw pwl msg x -> signing p e j k' pw' pwl' msg x.
Proof. unfold takes_public_key, signing. intros T F F' E. destruct (j_family j); try contradiction; apply keyed_same; assumption. Qed.
Lemma resigned_given ep q n pw pwl k : caller_key q n k -> enc_given ep -> enc_given (resigned ep q n pw pwl).
Proof. intros K (H1 & H2 & H3 & H4 & H5 & H6 & _). repeat (split; [assumption|]). right. exists k. exact K. Qed.
Lemma encoding_resigned p e ep q n pw pwl j k k' o :
  supported (ep_alg ep) j -> key_ok (ep_secret_key ep) (ep_secret_key_length ep) -> key_ok q n ->
  caller_key (ep_secret_key ep) (ep_secret_key_length ep) k -> caller_key q n k' ->
  (forall msg x, signing p e j k (ep_secret_key_pw ep) (ep_secret_key_pw_length ep) msg x -> signing p e j k' pw pwl msg x) ->
  encoding p e ep o -> encoding p e (resigned ep q n pw pwl) o.
Proof.
  intros Hj Ko Ko' Hk Hk' S D.
  assert (Nk : ep_secret_key ep <> Null) by (destruct Hk as (b & m & -> & _); discriminate).
  assert (Nq : q <> Null) by (destruct Hk' as (b & m & -> & _); discriminate).
  assert (A : null_args (resigned ep q n pw pwl) <-> null_args ep) by (unfold null_args; cbn; tauto).
  assert (B : bad_args (resigned ep q n pw pwl) <-> bad_args ep).
  { destruct Ko as (R & _), Ko' as (R' & _). unfold bad_args. cbn [resigned ep_secret_key_length ep_payload_claims ep_payload_claims_count ep_header_claims ep_header_claims_count].
    split; intros [C|[C|C]]; try lia; right; right; exact C. }
  destruct D as [N0|N0 N1|N0 N1 U|j0 k0 o N0 N1 S0 K0 D].
  - apply En_null. apply A. exact N0.
  - apply En_bad; [rewrite A|rewrite B]; assumption.
  - destruct (U _ Hj).
  - assert (j0 = j) as -> by (eapply supported_fun; eassumption). assert (k0 = k) as -> by (eapply Exact.caller_key_fun; eassumption).
    apply (En_go _ _ (resigned ep q n pw pwl) j k'); [rewrite A; exact N0|rewrite B; exact N1|exact S0|exact Hk'|].
    refine (andthen_mono _ _ _ _ _ _ _ D); [intros x; apply signed_text_resigned|]. intros msg x. apply andthen_mono; [auto|]. intros _ y. apply andthen_mono; [apply S|auto].
Qed.

(** RS, PS and ES: the file and the password count only for the private key the backend reads from them - encrypted
    or not, PEM or DER, with whatever else is in the file. If it reads none, neither request gets a token. *)
Theorem C102_stands_for_its_key :
  forall p e ep q n pw pwl j k k' w w2,
    (15 <= p_size_bits p)%N -> wf w -> allocs w -> grows w -> wf w2 -> allocs w2 -> grows w2 -> enc_given ep ->
    supported (ep_alg ep) j -> takes_public_key j ->
    key_ok (ep_secret_key ep) (ep_secret_key_length ep) -> key_ok q n ->
    caller_key (ep_secret_key ep) (ep_secret_key_length ep) k -> caller_key q n k' ->
    e_parse_key e (pem_text k) (ep_secret_key_pw ep) (ep_secret_key_pw_length ep) = e_parse_key e (pem_text k') pw pwl ->
    exists o, issues (l8w8jwt_encode p e (Some ep) w) o /\ issues (l8w8jwt_encode p e (Some (resigned ep q n pw pwl)) w2) o.
Proof.
  intros p e ep q n pw pwl j k k' w w2 Hp W1 A1 G1 W2 A2 G2 Hg Hj T Ko Ko' Hk Hk' E.
  destruct (C76_encode_complete p e ep w Hp W1 A1 G1 Hg) as (o & D & _ & Hd).
  destruct (C76_encode_complete p e (resigned ep q n pw pwl) w2 Hp W2 A2 G2 (resigned_given _ _ _ _ _ _ Hk' Hg)) as (o2 & _ & F2 & Hd2).
  rewrite <- (F2 o) in Hd2; [exists o; split; [exact Hd|exact Hd2]|].
  eapply encoding_resigned; [exact Hj|exact Ko|exact Ko'|exact Hk|exact Hk'| |exact D].
  intros msg x. apply signing_same; [exact T|exact (pem_fits _ _ _ Ko Hk)|exact (pem_fits _ _ _ Ko' Hk')|exact E].
Qed.
Print Assumptions C102_stands_for_its_key.

(** HS, EdDSA and ids of no algorithm: the password is not looked at. *)
Theorem C102_password_ignored :
  forall p e ep pw pwl w w2,
    (15 <= p_size_bits p)%N -> wf w -> allocs w -> grows w -> wf w2 -> allocs w2 -> grows w2 -> enc_given ep ->
    (forall j, supported (ep_alg ep) j -> ~ takes_public_key j) ->
    exists o, issues (l8w8jwt_encode p e (Some ep) w) o
      /\ issues (l8w8jwt_encode p e (Some (resigned ep (ep_secret_key ep) (ep_secret_key_length ep) pw pwl)) w2) o.
Proof.
  intros p e ep pw pwl w w2 Hp W1 A1 G1 W2 A2 G2 Hg T.
  destruct (C76_encode_complete p e ep w Hp W1 A1 G1 Hg) as (o & D & _ & Hd).
  destruct (C76_encode_complete p e (resigned ep (ep_secret_key ep) (ep_secret_key_length ep) pw pwl) w2 Hp W2 A2 G2 Hg) as (o2 & _ & F2 & Hd2).
  rewrite <- (F2 o) in Hd2; [exists o; split; [exact Hd|exact Hd2]|].
  destruct D as [N0|N0 N1|N0 N1 U|j k o N0 N1 S0 K0 D].
  - apply En_null. exact N0.
  - apply En_bad; assumption.
  - apply En_alg; assumption.
  - apply (En_go _ _ (resigned ep (ep_secret_key ep) (ep_secret_key_length ep) pw pwl) j k); [exact N0|exact N1|exact S0|exact K0|].
    refine (andthen_mono _ _ _ _ _ _ _ D); [intros x; apply signed_text_resigned|]. intros msg x. apply andthen_mono; [auto|]. intros _ y. apply andthen_mono; [|auto].
    intros z. specialize (T _ S0). unfold signing, takes_public_key in *. destruct (j_family j); tauto.
Qed.
Print Assumptions C102_password_ignored.

(** A key that cannot be read, with this password, signs nothing. *)
Theorem C102_wrong_password :
  forall p e ep j k w,
    (15 <= p_size_bits p)%N -> wf w -> allocs w -> grows w -> enc_given ep ->
    supported (ep_alg ep) j -> takes_public_key j ->
    key_ok (ep_secret_key ep) (ep_secret_key_length ep) -> caller_key (ep_secret_key ep) (ep_secret_key_length ep) k ->
    e_parse_key e (pem_text k) (ep_secret_key_pw ep) (ep_secret_key_pw_length ep) = None ->
    (forall r w', l8w8jwt_encode p e (Some ep) w = Ret r w' -> er_rc r <> 0%Z /\ er_out r = None /\ er_len r = None)
    /\ (forall msg, ~ null_args ep -> ~ bad_args ep -> to_be_signed p ep j (Made msg) -> e_seed_ok e = true ->
          exists w', l8w8jwt_encode p e (Some ep) w = Ret (EncRes 420 None None) w').
Proof.
  intros p e ep j k w Hp W1 A1 G1 Hg Hj T Ko Hk E.
  assert (S : forall msg x, signing p e j k (ep_secret_key_pw ep) (ep_secret_key_pw_length ep) msg x <-> x = Fails 420).
  { pose proof (pem_fits _ _ _ Ko Hk) as F. intros msg x.
    assert (G : forall use, keyed e k (ep_secret_key_pw ep) (ep_secret_key_pw_length ep) use x <-> x = Fails 420).
    { intros use. split; [intros [H|H P|key o H P U]; [lia|reflexivity|congruence]|intros ->; apply K_parse; assumption]. }
    unfold signing, takes_public_key in *. destruct (j_family j); try contradiction; apply G. }
  destruct (C76_encode_complete p e ep w Hp W1 A1 G1 Hg) as (o & D & F & Hd). split.
  - intros r w' R. destruct o as [t|rc|u].
    + exfalso. inversion D as [| | |j0 k0 o0 N0 N1 S0 K0 D0]; subst.
      assert (j0 = j) as -> by (eapply supported_fun; eassumption). assert (k0 = k) as -> by (eapply Exact.caller_key_fun; eassumption).
      inversion D0 as [x X N|msg x X D0']; subst; [exact (N _ eq_refl)|]. inversion D0' as [x0 Y N|m x0 Y D1]; subst; [exact (N _ eq_refl)|].
      inversion D1 as [x0 Z N|s x0 Z D2]; subst; [exact (N _ eq_refl)|]. apply S in Z. discriminate Z.
    + destruct Hd as (Nz & w1 & Hd). rewrite R in Hd. injection Hd as -> _. cbn. auto.
    + rewrite Hd in R. discriminate R.
  - intros msg N0 N1 M Sd.
    assert (X : Fails 420 = o).
    { apply F. apply (En_go _ _ ep j k); [exact N0|exact N1|exact Hj|exact Hk|]. eapply At_go; [exact M|]. eapply At_go; [unfold seeded; rewrite Sd; reflexivity|].
      apply At_stop; [apply S; reflexivity|discriminate]. }
    rewrite <- X in Hd. destruct Hd as (_ & Hd). exact Hd.
Qed.
Print Assumptions C102_wrong_password.

(** A backend with an encrypted key: "locked" is read with the password "pw" only, "open" without one. *)
Definition locks : env := {|
  e_seed_ok := true; e_hmac := e_hmac toy; e_md := e_md toy;
  e_parse_key := fun k pw n => if bytes_eqb k (lit "open" ++ [x00]) then Some 0%nat
                               else if bytes_eqb k (lit "locked" ++ [x00]) then match pw with Ptr _ m => if bytes_eqb (firstn (N.to_nat n) m) (lit "pw") then Some 0%nat else None | Null => None end
                               else None;
  e_parse_public_key := e_parse_public_key toy; e_x509_parse := e_x509_parse toy;
  e_can_do := e_can_do toy; e_bitlen := e_bitlen toy; e_pk_sign := e_pk_sign toy;
  e_pk_verify := e_pk_verify toy; e_pk_rsa := e_pk_rsa toy; e_rsa_len := e_rsa_len toy;
  e_pss_sign := e_pss_sign toy; e_pss_verify := e_pss_verify toy; e_pk_ec := e_pk_ec toy;
  e_ecdsa_from_keypair := e_ecdsa_from_keypair toy; e_group := e_group toy;
  e_ecdsa_sign := e_ecdsa_sign toy; e_ecdsa_verify := e_ecdsa_verify toy;
  e_ed_sign := e_ed_sign toy; e_ed_verify := e_ed_verify toy; e_time := e_time toy;
  e_checknum := e_checknum toy; e_jsmn := e_jsmn toy; e_tok_junk := e_tok_junk toy |}.
Example C102_example :
  let ep := ep_with (zstr "me") 2 (zstr "open") 4 3 in
  let locked pw n := resigned ep (zstr "locked") 6 pw n in
  enc_given ep /\ supported (ep_alg ep) (Jwa 3 (lit "RS256") RS SHA256) /\ takes_public_key (Jwa 3 (lit "RS256") RS SHA256)
  /\ key_ok (zstr "open") 4 /\ key_ok (zstr "locked") 6
  /\ e_parse_key locks (pem_text (lit "open")) Null 0 = e_parse_key locks (pem_text (lit "locked")) (zstr "pw") 2
  /\ e_parse_key locks (pem_text (lit "locked")) (zstr "px") 2 = None
  /\ (exists t i i' n w1 w2, l8w8jwt_encode pe locks (Some ep) we = Ret (EncRes 0 (Some (Ptr (Some i) t)) (Some n)) w1
        /\ l8w8jwt_encode pe locks (Some (locked (zstr "pw") 2%N)) we = Ret (EncRes 0 (Some (Ptr (Some i') t)) (Some n)) w2)
  /\ (exists w3, l8w8jwt_encode pe locks (Some (locked (zstr "px") 2%N)) we = Ret (EncRes 420 None None) w3).
Proof.
  cbv zeta.
  assert (K1 : caller_key (zstr "open") 4 (lit "open")) by (exists None; eexists; split; [reflexivity|]; split; [vm_compute; discriminate|reflexivity]).
  assert (K2 : caller_key (zstr "locked") 6 (lit "locked")) by (exists None; eexists; split; [reflexivity|]; split; [vm_compute; discriminate|reflexivity]).
  split; [eapply ep_with_given; [right; exists (lit "me"); apply given_zstr; reflexivity|exact K1]|].
  split; [split; [vm_compute; tauto|reflexivity]|]. split; [exact I|].
  split; [split; [lia|exists (lit "open"); split; [exact K1|left; lia]]|]. split; [split; [lia|exists (lit "locked"); split; [exact K2|left; lia]]|].
  split; [reflexivity|]. split; [reflexivity|]. split.
  - let a := eval vm_compute in (l8w8jwt_encode pe locks (Some (ep_with (zstr "me") 2 (zstr "open") 4 3)) we) in
    let b := eval vm_compute in (l8w8jwt_encode pe locks (Some (resigned (ep_with (zstr "me") 2 (zstr "open") 4 3) (zstr "locked") 6 (zstr "pw") 2)) we) in
    match a with Ret (EncRes _ (Some (Ptr (Some ?i) ?t)) (Some ?n)) ?w1 => match b with Ret (EncRes _ (Some (Ptr (Some ?i') _)) _) ?w2 => exists t, i, i', n, w1, w2 end end.
    split; vm_compute; reflexivity.
  - let b := eval vm_compute in (l8w8jwt_encode pe locks (Some (resigned (ep_with (zstr "me") 2 (zstr "open") 4 3) (zstr "locked") 6 (zstr "px") 2)) we) in
    match b with Ret _ ?w3 => exists w3 end. vm_compute. reflexivity.
Qed.
