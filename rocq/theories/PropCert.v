(** * Property C101: certificates *)
From Verif Require Import Base BaseProofs HeapProofs Util UtilProofs Claim Base64 SpecB64
  Base64EncProofs Base64EncApi Base64DecProofs Base64Api Jsmn Env Encode Decode SpecJson SpecJwa ClaimProofs UnescapeProofs
  EncodeProofs SignProofs EncodeTotal SpecEnc JsonProofs PropEncode DecodeProofs DecodeInv JsmnProofs ParseProofs
  PropClaim ReadProofs ValidateProofs JsmnJson JsmnSize PropVerify PropValidate PropLeak PropJson DecodeTotal DecodeOk
  OverRead PropSafe PropRoundTrip PropOverRead CodeProofs Walk Exact PropExact Complete PropComplete LocalProofs Examples Sha2 PropHmac PropBuilds.
From Coq Require Import ZifyBool ZifyNat ZifyN.
Ltac Zify.zify_post_hook ::= Z.div_mod_to_equations.
Local Opaque L8W8JWT_MAX_KEY_SIZE.

(** ** A certificate stands for its public key *)
Lemma stands_good e k key : public_key_of e k key -> ~ bad_certificate e k.
Proof. intros [(C & E)|(C & E)] (B & F); [congruence|contradiction]. Qed.
Lemma stands_iff e k k' key : public_key_of e k key -> public_key_of e k' key -> forall x, public_key_of e k x <-> public_key_of e k' x.
Proof. intros H H' x. split; intros K; [rewrite (Exact.public_key_fun _ _ _ _ K H)|rewrite (Exact.public_key_fun _ _ _ _ K H')]; assumption. Qed.
(** The algorithms that take a public key. *)
Definition takes_public_key (j : jwa) : Prop := match j_family j with RS | PS | ES _ _ _ => True | _ => False end.
Lemma turned_stands p e j k k' key msg rc : takes_public_key j -> public_key_of e k key -> public_key_of e k' key ->
  turned_down p e j k msg rc -> turned_down p e j k' msg rc.
Proof.
  intros F H H' [(C & _)|(_ & T)]; [destruct (stands_good _ _ _ H C)|]. right. split; [exact (stands_good _ _ _ H')|].
  pose proof (stands_iff _ _ _ _ H H') as I. unfold takes_public_key in F. cbv zeta in *. destruct (j_family j); try contradiction.
  - destruct T as [T|(T1 & T2 & T3)]; [left; exact T|]. destruct (T2 _ H).
  - destruct T as [T|(T1 & T2 & T3)]; [left; exact T|]. destruct (T2 _ H).
  - destruct T as [T|[(T1 & T2 & T3)|(T1 & T2 & x & T3 & T4)]]; [left; exact T|destruct (T2 _ H)|]. right. right. split; [exact T1|]. split; [exact T2|].
    exists x. split; [apply I; exact T3|exact T4].
Qed.
Lemma misused_stands e j k k' key msg mem u : takes_public_key j -> public_key_of e k key -> public_key_of e k' key ->
  misused e j k msg mem u -> misused e j k' msg mem u.
Proof.
  intros F H H'. pose proof (stands_iff _ _ _ _ H H') as I. unfold misused, takes_public_key in *. destruct (j_family j); try contradiction; auto.
  - intros (x & X & Y). exists x. split; [apply I; exact X|exact Y].
  - intros (x & X & Y). exists x. split; [apply I; exact X|exact Y].
Qed.
Lemma verifies_stands p e j k k' key msg sig st : takes_public_key j -> public_key_of e k key -> public_key_of e k' key ->
  verifies p e j k msg sig st -> verifies p e j k' msg sig st.
Proof.
  intros F H H'. pose proof (stands_iff _ _ _ _ H H') as I. unfold verifies, signature_read, verified_by, takes_public_key in *. cbv zeta. destruct (j_family j); try contradiction.
  - intros (l & L & x & d & X & Y). exists l. split; [exact L|]. exists x, d. split; [apply I; exact X|exact Y].
  - intros (l & (y & Z & L) & x & d & X & Y). exists l. split; [exists y; split; [apply I; exact Z|exact L]|]. exists x, d. split; [apply I; exact X|exact Y].
  - intros (l & L & x & d & r & s & X & Y). exists l. split; [exact L|]. exists x, d, r, s. split; [apply I; exact X|exact Y].
Qed.
Lemma check_stands p e dp q n j k k' key msg sg c :
  supported (dp_alg dp) j -> takes_public_key j ->
  caller_key (dp_verification_key dp) (dp_verification_key_length dp) k -> caller_key q n k' ->
  public_key_of e k key -> public_key_of e k' key ->
  check p e dp msg sg c -> check p e (rekeyed dp q n) msg sg c.
Proof.
  intros Hj F Hk Hk' P P' Hc.
  assert (Hn : dp_alg dp <> (-1)%Z) by (destruct (supported_range _ _ Hj); lia).
  destruct Hc as [E|k0 _ U _ _|k0 _ U _ _|j0 k0 rc S K T|j0 k0 sig st u S K T Es M|j0 k0 sig st S K T Es M V|j0 k0 sig st S K T Es M V];
    [contradiction|destruct (U _ Hj)|destruct (U _ Hj)|..];
    assert (j0 = j) as -> by (eapply supported_fun; eassumption); assert (k0 = k) as -> by (eapply caller_key_fun; eassumption).
  - eapply Ck_stops; [exact S|exact Hk'|]. exact (turned_stands _ _ _ _ _ _ _ _ F P P' T).
  - eapply Ck_breaks; [exact S|exact Hk'| |exact Es|exact (misused_stands _ _ _ _ _ _ _ _ F P P' M)]. intros rc C. apply (T rc). eapply turned_stands; [exact F|exact P'|exact P|exact C].
  - eapply Ck_good; [exact S|exact Hk'| |exact Es| |exact (verifies_stands _ _ _ _ _ _ _ _ _ F P P' V)].
    + intros rc C. apply (T rc). eapply turned_stands; [exact F|exact P'|exact P|exact C].
    + intros u C. apply (M u). eapply misused_stands; [exact F|exact P'|exact P|exact C].
  - eapply Ck_bad; [exact S|exact Hk'| |exact Es| |].
    + intros rc C. apply (T rc). eapply turned_stands; [exact F|exact P'|exact P|exact C].
    + intros u C. apply (M u). eapply misused_stands; [exact F|exact P'|exact P|exact C].
    + intros C. apply V. eapply verifies_stands; [exact F|exact P'|exact P|exact C].
Qed.

Lemma decoding_stands p e dp q n j k k' key t o :
  supported (dp_alg dp) j -> takes_public_key j ->
  caller_key (dp_verification_key dp) (dp_verification_key_length dp) k -> caller_key q n k' ->
  public_key_of e k key -> public_key_of e k' key ->
  decoding p e dp t o -> decoding p e (rekeyed dp q n) t o.
Proof.
  intros Hj F Hk Hk' P P' D.
  destruct D as [E|E U Q|o' E U R]; [apply De_empty; exact E|apply De_unbuilt; assumption|].
  apply De_run; [exact E|exact U|]. destruct R.
  - eapply Rn_cut. apply cut_rekeyed. eassumption.
  - eapply Rn_stops; [apply cut_rekeyed; eassumption|]. eapply check_stands; [exact Hj|exact F|exact Hk|exact Hk'|exact P|exact P'|eassumption].
  - eapply Rn_breaks; [apply cut_rekeyed; eassumption|]. eapply check_stands; [exact Hj|exact F|exact Hk|exact Hk'|exact P|exact P'|eassumption].
  - eapply Rn_goes; [apply cut_rekeyed; eassumption|eapply check_stands; [exact Hj|exact F|exact Hk|exact Hk'|exact P|exact P'|eassumption]|apply reading_rekeyed; eassumption].
Qed.

(** A certificate does as well as the public key in it, and nothing else in it counts: whatever two keys the caller
    passes, if mbedtls reads the same public key from them, every token gets the same answer. *)
Theorem C101_stands_for_its_key :
  forall p e dp q n j k k' key t cn ln w w2,
    wf w -> allocs w -> grows w -> wf w2 -> allocs w2 -> grows w2 -> uses_jsmn e -> (32 <= p_size_bits p)%N ->
    c_text p dp t -> (Z.of_nat (length t) <= INT_MAX)%Z -> requests_readable e dp -> (cn = true -> ln = true) ->
    supported (dp_alg dp) j -> takes_public_key j ->
    key_ok (dp_verification_key dp) (dp_verification_key_length dp) -> key_ok q n ->
    caller_key (dp_verification_key dp) (dp_verification_key_length dp) k -> caller_key q n k' ->
    public_key_of e k key -> public_key_of e k' key ->
    same_answer (l8w8jwt_decode p e (Some dp) true cn ln w) (l8w8jwt_decode p e (Some (rekeyed dp q n)) true cn ln w2).
Proof.
  intros p e dp q n j k k' key t cn ln w w2 W1 A1 G1 W2 A2 G2 Uj Hp Ht Hl Hr Hc Hj F Ko Ko' Hk Hk' P P'.
  destruct (C75_decode_complete p e dp t cn ln w W1 A1 G1 Uj Hp Ht Hl Ko Hr Hc) as (o & D & _ & Hd).
  destruct (C75_decode_complete p e (rekeyed dp q n) t cn ln w2 W2 A2 G2 Uj Hp Ht Hl Ko' Hr Hc) as (o2 & _ & F2 & Hd2).
  pose proof (decoding_stands p e dp q n j k k' key t o Hj F Hk Hk' P P' D) as D2.
  rewrite <- (F2 o D2) in Hd2. unfold same_answer.
  destruct o as [rc|v es|u].
  - destruct Hd as (_ & wa & ->), Hd2 as (_ & wb & ->). cbn. auto.
  - destruct Hd as (i & cs & wa & X & ->), Hd2 as (i' & cs' & wb & X' & ->). cbn. destruct cn; eauto 6.
  - rewrite Hd, Hd2. reflexivity.
Qed.
Print Assumptions C101_stands_for_its_key.

(** The same for l8w8jwt_decode_raw: the same outcome, and the parts of the same token. *)
Theorem C101_raw_stands_for_its_key :
  forall p e dp q n j k k' key t hn hl pn pl sn sl w w2,
    wf w -> allocs w -> grows w -> wf w2 -> allocs w2 -> grows w2 -> uses_jsmn e -> (32 <= p_size_bits p)%N ->
    c_text p dp t -> (Z.of_nat (length t) <= INT_MAX)%Z -> requests_readable e dp ->
    (hn = true -> hl = true) -> (pn = true -> pl = true) -> (sn = true -> sl = true) ->
    supported (dp_alg dp) j -> takes_public_key j ->
    key_ok (dp_verification_key dp) (dp_verification_key_length dp) -> key_ok q n ->
    caller_key (dp_verification_key dp) (dp_verification_key_length dp) k -> caller_key q n k' ->
    public_key_of e k key -> public_key_of e k' key ->
    exists o, hands_out_raw dp t hn pn sn (l8w8jwt_decode_raw p e (Some dp) true hn hl pn pl sn sl w) o
      /\ hands_out_raw dp t hn pn sn (l8w8jwt_decode_raw p e (Some (rekeyed dp q n)) true hn hl pn pl sn sl w2) o.
Proof.
  intros p e dp q n j k k' key t hn hl pn pl sn sl w w2 W1 A1 G1 W2 A2 G2 Uj Hp Ht Hl Hr H1 H2 H3 Hj F Ko Ko' Hk Hk' P P'.
  destruct (C75_decode_raw_complete p e dp t hn hl pn pl sn sl w W1 A1 G1 Uj Hp Ht Hl Ko Hr H1 H2 H3) as (o & D & _ & Hd).
  destruct (C75_decode_raw_complete p e (rekeyed dp q n) t hn hl pn pl sn sl w2 W2 A2 G2 Uj Hp Ht Hl Ko' Hr H1 H2 H3) as (o2 & _ & F2 & Hd2).
  rewrite <- (F2 o (decoding_stands p e dp q n j k k' key t o Hj F Hk Hk' P P' D)) in Hd2.
  exists o. split; [exact Hd|]. unfold hands_out_raw.
  assert (T : forall r, given_parts (rekeyed dp q n) t hn pn sn r -> given_parts dp t hn pn sn r).
  { intros r G msg hj ht pj pt sg C. exact (G msg hj ht pj pt sg (cut_rekeyed dp q n t _ C)). }
  destruct o as [rc|v es|u].
  - destruct Hd2 as (N0 & r & w' & E & R & V & G). split; [exact N0|]. exists r, w'. repeat (split; [assumption|]). destruct (stored rc); auto.
  - destruct Hd2 as (r & w' & E & R & V & G). exists r, w'. repeat (split; [assumption|]). auto.
  - exact Hd2.
Qed.
Print Assumptions C101_raw_stands_for_its_key.

(** ** Keys that look like certificates *)
Lemma marked_code p e dp j k o :
  dp_alg dp <> (-1)%Z -> caller_key (dp_verification_key dp) (dp_verification_key_length dp) k -> bad_certificate e k ->
  decoding p e dp j o ->
  exists rc, o = Code rc /\ (forall msg hj ht pj pt sg, cut dp j (Parts msg hj ht pj pt sg) -> rc = 420%Z \/ (dp_alg dp = 13%Z /\ p_eddsa p = false)).
Proof.
  intros Na Hck B D.
  assert (G : forall msg sg c, check p e dp msg sg c -> c = Stops 420).
  { intros msg sg c [E|k0 N1 U K N|k0 N1 U K N|j0 k0 rc S K T|j0 k0 sig st u S K T Es M|j0 k0 sig st S K T Es M V|j0 k0 sig st S K T Es M V];
      try contradiction; try reflexivity; assert (k0 = k) as -> by (eapply caller_key_fun; eassumption).
    - contradiction.
    - destruct T as [(_ & ->)|(T & _)]; [reflexivity|contradiction].
    - destruct (T 420%Z). left. auto.
    - destruct (T 420%Z). left. auto.
    - destruct (T 420%Z). left. auto. }
  destruct D as [E|E U Q|o' E U R].
    - exists 200%Z. split; [reflexivity|]. intros msg hj ht pj pt sg X. subst j. exfalso. inversion X; subst.
      + match goal with K : parts2 [] _ _ |- _ => destruct K as [K _]; destruct h; discriminate K end.
      + match goal with K : parts3 [] _ _ _ |- _ => destruct K as [K _]; destruct h; discriminate K end.
    - exists 800%Z. split; [reflexivity|]. intros msg hj ht pj pt sg X. right. auto.
    - destruct R as [rc X|msg hj ht pj pt sg rc X K|msg hj ht pj pt sg u X K|msg hj ht pj pt sg vf o X K R].
      + exists rc. split; [reflexivity|]. intros msg hj ht pj pt sg Y. pose proof (cut_fun _ _ _ _ X Y). discriminate.
      + apply G in K. injection K as ->. exists 420%Z. auto.
      + apply G in K. discriminate K.
      + apply G in K. discriminate K.
Qed.
(** A key with the text -----BEGIN CERTIFICATE----- in it that is no certificate: no token is accepted, whatever the
    algorithm, the symmetric ones included. *)
Theorem C101_marked_keys_refused :
  forall p e dp j k cn ln w,
    wf w -> allocs w -> grows w -> uses_jsmn e -> (32 <= p_size_bits p)%N ->
    c_text p dp j -> (Z.of_nat (length j) <= INT_MAX)%Z ->
    key_ok (dp_verification_key dp) (dp_verification_key_length dp) -> requests_readable e dp -> (cn = true -> ln = true) ->
    dp_alg dp <> (-1)%Z -> caller_key (dp_verification_key dp) (dp_verification_key_length dp) k -> bad_certificate e k ->
    exists rc w', rc <> 0%Z /\ l8w8jwt_decode p e (Some dp) true cn ln w = Ret (DecRes rc (stored rc) None) w'
      /\ (forall msg hj ht pj pt sg, cut dp j (Parts msg hj ht pj pt sg) -> rc = 420%Z \/ (dp_alg dp = 13%Z /\ p_eddsa p = false)).
Proof.
  intros p e dp j k cn ln w W1 W2 W3 Hj Hp Ht Hl Hk Hr Hc Na Hck B.
  destruct (C75_decode_complete p e dp j cn ln w W1 W2 W3 Hj Hp Ht Hl Hk Hr Hc) as (o & D & _ & Hd).
  destruct (marked_code p e dp j k o Na Hck B D) as (rc & -> & C). destruct Hd as (R0 & w' & E). exists rc, w'. auto.
Qed.
Print Assumptions C101_marked_keys_refused.
Theorem C101_raw_marked_keys_refused :
  forall p e dp j k hn hl pn pl sn sl w,
    wf w -> allocs w -> grows w -> uses_jsmn e -> (32 <= p_size_bits p)%N ->
    c_text p dp j -> (Z.of_nat (length j) <= INT_MAX)%Z ->
    key_ok (dp_verification_key dp) (dp_verification_key_length dp) -> requests_readable e dp ->
    (hn = true -> hl = true) -> (pn = true -> pl = true) -> (sn = true -> sl = true) ->
    dp_alg dp <> (-1)%Z -> caller_key (dp_verification_key dp) (dp_verification_key_length dp) k -> bad_certificate e k ->
    exists r w', l8w8jwt_decode_raw p e (Some dp) true hn hl pn pl sn sl w = Ret r w' /\ rr_rc r <> 0%Z /\ rr_valid r = stored (rr_rc r)
      /\ (forall msg hj ht pj pt sg, cut dp j (Parts msg hj ht pj pt sg) -> rr_rc r = 420%Z \/ (dp_alg dp = 13%Z /\ p_eddsa p = false)).
Proof.
  intros p e dp j k hn hl pn pl sn sl w W1 W2 W3 Hj Hp Ht Hl Hk Hr H1 H2 H3 Na Hck B.
  destruct (C75_decode_raw_complete p e dp j hn hl pn pl sn sl w W1 W2 W3 Hj Hp Ht Hl Hk Hr H1 H2 H3) as (o & D & _ & Hd).
  destruct (marked_code p e dp j k o Na Hck B D) as (rc & -> & C). destruct Hd as (R0 & r & w' & E & R & V & _).
  exists r, w'. rewrite R. auto.
Qed.
Print Assumptions C101_raw_marked_keys_refused.

(** So a secret the library signs with may be one it does not verify with. *)
Definition no_x509 : env := {|
  e_seed_ok := true; e_hmac := e_hmac toy; e_md := e_md toy; e_parse_key := e_parse_key toy;
  e_parse_public_key := e_parse_public_key toy; e_x509_parse := fun _ => None;
  e_can_do := e_can_do toy; e_bitlen := e_bitlen toy; e_pk_sign := e_pk_sign toy;
  e_pk_verify := e_pk_verify toy; e_pk_rsa := e_pk_rsa toy; e_rsa_len := e_rsa_len toy;
  e_pss_sign := e_pss_sign toy; e_pss_verify := e_pss_verify toy; e_pk_ec := e_pk_ec toy;
  e_ecdsa_from_keypair := e_ecdsa_from_keypair toy; e_group := e_group toy;
  e_ecdsa_sign := e_ecdsa_sign toy; e_ecdsa_verify := e_ecdsa_verify toy;
  e_ed_sign := e_ed_sign toy; e_ed_verify := e_ed_verify toy; e_time := e_time toy;
  e_checknum := e_checknum toy; e_jsmn := e_jsmn toy; e_tok_junk := e_tok_junk toy |}.
Definition marked : ptr := zstr "-----BEGIN CERTIFICATE-----".
Theorem C101_marked_secret_refuted :
  exists e r w1 id t w2, caller_key marked 27 (lit "-----BEGIN CERTIFICATE-----") /\ bad_certificate e (lit "-----BEGIN CERTIFICATE-----")
    /\ l8w8jwt_encode pe e (Some (ep_with (zstr "me") 2 marked 27 0)) we = Ret r w1 /\ er_rc r = L8W8JWT_SUCCESS /\ er_out r = Some (Ptr (Some id) (t ++ [x00]))
    /\ l8w8jwt_decode pe e (Some (dp_plain t 0 marked 27)) true true true we = Ret (DecRes L8W8JWT_KEY_PARSE_FAILURE (Some NOT_VALID) None) w2.
Proof.
  exists no_x509.
  let a := eval vm_compute in (l8w8jwt_encode pe no_x509 (Some (ep_with (zstr "me") 2 marked 27 0)) we) in
  match a with Ret ?r ?w => match r with EncRes _ (Some (Ptr (Some ?i) ?m)) _ => let t := eval vm_compute in (removelast m) in
    let b := eval vm_compute in (l8w8jwt_decode pe no_x509 (Some (dp_plain t 0 marked 27)) true true true we) in
    match b with Ret _ ?w' => exists r, w, i, t, w' end end end.
  split; [exists None; eexists; split; [reflexivity|]; split; [vm_compute; discriminate|reflexivity]|].
  split; [split; [exists [], []; reflexivity|reflexivity]|]. split; [vm_compute; reflexivity|]. split; [reflexivity|]. split; [reflexivity|]. vm_compute. reflexivity.
Qed.
Print Assumptions C101_marked_secret_refuted.

(** RS256 with a certificate and with a public key. *)
Example C101_example :
  let dp := dp_plain sure_text 3 (zstr "secret") 6 in
  supported (dp_alg dp) (Jwa 3 (lit "RS256") RS SHA256) /\ takes_public_key (Jwa 3 (lit "RS256") RS SHA256)
  /\ public_key_of toy (lit "secret") 0 /\ public_key_of toy (lit "-----BEGIN CERTIFICATE-----") 0
  /\ caller_key (zstr "secret") 6 (lit "secret") /\ caller_key marked 27 (lit "-----BEGIN CERTIFICATE-----")
  /\ well_called pe toy dp sure_text
  /\ (forall q n, In (q, n) [(zstr "secret", 6%N); (marked, 27%N)] ->
        match l8w8jwt_decode pe toy (Some (rekeyed dp q n)) true true true we with Ret r _ => dr_rc r = 0%Z /\ dr_valid r = Some 0%N | Undef _ => False end).
Proof.
  cbv zeta. split; [split; [vm_compute; tauto|reflexivity]|]. split; [exact I|].
  split; [right; split; [|reflexivity]|].
  { intros (a & b & C). apply (f_equal (@length byte)) in C. rewrite !app_length in C. change (length (lit "-----BEGIN CERTIFICATE-----")) with 27%nat in C.
    change (length (before_nul (lit "secret"))) with 6%nat in C. lia. }
  split; [left; split; [exists [], []; reflexivity|reflexivity]|].
  split; [exists None; eexists; split; [reflexivity|]; split; [vm_compute; discriminate|reflexivity]|].
  split; [exists None; eexists; split; [reflexivity|]; split; [vm_compute; discriminate|reflexivity]|].
  split; [called|]. intros q n [E|[E|[]]]; injection E as <- <-; vm_compute; auto.
Qed.
