(** * Property C99: two builds of the library do the same *)
From Verif Require Import Base BaseProofs HeapProofs Util UtilProofs Claim Base64 SpecB64
  Base64EncProofs Base64EncApi Base64DecProofs Base64Api Jsmn Env Encode Decode SpecJson SpecJwa ClaimProofs UnescapeProofs
  EncodeProofs SignProofs EncodeTotal SpecEnc JsonProofs PropEncode DecodeProofs DecodeInv JsmnProofs ParseProofs
  PropClaim ReadProofs ValidateProofs JsmnJson JsmnSize PropVerify PropValidate PropLeak PropJson DecodeTotal DecodeOk
  OverRead PropSafe PropRoundTrip PropOverRead CodeProofs EncCodeProofs Walk Exact PropExact Complete PropComplete LocalProofs Strain PropStrain EncComplete PropEncComplete.
From Coq Require Import ZifyBool ZifyNat ZifyN.
Ltac Zify.zify_post_hook ::= Z.div_mod_to_equations.
Local Opaque L8W8JWT_MAX_KEY_SIZE.

(** A build is a [platform] (Base.v): the width of size_t, the sign of char, the two compile-time switches
    L8W8JWT_SMALL_STACK and L8W8JWT_ENABLE_EDDSA, and which of the two versions of chillbuff's initialiser it has.
    Where EdDSA is asked for, both builds have it, and the key has no byte which the sign of char changes. *)
Definition ascii_text (s : bytes) : Prop := Forall (fun x => (b2n x < 128)%N) s.
Definition eddsa_alike (p p' : platform) (alg : Z) (q : ptr) (n : N) : Prop :=
  alg = 13%Z -> p_eddsa p = p_eddsa p' /\ (p_char_signed p = p_char_signed p' \/ forall k, caller_key q n k -> ascii_text k).

(** ** The relations of Complete.v *)
Lemma loose_digit_alike p p' c : p_char_signed p = p_char_signed p' \/ (b2n c < 128)%N -> loose_digit p c = loose_digit p' c.
Proof. unfold loose_digit. intros [->|H]; [reflexivity|]. replace (128 <=? b2n c)%N with false by lia. rewrite !andb_false_r. reflexivity. Qed.
Lemma loose_unhex_alike p p' s : p_char_signed p = p_char_signed p' \/ ascii_text s -> loose_unhex p s = loose_unhex p' s.
Proof.
  induction s as [|a|a b s IH] using list2_ind; intros H; [reflexivity|reflexivity|]. cbn [loose_unhex].
  assert (H' : (p_char_signed p = p_char_signed p' \/ (b2n a < 128)%N) /\ (p_char_signed p = p_char_signed p' \/ (b2n b < 128)%N)
    /\ (p_char_signed p = p_char_signed p' \/ ascii_text s)).
  { destruct H as [H|H]; [auto|]. inversion H as [|? ? H1 H2]. inversion H2. auto. }
  destruct H' as (H1 & H2 & H3). rewrite (loose_digit_alike p p' a), (loose_digit_alike p p' b), IH; auto.
Qed.
Lemma hmac_key_ascii k : ascii_text k -> ascii_text (hmac_key k).
Proof.
  unfold hmac_key, ascii_text. intros H. destruct (is_nul (last k x01)); [|exact H].
  destruct k as [|c k]; [constructor|]. rewrite (app_removelast_last x01 (l := c :: k)) in H by discriminate. apply Forall_app in H. apply H.
Qed.

Lemma turned_alike p p' e dp j k msg rc : supported (dp_alg dp) j -> (dp_alg dp = 13%Z -> p_eddsa p = p_eddsa p') ->
  turned_down p e j k msg rc -> turned_down p' e j k msg rc.
Proof.
  intros S He [H|[H H']]; [left; exact H|right]. split; [exact H|]. cbv zeta in *. pose proof (family_range _ _ S) as F.
  destruct (j_family j); try exact H'. rewrite <- (He F). exact H'.
Qed.
Lemma verifies_alike p p' e dp j k msg sig st : supported (dp_alg dp) j ->
  (dp_alg dp = 13%Z -> p_char_signed p = p_char_signed p' \/ ascii_text k) ->
  verifies p e j k msg sig st -> verifies p' e j k msg sig st.
Proof.
  intros S He. unfold verifies. pose proof (family_range _ _ S) as F. destruct (j_family j); auto.
  rewrite (loose_unhex_alike p p'); [auto|]. destruct (He F) as [H|H]; auto using hmac_key_ascii.
Qed.
Lemma alike_sym p p' alg q n : eddsa_alike p p' alg q n -> eddsa_alike p' p alg q n.
Proof. intros H E. destruct (H E) as [H1 [H2|H2]]; auto. Qed.
Lemma check_alike p p' e dp msg sg c : eddsa_alike p p' (dp_alg dp) (dp_verification_key dp) (dp_verification_key_length dp) ->
  check p e dp msg sg c -> check p' e dp msg sg c.
Proof.
  intros A. pose proof (alike_sym _ _ _ _ _ A) as A'.
  assert (T : forall P P' j k rc, eddsa_alike P P' (dp_alg dp) (dp_verification_key dp) (dp_verification_key_length dp) -> supported (dp_alg dp) j ->
    turned_down P e j k msg rc -> turned_down P' e j k msg rc) by (intros P P' j k rc B S; apply (turned_alike _ _ _ dp); [exact S|intros E; apply B, E]).
  assert (V : forall P P' j k sig st, eddsa_alike P P' (dp_alg dp) (dp_verification_key dp) (dp_verification_key_length dp) -> supported (dp_alg dp) j ->
    caller_key (dp_verification_key dp) (dp_verification_key_length dp) k -> verifies P e j k msg sig st -> verifies P' e j k msg sig st).
  { intros P P' j k sig st B S K. apply (verifies_alike _ _ _ dp); [exact S|]. intros E. destruct (B E) as [_ [H|H]]; auto. }
  intros [?|k ? ? ? ?|k ? ? ? ?|j k rc S K H|j k sig st u S K H E M|j k sig st S K H E M V1|j k sig st S K H E M V1].
  - apply Ck_none; auto.
  - eapply Ck_unknown; eauto.
  - eapply Ck_unknown_stops; eauto.
  - eapply Ck_stops; eauto.
  - eapply Ck_breaks; eauto. intros rc C. apply (H rc). eauto.
  - eapply Ck_good; eauto. intros rc C. apply (H rc). eauto.
  - eapply Ck_bad; eauto. intros rc C. apply (H rc). eauto.
Qed.

(** ** The typ of the token *)
Lemma trips_signed p n v x : trips p n v x -> p_char_signed p = true.
Proof. intros (a & c & va & b & d & xb & _ & _ & _ & _ & _ & N). destruct (p_char_signed p) eqn:E; [reflexivity|]. destruct N. unfold ctype_ok. rewrite E. split; discriminate. Qed.
Lemma typ_trips_signed p dp es : typ_trips p dp es -> p_char_signed p = true.
Proof. intros (b & x & r & v & _ & _ & _ & H). eapply trips_signed. exact H. Qed.
Lemma typ_trips_alike p p' dp es : p_char_signed p = p_char_signed p' -> typ_trips p dp es -> typ_trips p' dp es.
Proof.
  intros E (b & x & r & v & H1 & H2 & H3 & (a & c & va & b' & d & xb & K1 & K2 & K3 & K4 & K5 & K6)). exists b, x, r, v. split; [exact H1|]. split; [exact H2|]. split; [exact H3|].
  exists a, c, va, b', d, xb. unfold ctype_ok in *. rewrite <- E. auto 10.
Qed.

(** Two outcomes of decoding: the same; or char is signed in one build only, and there the typ of the token or the typ
    it is compared with has a byte tolower must not be called on. *)
Definition same_decoding (p p' : platform) (o o' : outcome) : Prop :=
  o' = o \/ (p_char_signed p = true /\ p_char_signed p' = false /\ o = Harm BadCtype)
  \/ (p_char_signed p = false /\ p_char_signed p' = true /\ o' = Harm BadCtype).

Lemma reading_alike p p' e dp vf hj ht pj pt o o' : uses_jsmn e ->
  (Z.of_nat (length hj) <= INT_MAX)%Z /\ (Z.of_nat (length pj) <= INT_MAX)%Z /\ (5 <= length ht)%nat /\ (5 <= length pt)%nat ->
  reading p e dp vf hj ht pj pt o -> reading p' e dp vf hj ht pj pt o' -> same_decoding p p' o o'.
Proof.
  intros Hj (L1 & L2 & L3 & L4).
  assert (F1 : forall a b, has_fate e hj ht a -> has_fate e hj ht b -> a = b) by (intros a b; apply fate_fun; auto).
  assert (F2 : forall a b, has_fate e pj pt a -> has_fate e pj pt b -> a = b) by (intros a b; apply fate_fun; auto).
  intros [H|H|eh H1 H2|eh H1 H2|eh ep H1 H2 H3|eh ep v H1 H2 H3 H4] [G|G|eg G1 G2|eg G1 G2|eg gp G1 G2 G3|eg gp v' G1 G2 G3 G4];
    repeat match goal with
    | A : has_fate e hj ht ?a, B : has_fate e hj ht ?b |- _ =>
      assert_fails (constr_eq a b); pose proof (F1 _ _ A B) as E; first [discriminate E | injection E as E; subst; clear B]
    | A : has_fate e pj pt ?a, B : has_fate e pj pt ?b |- _ =>
      assert_fails (constr_eq a b); pose proof (F2 _ _ A B) as E; first [discriminate E | injection E as E; subst; clear B]
    end;
    try (left; reflexivity).
  - pose proof (typ_trips_signed _ _ _ H3) as E. right. left. split; [exact E|]. split; [|reflexivity].
    destruct (p_char_signed p') eqn:E'; [|reflexivity]. destruct G3. eapply typ_trips_alike; [|exact H3]. congruence.
  - pose proof (typ_trips_signed _ _ _ G3) as E. right. right. split; [|split; [exact E|reflexivity]].
    destruct (p_char_signed p) eqn:E'; [|reflexivity]. destruct H3. eapply typ_trips_alike; [|exact G3]. congruence.
  - left. f_equal. eapply verdict_fun; eassumption.
Qed.
Lemma running_alike p p' e dp j o o' : uses_jsmn e -> (Z.of_nat (length j) <= INT_MAX)%Z -> eddsa_alike p p' (dp_alg dp) (dp_verification_key dp) (dp_verification_key_length dp) ->
  running p e dp j o -> running p' e dp j o' -> same_decoding p p' o o'.
Proof.
  intros Hj Hl A [rc C|msg hj ht pj pt sg rc C K|msg hj ht pj pt sg u C K|msg hj ht pj pt sg vf o1 C K R]
    [rc' C'|msg' hj' ht' pj' pt' sg' rc' C' K'|msg' hj' ht' pj' pt' sg' u' C' K'|msg' hj' ht' pj' pt' sg' vf' o1' C' K' R'];
    pose proof (cut_fun _ _ _ _ C C') as E; try discriminate E; injection E as E; subst; try (left; reflexivity);
    apply (check_alike p p') in K; auto; pose proof (check_fun _ _ _ _ _ _ _ K K') as E; try discriminate E; injection E as E; subst; try (left; reflexivity).
  eapply reading_alike; eauto using cut_lengths.
Qed.
Lemma decoding_alike p p' e dp j o o' : uses_jsmn e -> (Z.of_nat (length j) <= INT_MAX)%Z -> eddsa_alike p p' (dp_alg dp) (dp_verification_key dp) (dp_verification_key_length dp) ->
  decoding p e dp j o -> decoding p' e dp j o' -> same_decoding p p' o o'.
Proof.
  intros Hj Hl A [E|Nj Ea Ep|o1 Nj Na R] [E'|Nj' Ea' Ep'|o1' Nj' Na' R']; try contradiction; try (left; reflexivity).
  - destruct Na'. split; [exact Ea|]. destruct (A Ea). congruence.
  - destruct Na. split; [exact Ea'|]. destruct (A Ea'). congruence.
  - eapply running_alike; eassumption.
Qed.

(** ** Decoding *)
Lemma text_alike p p' dp j : (32 <= p_size_bits p')%N -> (Z.of_nat (length j) <= INT_MAX)%Z -> c_text p dp j -> c_text p' dp j.
Proof.
  intros Hp Hl (H1 & H2 & H3 & _). split; [exact H1|]. split; [exact H2|]. split; [exact H3|]. unfold size_mod.
  apply (N.pow_le_mono_r 2) in Hp; [|discriminate]. change (2 ^ 32)%N with 4294967296%N in Hp. change INT_MAX with 2147483647%Z in Hl. lia.
Qed.
(** What a call of l8w8jwt_decode that comes to [o] hands out (as in C75). *)
Definition hands_out (cn : bool) (call : res dec_res) (o : outcome) : Prop :=
  match o with
  | Harm u => call = Undef u
  | Code rc => rc <> 0%Z /\ exists w', call = Ret (DecRes rc (stored rc) None) w'
  | Result v es => exists id cs w', Forall2 holds cs es
      /\ call = Ret (DecRes 0 (Some v) (if cn then Some (CArr (Some id) cs, N.of_nat (length es)) else None)) w'
  end.
(** Two builds decode every token alike: same code, same validation result, same claims, and undefined behaviour
    of the same kind - except for the typ, where char is signed in one and not in the other. *)
Theorem C99_same_decoding :
  forall p p' e dp j cn ln w w',
    wf w -> allocs w -> grows w -> wf w' -> allocs w' -> grows w' ->
    uses_jsmn e -> (32 <= p_size_bits p)%N -> (32 <= p_size_bits p')%N ->
    c_text p dp j -> (Z.of_nat (length j) <= INT_MAX)%Z ->
    key_ok (dp_verification_key dp) (dp_verification_key_length dp) -> requests_readable e dp ->
    eddsa_alike p p' (dp_alg dp) (dp_verification_key dp) (dp_verification_key_length dp) ->
    (cn = true -> ln = true) ->
    let call := l8w8jwt_decode p e (Some dp) true cn ln w in
    let call' := l8w8jwt_decode p' e (Some dp) true cn ln w' in
    (exists o, hands_out cn call o /\ hands_out cn call' o)
    \/ (p_char_signed p = true /\ p_char_signed p' = false /\ call = Undef BadCtype)
    \/ (p_char_signed p = false /\ p_char_signed p' = true /\ call' = Undef BadCtype).
Proof.
  intros p p' e dp j cn ln w w' W1 W2 W3 W1' W2' W3' Hj Hp Hp' Ht Hl Hk Hr A Hc call call'.
  pose proof (text_alike p p' dp j Hp' Hl Ht) as Ht'.
  destruct (C75_decode_complete p e dp j cn ln w W1 W2 W3 Hj Hp Ht Hl Hk Hr Hc) as (o & D1 & _ & D2).
  destruct (C75_decode_complete p' e dp j cn ln w' W1' W2' W3' Hj Hp' Ht' Hl Hk Hr Hc) as (o' & E1 & _ & E2).
  destruct (decoding_alike p p' e dp j o o' Hj Hl A D1 E1) as [->|[(S1 & S2 & ->)|(S1 & S2 & ->)]]; [left; exists o; split; [exact D2|exact E2]|right; left; auto|right; right; auto].
Qed.
Print Assumptions C99_same_decoding.

(** The same for l8w8jwt_decode_raw, with the parts it hands out. *)
Definition hands_out_raw (dp : dec_params) (j : bytes) (hn pn sn : bool) (call : res raw_res) (o : outcome) : Prop :=
  match o with
  | Harm u => call = Undef u
  | Code rc => rc <> 0%Z /\ exists r w', call = Ret r w' /\ rr_rc r = rc /\ rr_valid r = stored rc
                 /\ if (stored rc : option N) then given_parts dp j hn pn sn r else r = RawRes rc None None None None
  | Result v es => exists r w', call = Ret r w' /\ rr_rc r = 0%Z /\ rr_valid r = Some v /\ given_parts dp j hn pn sn r
  end.
Theorem C99_same_raw_decoding :
  forall p p' e dp j hn hl pn pl sn sl w w',
    wf w -> allocs w -> grows w -> wf w' -> allocs w' -> grows w' ->
    uses_jsmn e -> (32 <= p_size_bits p)%N -> (32 <= p_size_bits p')%N ->
    c_text p dp j -> (Z.of_nat (length j) <= INT_MAX)%Z ->
    key_ok (dp_verification_key dp) (dp_verification_key_length dp) -> requests_readable e dp ->
    eddsa_alike p p' (dp_alg dp) (dp_verification_key dp) (dp_verification_key_length dp) ->
    (hn = true -> hl = true) -> (pn = true -> pl = true) -> (sn = true -> sl = true) ->
    let call := l8w8jwt_decode_raw p e (Some dp) true hn hl pn pl sn sl w in
    let call' := l8w8jwt_decode_raw p' e (Some dp) true hn hl pn pl sn sl w' in
    (exists o, hands_out_raw dp j hn pn sn call o /\ hands_out_raw dp j hn pn sn call' o)
    \/ (p_char_signed p = true /\ p_char_signed p' = false /\ call = Undef BadCtype)
    \/ (p_char_signed p = false /\ p_char_signed p' = true /\ call' = Undef BadCtype).
Proof.
  intros p p' e dp j hn hl pn pl sn sl w w' W1 W2 W3 W1' W2' W3' Hj Hp Hp' Ht Hl Hk Hr A Hh Hpn Hsn call call'.
  pose proof (text_alike p p' dp j Hp' Hl Ht) as Ht'.
  destruct (C75_decode_raw_complete p e dp j hn hl pn pl sn sl w W1 W2 W3 Hj Hp Ht Hl Hk Hr Hh Hpn Hsn) as (o & D1 & _ & D2).
  destruct (C75_decode_raw_complete p' e dp j hn hl pn pl sn sl w' W1' W2' W3' Hj Hp' Ht' Hl Hk Hr Hh Hpn Hsn) as (o' & E1 & _ & E2).
  destruct (decoding_alike p p' e dp j o o' Hj Hl A D1 E1) as [->|[(S1 & S2 & ->)|(S1 & S2 & ->)]]; [left; exists o; split; [exact D2|exact E2]|right; left; auto|right; right; auto].
Qed.
Print Assumptions C99_same_raw_decoding.

(** And for l8w8jwt_decode_raw_no_validation, which only cuts: here the sign of char has no part. *)
Theorem C99_same_cutting :
  forall p p' dp j hn hl pn pl sn sl w w',
    wf w -> allocs w -> wf w' -> allocs w' -> (32 <= p_size_bits p')%N -> (Z.of_nat (length j) <= INT_MAX)%Z ->
    c_text p dp j -> key_ok (dp_verification_key dp) (dp_verification_key_length dp) ->
    j <> [] -> (dp_alg dp = 13%Z -> p_eddsa p = true /\ p_eddsa p' = true) ->
    (hn = true -> hl = true) -> (pn = true -> pl = true) -> (sn = true -> sl = true) -> (hn || pn || sn = true) ->
    exists r w1 r' w1',
      l8w8jwt_decode_raw_no_validation p (Some dp) hn hl pn pl sn sl w = Ret r w1
      /\ l8w8jwt_decode_raw_no_validation p' (Some dp) hn hl pn pl sn sl w' = Ret r' w1'
      /\ rr_rc r' = rr_rc r /\ rr_valid r = None /\ rr_valid r' = None
      /\ (rr_rc r = 0%Z -> given_parts dp j hn pn sn r /\ given_parts dp j hn pn sn r').
Proof.
  intros p p' dp j hn hl pn pl sn sl w w' W1 W2 W1' W2' Hp' Hl Ht Hk Nj Hed Hh Hpn Hsn Hany.
  pose proof (text_alike p p' dp j Hp' Hl Ht) as Ht'.
  destruct (C75_decode_raw_no_validation_complete p dp j hn hl pn pl sn sl w W1 W2 Ht Hk Nj (fun E => proj1 (Hed E)) Hh Hpn Hsn Hany) as (c & r & w1 & _ & U & E & V & G).
  destruct (C75_decode_raw_no_validation_complete p' dp j hn hl pn pl sn sl w' W1' W2' Ht' Hk Nj (fun E => proj2 (Hed E)) Hh Hpn Hsn Hany) as (c' & r' & w1' & K' & _ & E' & V' & G').
  rewrite (U _ K') in G'. exists r, w1, r', w1'. split; [exact E|]. split; [exact E'|]. destruct c as [rc|msg hj ht pj pt sg].
  - destruct G as [G1 G2], G' as [_ G2']. rewrite G2, G2'. repeat split; auto; contradiction.
  - destruct G as [G1 G2], G' as [G1' G2']. rewrite G1, G1'. auto.
Qed.
Print Assumptions C99_same_cutting.

(** ** Encoding *)
(** Two outcomes of encoding: the same; or char is signed in one build only, which uses a byte of 128 or more as a
    negative index; or size_t is narrower in one build, which finds the text to encode too long. *)
Definition too_long (o : product) : Prop := o = Fails 310 \/ o = Fails 425.
Definition same_encoding (p p' : platform) (o o' : product) : Prop :=
  o' = o
  \/ (p_char_signed p = true /\ p_char_signed p' = false /\ o = Breaks BadIndex)
  \/ (p_char_signed p = false /\ p_char_signed p' = true /\ o' = Breaks BadIndex)
  \/ ((p_size_bits p < p_size_bits p')%N /\ too_long o) \/ ((p_size_bits p' < p_size_bits p)%N /\ too_long o').
(** A step that is the same step in both builds. *)
Definition agree (p p' : platform) (A B : product -> Prop) : Prop := forall o o', A o -> B o' -> same_encoding p p' o o'.
Lemma agree_eq p p' x : agree p p' (eq x) (eq x).
Proof. intros o o' <- <-. left. reflexivity. Qed.
Lemma agree_only p p' A : only A -> agree p p' A A.
Proof. intros H o o' K K'. left. apply H; assumption. Qed.
Lemma agree_then p p' A A' B B' : agree p p' A A' -> (forall t, agree p p' (B t) (B' t)) -> agree p p' (andthen A B) (andthen A' B').
Proof.
  intros HA HB o o' [o1 H1 N1|t o1 H1 H2] [o1' H1' N1'|t' o1' H1' H2']; pose proof (HA _ _ H1 H1') as S; unfold same_encoding, too_long in *.
  - exact S.
  - destruct S as [S|[S|[(_ & _ & S)|[S|(_ & [S|S])]]]]; try discriminate S; auto. destruct (N1 t'). symmetry. exact S.
  - destruct S as [S|[(_ & _ & S)|[S|[(_ & [S|S])|S]]]]; try discriminate S; auto. destruct (N1' t). exact S.
  - destruct S as [S|[(_ & _ & S)|[(_ & _ & S)|[(_ & [S|S])|(_ & [S|S])]]]]; try discriminate S. injection S as ->. exact (HB _ _ _ H2 H2').
Qed.

Lemma foreign_alike p p' s : p_char_signed p = p_char_signed p' -> foreign p s -> foreign p' s.
Proof. unfold foreign. intros <-. auto. Qed.
Lemma foreign_claim_alike p p' c : p_char_signed p = p_char_signed p' -> foreign_claim p c -> foreign_claim p' c.
Proof. intros E [(k & H1 & H2)|(T & v & H1 & H2)]; [left|right]; eauto using foreign_alike. Qed.
Lemma foreign_claim_signed p c : foreign_claim p c -> p_char_signed p = true.
Proof. intros [(k & H1 & H2 & _)|(T & v & H1 & H2 & _)]; exact H2. Qed.
Lemma members_agree p p' cs : agree p p' (members p cs) (members p' cs).
Proof.
  assert (G : forall P P', Forall (fun c => ~ foreign_claim P' c) cs -> Exists (foreign_claim P) cs -> p_char_signed P = true /\ p_char_signed P' = false).
  { intros P P' H H'. apply Exists_exists in H' as (c & I & K). pose proof (foreign_claim_signed _ _ K) as S. split; [exact S|].
    destruct (p_char_signed P') eqn:E; [|reflexivity]. rewrite Forall_forall in H. destruct (H c I). eapply foreign_claim_alike; [|exact K]. congruence. }
  intros o o' [ts N T|F] [ts' N' T'|F'].
  - left. do 2 f_equal. eapply claim_texts_fun; eassumption.
  - right. right. left. destruct (G p' p N F'). auto.
  - right. left. destruct (G p p' N' F). auto.
  - left. reflexivity.
Qed.
Lemma header_agree p p' ep j : agree p p' (header p ep j) (header p' ep j).
Proof. unfold header. destruct (ep_header_claims_count ep =? 0)%N; [apply agree_eq|]. apply agree_then; [apply members_agree|]. intros t. apply agree_eq. Qed.
Lemma foreign_registered_signed p ep : foreign_registered p ep -> p_char_signed p = true.
Proof. intros [(v & _ & K & _)|[(v & _ & K & _)|[(v & _ & K & _)|(v & _ & K & _)]]]; exact K. Qed.
Lemma foreign_registered_alike p p' ep : p_char_signed p = p_char_signed p' -> foreign_registered p ep -> foreign_registered p' ep.
Proof. unfold foreign_registered, foreign_string, foreign. intros <-. auto. Qed.
Lemma registered_agree p p' ep : agree p p' (registered p ep) (registered p' ep).
Proof.
  assert (G : forall P P', ~ foreign_registered P' ep -> foreign_registered P ep -> p_char_signed P = true /\ p_char_signed P' = false).
  { intros P P' H K. pose proof (foreign_registered_signed _ _ K) as S. split; [exact S|].
    destruct (p_char_signed P') eqn:E; [|reflexivity]. destruct H. eapply foreign_registered_alike; [|exact K]. congruence. }
  intros o o' [iat nbf exp sub iss aud jti N T1 T2 T3 S1 S2 S3 S4|F] [iat' nbf' exp' sub' iss' aud' jti' N' T1' T2' T3' S1' S2' S3' S4'|F'].
  - left. rewrite (timed_fun _ _ _ _ T1 T1'), (timed_fun _ _ _ _ T2 T2'), (timed_fun _ _ _ _ T3 T3'), (stringed_fun _ _ _ _ _ S1 S1'),
      (stringed_fun _ _ _ _ _ S2 S2'), (stringed_fun _ _ _ _ _ S3 S3'), (stringed_fun _ _ _ _ _ S4 S4'). reflexivity.
  - right. right. left. destruct (G p' p N F'). auto.
  - right. left. destruct (G p p' N' F). auto.
  - left. reflexivity.
Qed.
Lemma payload_agree p p' ep : agree p p' (payload p ep) (payload p' ep).
Proof.
  unfold payload. apply agree_then; [apply registered_agree|]. intros r. destruct (ep_payload_claims_count ep =? 0)%N; [apply agree_eq|].
  apply agree_then; [apply members_agree|]. intros t. apply agree_only. intros o o' (s & S & ->) (s' & S' & ->). rewrite (separator_fun _ _ _ S S'). reflexivity.
Qed.
Lemma narrower a b n : (2 ^ a <= n)%N -> (n < 2 ^ b)%N -> (a < b)%N.
Proof. intros H K. apply (N.pow_lt_mono_r_iff 2); lia. Qed.
Lemma based_agree p p' t : agree p p' (based p t) (based p' t).
Proof.
  unfold agree, same_encoding, too_long. intros o o' [H|H1 H2|H1 H2] [K|K1 K2|K1 K2]; try (left; reflexivity); try (exfalso; lia).
  - do 3 right. left. split; [eapply narrower; eassumption|auto].
  - do 3 right. left. split; [eapply narrower; eassumption|auto].
  - do 4 right. split; [eapply narrower; eassumption|auto].
  - do 4 right. split; [eapply narrower; eassumption|auto].
Qed.
Lemma to_be_signed_agree p p' ep j : agree p p' (to_be_signed p ep j) (to_be_signed p' ep j).
Proof.
  unfold to_be_signed. apply agree_then; [apply header_agree|]. intros ht. apply agree_then; [apply based_agree|]. intros h.
  apply agree_then; [apply payload_agree|]. intros pt. apply agree_then; [apply based_agree|]. intros pl. apply agree_eq.
Qed.
Lemma ps_agree p p' e j key msg : agree p p' (ps_signing p e j key msg) (ps_signing p' e j key msg).
Proof.
  unfold agree, same_encoding, too_long. intros o o' H K. destruct H, K; try contradiction; try congruence; try (exfalso; lia); try (left; reflexivity);
    try (do 3 right; left; split; [eapply narrower; eassumption|auto]; fail); try (do 4 right; split; [eapply narrower; eassumption|auto]; fail).
  left. congruence.
Qed.
Lemma keyed_agree p p' e k pw pwl U U' : (forall key, agree p p' (U key) (U' key)) -> agree p p' (keyed e k pw pwl U) (keyed e k pw pwl U').
Proof.
  intros H o o' [?|? ?|key o1 L P u] [?|? ?|key' o1' L' P' u']; try lia; try congruence; try (left; reflexivity).
  replace key' with key in * by congruence. exact (H _ _ _ u u').
Qed.
Lemma signing_agree p p' e ep j k pw pwl msg : supported (ep_alg ep) j -> caller_key (ep_secret_key ep) (ep_secret_key_length ep) k ->
  eddsa_alike p p' (ep_alg ep) (ep_secret_key ep) (ep_secret_key_length ep) ->
  agree p p' (signing p e j k pw pwl msg) (signing p' e j k pw pwl msg).
Proof.
  intros S K A. pose proof (family_range _ _ S) as F. unfold signing.
  pose proof (signing_only p e j k pw pwl msg) as O. unfold signing in O. destruct (j_family j).
  - apply agree_only. exact O.
  - apply agree_only. exact O.
  - apply keyed_agree. intros key. apply ps_agree.
  - apply agree_only. exact O.
  - destruct (A F) as [E1 E2]. intros o o' H H'.
    assert (E : loose_unhex p (hmac_key k) = loose_unhex p' (hmac_key k)).
    { apply loose_unhex_alike. destruct E2 as [E2|E2]; [auto|]. right. apply hmac_key_ascii. auto. }
    left. destruct H, H'; try congruence; contradiction.
Qed.
Lemma encoding_agree p p' e ep : eddsa_alike p p' (ep_alg ep) (ep_secret_key ep) (ep_secret_key_length ep) -> agree p p' (encoding p e ep) (encoding p' e ep).
Proof.
  intros A o o' [H|H1 H2|H1 H2 H3|j k o1 H1 H2 H3 H4 H5] [H'|H1' H2'|H1' H2' H3'|j' k' o1' H1' H2' H3' H4' H5']; try contradiction; try (left; reflexivity).
  - destruct (H3 _ H3').
  - destruct (H3' _ H3).
  - rewrite (supported_fun _ _ _ H3' H3), (caller_key_fun _ _ _ _ H4' H4) in H5'. revert H5 H5'. clear H3' H4'.
    assert (G : forall A B, agree p p' A B -> A o1 -> B o1' -> same_encoding p p' o1 o1') by (intros X Y Z; apply Z). apply G. clear G.
    apply agree_then; [apply to_be_signed_agree|]. intros msg. apply agree_then; [apply agree_only; intros x y -> ->; reflexivity|]. intros _.
    apply agree_then; [eapply signing_agree; eassumption|]. intros sig. apply agree_eq.
Qed.

(** What a call of l8w8jwt_encode that comes to [o] hands out (as in C76). *)
Definition issues (call : res enc_res) (o : product) : Prop :=
  match o with
  | Made t => exists id w', call = Ret (EncRes 0 (Some (Ptr (Some id) (t ++ [x00]))) (Some (N.of_nat (length t)))) w'
  | Fails rc => rc <> 0%Z /\ exists w', call = Ret (EncRes rc None None) w'
  | Breaks u => call = Undef u
  end.
(** Two builds encode alike: same token, same code - except for the sign of char and texts too long for size_t. *)
Theorem C99_same_encoding :
  forall p p' e ep w w',
    (15 <= p_size_bits p)%N -> (15 <= p_size_bits p')%N -> wf w -> allocs w -> grows w -> wf w' -> allocs w' -> grows w' ->
    enc_given ep -> eddsa_alike p p' (ep_alg ep) (ep_secret_key ep) (ep_secret_key_length ep) ->
    let call := l8w8jwt_encode p e (Some ep) w in
    let call' := l8w8jwt_encode p' e (Some ep) w' in
    (exists o, issues call o /\ issues call' o)
    \/ (p_char_signed p = true /\ p_char_signed p' = false /\ call = Undef BadIndex)
    \/ (p_char_signed p = false /\ p_char_signed p' = true /\ call' = Undef BadIndex)
    \/ ((p_size_bits p < p_size_bits p')%N /\ exists rc w1, (rc = 310 \/ rc = 425)%Z /\ call = Ret (EncRes rc None None) w1)
    \/ ((p_size_bits p' < p_size_bits p)%N /\ exists rc w1, (rc = 310 \/ rc = 425)%Z /\ call' = Ret (EncRes rc None None) w1).
Proof.
  intros p p' e ep w w' Hp Hp' W1 W2 W3 W1' W2' W3' Hg A call call'.
  destruct (C76_encode_complete p e ep w Hp W1 W2 W3 Hg) as (o & D1 & _ & D2).
  destruct (C76_encode_complete p' e ep w' Hp' W1' W2' W3' Hg) as (o' & E1 & _ & E2).
  assert (T : forall c x, too_long x -> issues c x -> exists rc w1, (rc = 310 \/ rc = 425)%Z /\ c = Ret (EncRes rc None None) w1).
  { intros c x [-> | ->] (_ & w1 & ->); eauto. }
  destruct (encoding_agree p p' e ep A _ _ D1 E1) as [->|[(S1 & S2 & ->)|[(S1 & S2 & ->)|[(S1 & S2)|(S1 & S2)]]]].
  - left. exists o. split; [exact D2|exact E2].
  - right. left. auto.
  - right. right. left. auto.
  - do 3 right. left. split; [exact S1|]. exact (T _ _ S2 D2).
  - do 4 right. split; [exact S1|]. exact (T _ _ S2 E2).
Qed.
Print Assumptions C99_same_encoding.

(** ** Where builds differ *)
(** Without these provisos the builds do differ. With a key for EdDSA that is not ASCII both sign, with different keys;
    a build without EdDSA refuses; what is undefined where char is signed is a token, or a verdict, where it is not. *)
Definition unsigned_pe : platform := Platform 64 false false true true.
Definition no_ed_pe : platform := Platform 64 true false false true.
Definition narrow_pe : platform := Platform 32 false true true false.
Definition odd_key : bytes := repeat xe9 128.
Theorem C99_builds_refuted :
  (exists p p' e ep t t' id id' w1 w1', enc_given ep /\ p_eddsa p = p_eddsa p' /\ p_size_bits p = p_size_bits p' /\ t <> t'
     /\ l8w8jwt_encode p e (Some ep) we = Ret (EncRes 0 (Some (Ptr (Some id) (t ++ [x00]))) (Some (N.of_nat (length t)))) w1
     /\ l8w8jwt_encode p' e (Some ep) we = Ret (EncRes 0 (Some (Ptr (Some id') (t' ++ [x00]))) (Some (N.of_nat (length t')))) w1')
  /\ (exists p p' e ep r w1 w1', enc_given ep /\ p_char_signed p = p_char_signed p'
     /\ l8w8jwt_encode p e (Some ep) we = Ret r w1 /\ er_rc r = 0%Z /\ l8w8jwt_encode p' e (Some ep) we = Ret (EncRes 800 None None) w1')
  /\ (exists p p' e ep r w1, enc_given ep /\ ep_alg ep <> 13%Z
     /\ l8w8jwt_encode p e (Some ep) we = Undef BadIndex /\ l8w8jwt_encode p' e (Some ep) we = Ret r w1 /\ er_rc r = 0%Z)
  /\ (exists p p' e dp j r w1, c_text p dp j /\ c_text p' dp j /\ dp_alg dp <> 13%Z
     /\ l8w8jwt_decode p e (Some dp) true true true we = Undef BadCtype
     /\ l8w8jwt_decode p' e (Some dp) true true true we = Ret r w1 /\ dr_rc r = 0%Z).
Proof.
  assert (Nl : string_given Null 0) by (left; reflexivity). split; [|split; [|split]].
  - assert (G : enc_given (ep_with Null 0 (Ptr None odd_key) 128 13)).
    { eapply ep_with_given; [exact Nl|]. exists None, odd_key. split; [reflexivity|]. split; [vm_compute; discriminate|reflexivity]. }
    exists pe, unsigned_pe, toy, (ep_with Null 0 (Ptr None odd_key) 128 13).
    let a := eval vm_compute in (l8w8jwt_encode pe toy (Some (ep_with Null 0 (Ptr None odd_key) 128 13)) we) in
    let b := eval vm_compute in (l8w8jwt_encode unsigned_pe toy (Some (ep_with Null 0 (Ptr None odd_key) 128 13)) we) in
    match a with Ret (EncRes _ (Some (Ptr (Some ?i) ?t)) _) ?w => match b with Ret (EncRes _ (Some (Ptr (Some ?i') ?t')) _) ?w' =>
      let u := eval vm_compute in (removelast t) in let u' := eval vm_compute in (removelast t') in
      exists u, u', i, i', w, w' end end.
    split; [exact G|]. split; [reflexivity|]. split; [reflexivity|]. split; [discriminate|]. split; vm_compute; reflexivity.
  - exists pe, no_ed_pe, toy, (ep_with Null 0 (Ptr None (repeat x41 128)) 128 13).
    let a := eval vm_compute in (l8w8jwt_encode pe toy (Some (ep_with Null 0 (Ptr None (repeat x41 128)) 128 13)) we) in
    let b := eval vm_compute in (l8w8jwt_encode no_ed_pe toy (Some (ep_with Null 0 (Ptr None (repeat x41 128)) 128 13)) we) in
    match a with Ret ?r ?w => match b with Ret _ ?w' => exists r, w, w' end end.
    split; [eapply ep_with_given; [exact Nl|]; apply key_repeat; lia|]. split; [reflexivity|]. split; [vm_compute; reflexivity|]. split; [reflexivity|]. vm_compute. reflexivity.
  - exists pe, unsigned_pe, toy, (ep_with (Ptr None [xc3; xa9; x00]) 2 (zstr "secret") 6 0).
    let a := eval vm_compute in (l8w8jwt_encode unsigned_pe toy (Some (ep_with (Ptr None [xc3; xa9; x00]) 2 (zstr "secret") 6 0)) we) in
    match a with Ret ?r ?w => exists r, w end.
    split; [eapply ep_with_given; [right; exists [xc3; xa9]; cbn; split; [lia|reflexivity]|apply key_zstr; reflexivity]|].
    split; [discriminate|]. split; [vm_compute; reflexivity|]. split; [vm_compute; reflexivity|]. reflexivity.
  - exists pe, unsigned_pe, toy, typ_params, typ_text.
    let a := eval vm_compute in (l8w8jwt_decode unsigned_pe toy (Some typ_params) true true true we) in
    match a with Ret ?r ?w => exists r, w end.
    assert (T : forall q, p_size_bits q = 64%N -> c_text q typ_params typ_text).
    { intros q Eq. split; [exists None, []; reflexivity|]. split; [apply no_nul_b; vm_compute; reflexivity|]. split; [reflexivity|]. unfold size_mod. rewrite Eq. vm_compute. reflexivity. }
    split; [apply T; reflexivity|]. split; [apply T; reflexivity|]. split; [discriminate|]. split; [vm_compute; reflexivity|]. split; [vm_compute; reflexivity|]. reflexivity.
Qed.
Print Assumptions C99_builds_refuted.

(** Two builds that have nothing in common meet the provisos; both say that a token is valid, that another is not, and
    issue the same token. *)
Example C99_example :
  sample_ok (toy_at 999) (sample_params me_text 0 (zstr "me") true) me_text
  /\ (32 <= p_size_bits narrow_pe)%N /\ p_char_signed pe <> p_char_signed narrow_pe /\ p_size_bits pe <> p_size_bits narrow_pe
  /\ (forall alg q n, alg <> 13%Z -> eddsa_alike pe narrow_pe alg q n)
  /\ eddsa_alike pe narrow_pe 13 (zstr "secret") 6
  /\ enc_given ep_sample
  /\ (forall q, In q [pe; narrow_pe] ->
       match l8w8jwt_decode q (toy_at 999) (Some (sample_params me_text 0 (zstr "me") true)) true true true we with
       | Ret r _ => dr_rc r = 0%Z /\ dr_valid r = Some 0%N | Undef _ => False end
       /\ match l8w8jwt_decode q (toy_at 1001) (Some (sample_params me_text 0 (zstr "me") true)) true true true we with
          | Ret r _ => dr_rc r = 0%Z /\ dr_valid r = Some 16%N | Undef _ => False end
       /\ match l8w8jwt_encode q toy (Some ep_sample) we with
          | Ret r _ => er_rc r = 0%Z /\ er_len r = Some 214%N | Undef _ => False end).
Proof.
  split; [sampled|]. split; [discriminate|]. split; [discriminate|]. split; [discriminate|].
  split; [intros alg q n H E; contradiction|]. split.
  { intros _. split; [reflexivity|]. right. intros k K. rewrite (caller_key_fun _ _ _ _ K (key_zstr "secret"%string 6 eq_refl)). repeat constructor. }
  split; [exact (proj1 C76_example)|]. intros q [<-|[<-|[]]]; vm_compute; repeat split.
Qed.
