(** * Properties C31 and C45: the JSON texts in a token and the claims handed out *)
From Verif Require Import Base BaseProofs HeapProofs Util UtilProofs Claim Base64 SpecB64
  Base64EncApi Base64DecProofs Base64Api Jsmn Env Encode Decode SpecJson SpecJwa ClaimProofs UnescapeProofs
  SignProofs PropEncode DecodeProofs DecodeInv PropVerify JsmnProofs ParseProofs PropClaim ReadProofs JsmnJson JsmnSize
  ValidateProofs PropValidate PropLeak LocalProofs EncodeTotal DecodeTotal DecodeOk OverRead.
From Coq Require Import ZifyBool ZifyNat ZifyN Permutation.
Ltac Zify.zify_post_hook ::= Z.div_mod_to_equations.
Local Opaque L8W8JWT_MAX_KEY_SIZE.

(** ** Notions *)
(** A JSON text (RFC 8259 section 2) whose value is an object with the members [ms]. *)
Definition object_text (js : bytes) (ms : list member) : Prop :=
  exists w1 t w2, json_ws w1 /\ json_object ms t /\ json_ws w2 /\ js = w1 ++ t ++ w2.
(** A JSON number without fraction and exponent. *)
Definition integer_text (v : bytes) : Prop :=
  exists sg i, In sg [[]; lit "-"] /\ json_int i /\ v = sg ++ i.
(** checknum tells integers (1) and other numbers (2). *)
Definition checknum_right (e : env) : Prop := forall v, json_number v ->
  (integer_text v -> e_checknum e v = 1%Z) /\ (~ integer_text v -> e_checknum e v = 2%Z).
(** The claim type of a JSON value (the numbers of claim.h:41-76). *)
Definition value_type (m : member) (ty : Z) : Prop :=
  match m_kind m with
  | KString => ty = 0%Z
  | KNumber => (integer_text (m_value m) /\ ty = 1%Z)
               \/ (~ integer_text (m_value m) /\ ty = 2%Z)
  | KTrue | KFalse => ty = 3%Z
  | KNull => ty = 4%Z
  | KArray => ty = 5%Z
  | KObject => ty = 6%Z
  end.
(** The claim [c] represents the member [m]: its key is what the key's text denotes, its value what
    the string denotes, or the text of the value if that is not a string, and its type fits.
    [body]: what the text between the quotes of a string denotes. *)
Definition represents (body : bytes -> bytes -> Prop) (c : claim) (m : member) : Prop :=
  exists k v, decoded c k v /\ body (m_key m) k
  /\ match m_kind m with KString => exists t, m_value m = quoted t /\ body t v | _ => v = m_value m end
  /\ value_type m (c_type c).

(** Strings as the decoder understands them: as in JSON, except that \u escapes stand for
    themselves. *)
Inductive kept_body : bytes -> bytes -> Prop :=
| KB_nil : kept_body [] []
| KB_char c t d : (32 <= b2n c)%N -> c <> x22 -> c <> x5c -> kept_body t d -> kept_body (c :: t) (c :: d)
| KB_escape e c t d : In (e, c) simple_escapes -> kept_body t d -> kept_body (x5c :: e :: t) (c :: d)
| KB_unicode t d : kept_body t d -> kept_body (x5c :: x75 :: t) (x5c :: x75 :: d).
(** Strings without \u escapes. *)
Inductive simple_body : bytes -> Prop :=
| SB_nil : simple_body []
| SB_char c t : (32 <= b2n c)%N -> c <> x22 -> c <> x5c -> simple_body t -> simple_body (c :: t)
| SB_escape e c t : In (e, c) simple_escapes -> simple_body t -> simple_body (x5c :: e :: t).
Definition simple_member (m : member) : Prop :=
  simple_body (m_key m) /\ match m_kind m with KString => exists t, m_value m = quoted t /\ simple_body t | _ => True end.

Lemma hex_char h v : hexdig h = Some v -> (32 <= b2n h)%N /\ h <> x22 /\ h <> x5c.
Proof. destruct h; intros H; vm_compute in H; try discriminate H; (split; [vm_compute; discriminate|split; discriminate]). Qed.
Lemma code_unit_chars a b c d u : code_unit a b c d = Some u ->
  Forall (fun h => (32 <= b2n h)%N /\ h <> x22 /\ h <> x5c) [a; b; c; d].
Proof.
  unfold code_unit. destruct (hexdig a) eqn:A; [|discriminate]. destruct (hexdig b) eqn:B; [|discriminate].
  destruct (hexdig c) eqn:C; [|discriminate]. destruct (hexdig d) eqn:D; [|discriminate].
  intros _. repeat constructor; eauto using hex_char; try (eapply hex_char; eassumption).
Qed.
Lemma kept_chars l t d : Forall (fun h => (32 <= b2n h)%N /\ h <> x22 /\ h <> x5c) l -> kept_body t d -> kept_body (l ++ t) (l ++ d).
Proof. induction 1 as [|c l (H1 & H2 & H3) _ IH]; intros H; [exact H|]. cbn [app]. constructor; auto. Qed.
Lemma json_kept t d : json_body t d -> exists d', kept_body t d'.
Proof.
  induction 1 as [|c t d Hc H1 H2 _ (d' & IH)|e c t d He _ (d' & IH)|h1 h2 h3 h4 u t d Hu _ _ _ (d' & IH)
                 |h1 h2 h3 h4 l1 l2 l3 l4 u v t d Hu _ Hv _ _ (d' & IH)].
  - eexists. constructor.
  - eexists. constructor; eauto.
  - eexists. eapply KB_escape; eauto.
  - eexists. apply KB_unicode. apply (kept_chars [h1; h2; h3; h4]); [eapply code_unit_chars; eauto|exact IH].
  - eexists. apply KB_unicode. apply (kept_chars [h1; h2; h3; h4]); [eapply code_unit_chars; eauto|].
    apply KB_unicode. apply (kept_chars [l1; l2; l3; l4]); [eapply code_unit_chars; eauto|exact IH].
Qed.
Lemma escape_char e c : In (e, c) simple_escapes -> unescape_char e = Some c.
Proof. cbn. intros H. decompose [or] H; try contradiction; match goal with X : (_, _) = (_, _) |- _ => inversion X; reflexivity end. Qed.
Lemma kept_unesc t d : kept_body t d -> unesc t = d.
Proof.
  induction 1 as [|c t d H1 H2 H3 _ IH|e c t d H _ IH|t d _ IH]; [reflexivity| | |].
  - cbn [unesc]. destruct (Byte.eqb c x5c) eqn:E; [apply byte_eqb_eq in E; congruence|]. congruence.
  - cbn [unesc]. change (Byte.eqb x5c x5c) with true. cbv iota. rewrite (escape_char _ _ H), IH. reflexivity.
  - change (unesc (x5c :: x75 :: t)) with (x5c :: x75 :: unesc t). rewrite IH. reflexivity.
Qed.
Lemma json_body_kept t d : json_body t d -> kept_body t (unesc t).
Proof. intros H. apply json_kept in H as (d' & H). rewrite (kept_unesc _ _ H). exact H. Qed.
Lemma simple_unesc t : simple_body t -> json_body t (unesc t).
Proof.
  induction 1 as [|c t H1 H2 H3 _ IH|e c t H _ IH]; [constructor| |].
  - cbn [unesc]. destruct (Byte.eqb c x5c) eqn:E; [apply byte_eqb_eq in E; congruence|]. constructor; auto.
  - cbn [unesc]. change (Byte.eqb x5c x5c) with true. cbv iota. rewrite (escape_char _ _ H). eapply JB_escape; eauto.
Qed.

Lemma ncpy_plain s : no_nul (ncpy s) -> ncpy s = s.
Proof.
  induction s as [|c s IH]; [reflexivity|]. cbn [ncpy]. destruct (is_nul c) eqn:E.
  - intros H. exfalso. apply H. left. reflexivity.
  - intros H. apply no_nul_cons in H as [_ H]. rewrite IH by exact H. reflexivity.
Qed.

(** The header and payload texts of a token as decode cuts them out: of three parts, the first two;
    if no algorithm is given, also of two parts. *)
Inductive token_parts (p : platform) (dp : dec_params) : bytes -> bytes -> Prop :=
| TP_three jwt h pl rest : text dp jwt -> three_parts jwt h pl rest -> token_parts p dp h pl
| TP_two jwt h s rest n : text dp jwt -> dp_alg dp = (-1)%Z -> jwt = h ++ lit "." ++ s ++ x00 :: rest ->
    no_dot h -> no_nul h -> no_dot s -> no_nul s ->
    n = to_size p (Z.of_N (dp_jwt_length dp) - Z.of_nat (length h + 1)) ->
    token_parts p dp h (firstn (N.to_nat n) (s ++ x00 :: rest)).

Lemma segments_parts p dp sg : segments_ok p dp sg ->
  exists h pl, token_parts p dp h pl /\ seg_of h (sg_header sg) /\ seg_of pl (sg_payload sg).
Proof.
  intros (b & jwt & Ej & [(h & pl & rest & n & H3 & _ & _ & Sh & Sp & _)|(Ea & h & s & rest & n & E & N1 & N2 & N3 & N4 & En & _ & Sh & Sp & _)]).
  - exists h, pl. split; [apply (TP_three _ _ jwt h pl rest (ex_intro _ b Ej) H3)|auto].
  - exists h, (firstn (N.to_nat n) (s ++ x00 :: rest)). split; [|auto]. eapply TP_two; eauto. exists b. exact Ej.
Qed.

(** ** C31 *)
(** The part of a JSON text decode can cope with: at most 62 values and member names at all depths
    together, or a last member that is not an array or object. *)
Definition fits (js : bytes) (ms : list member) : Prop :=
  (forall n, json_size js n -> (n <= 62)%N) \/ forall ms' m, ms = ms' ++ [m] -> m_kind m <> KArray /\ m_kind m <> KObject.

Lemma nums_known e ms : checknum_right e -> Forall member_ok ms -> Forall (num_known e) ms.
Proof.
  intros Hc Hok. eapply Forall_impl; [|exact Hok]. intros m [_ Hv] Hk. rewrite Hk in Hv. inversion Hv; subst.
  destruct (Hc (m_value m)) as [C1 C2]; [assumption|].
  destruct (Z.eq_dec (e_checknum e (m_value m)) 1) as [E|E]; [auto|right]. apply C2. intros C. apply E, C1, C.
Qed.
Lemma object_reads e js ms post : uses_jsmn e -> checknum_right e -> object_text js ms -> fits js ms ->
  reads e (js ++ post) (N.of_nat (length js)) (map (entry_of e) ms)
  /\ Forall member_ok ms.
Proof.
  intros Hj Hc (w1 & t & w2 & H1 & Ho & H2 & ->) Hf. split; [|eapply object_ok; eauto].
  apply reads_object; auto.
  - apply nums_known; [exact Hc|eapply object_ok; eauto].
  - destruct Hf as [Hf|Hf]; [left|right].
    { destruct (object_sized _ _ Ho) as (n & Hn).
      assert (Hs : json_size (w1 ++ t ++ w2) n) by (exists w1, t, w2; auto).
      unfold tokens_of. rewrite (size_tokens _ _ Hs). specialize (Hf n Hs). lia. }
    intros ms' m E. destruct (Hf ms' m E) as [F1 F2]. destruct (m_kind m); congruence || reflexivity.
Qed.
(** Whatever its size, if the text of an object is read at all, its members are. *)
Lemma object_read e js ms post es : uses_jsmn e -> checknum_right e -> object_text js ms ->
  reads e (js ++ post) (N.of_nat (length js)) es -> es = map (entry_of e) ms /\ Forall member_ok ms.
Proof.
  intros Hj Hc Ho R. assert (M : Forall member_ok ms) by (destruct Ho as (w1 & t & w2 & _ & Ho & _); eapply object_ok; eauto).
  split; [|exact M]. destruct ms as [|m ms _] using rev_ind.
  { eapply reads_fun; [exact R|]. apply (object_reads e js [] post Hj Hc Ho). right. intros [|] ? C; discriminate C. }
  destruct (container (m_kind m)) eqn:K.
  - destruct Ho as (w1 & t & w2 & H1 & Ho & H2 & ->).
    destruct (object_ends_container e w1 ms m t w2 post H1 Ho H2 (nums_known _ _ Hc M) K) as (vend & t0 & toks & _ & Hr & P & T0 & Rd).
    unfold reads in R. rewrite Nat2N.id, firstn_app_exact in R. unfold tokens_of in *.
    destruct R as [(C & _)|(_ & t0' & toks' & P' & _ & Rd')]; [lia|].
    rewrite P in P'. injection P' as <- <-. rewrite Rd in Rd'. destruct (_ || _); [discriminate Rd'|]. injection Rd' as <-. reflexivity.
  - eapply reads_fun; [exact R|]. apply (object_reads e js _ post Hj Hc Ho). right. intros ms' m' E.
    apply app_inj_tail in E as [_ <-]. destruct (m_kind m); discriminate K || (split; discriminate).
Qed.

Lemma holds_represents e c m : checknum_right e -> member_ok m -> holds c (entry_of e m) ->
  no_nul (snd (kv_of (entry_of e m))) ->
  represents kept_body c m /\ (simple_member m -> represents json_body c m).
Proof.
  intros Hc [(kd & Hk) Hv] [Hd Hty] Hn. unfold entry_of in *. cbn [holds kv_of snd] in *.
  assert (T : value_type m (c_type c)).
  { rewrite Hty. unfold value_type, mtype. destruct (m_kind m) eqn:Ek; try reflexivity.
    inversion Hv; subst. destruct (Hc (m_value m)) as [C1 C2]; [assumption|].
    destruct (Z.eqb_spec (e_checknum e (m_value m)) 1) as [E|E].
    - left. split; [|reflexivity]. destruct H as [sg i f ex S1 S2 S3 S4].
      destruct S3 as [|s Hs]; [destruct S4 as [|c0 sg' s H1 H2 H3]|].
      + exists sg, i. split; [exact S1|]. split; [exact S2|]. rewrite !app_nil_r. reflexivity.
      + exfalso. assert (E2 : e_checknum e (sg ++ i ++ [] ++ c0 :: sg' ++ s) = 2%Z); [|congruence].
        apply C2. intros (sg2 & i2 & T1 & T2 & T3).
        assert (Forall (fun x => digit x \/ x = x2d) (sg2 ++ i2)).
        { apply Forall_app. split.
          - destruct T1 as [<-|[<-|[]]]; [constructor|]. constructor; [right; reflexivity|constructor].
          - destruct T2 as [|a b D1 _ D2]; [constructor; [left; vm_compute; auto|constructor]|]. constructor; [auto|].
            eapply Forall_impl; [|exact D2]. auto. }
        rewrite <- T3 in H. rewrite !Forall_app in H. destruct H as (_ & _ & _ & H). inversion H as [|? ? Hx _]; subst.
        destruct H1 as [<-|[<-|[]]]; destruct Hx as [Hx|Hx]; try discriminate; vm_compute in Hx; decompose [or] Hx; try discriminate; contradiction.
      + exfalso. assert (E2 : e_checknum e (sg ++ i ++ (x2e :: s) ++ ex) = 2%Z); [|congruence].
        apply C2. intros (sg2 & i2 & T1 & T2 & T3).
        assert (Forall (fun x => digit x \/ x = x2d) (sg2 ++ i2)).
        { apply Forall_app. split.
          - destruct T1 as [<-|[<-|[]]]; [constructor|]. constructor; [right; reflexivity|constructor].
          - destruct T2 as [|a b D1 _ D2]; [constructor; [left; vm_compute; auto|constructor]|]. constructor; [auto|].
            eapply Forall_impl; [|exact D2]. auto. }
        rewrite <- T3 in H. rewrite !Forall_app in H. destruct H as (_ & _ & H & _). inversion H as [|? ? Hx _]; subst.
        destruct Hx as [Hx|Hx]; [vm_compute in Hx; decompose [or] Hx; try discriminate; contradiction|discriminate].
    - right. split; [|reflexivity]. intros C. apply E. apply C1. exact C. }
  assert (V : match m_kind m with
    | KString => exists t d, m_value m = quoted t /\ json_body t d /\ vtext (m_kind m) (m_value m) = t /\ mtype e m = L8W8JWT_CLAIM_TYPE_STRING
    | _ => claim_value_of (mtype e m) (vtext (m_kind m) (m_value m)) = m_value m end).
  { clear T Hd Hty. revert Hn. unfold claim_value_of. unfold mtype. destruct (m_kind m) eqn:Ek.
    - intros _. inversion Hv as [t d B Q Ev| | | | | | | |]. exists t, d. rewrite vtext_quoted. auto.
    - destruct (e_checknum e (m_value m) =? 1)%Z; cbn [Z.eqb]; apply ncpy_plain.
    - cbn [Z.eqb]; apply ncpy_plain.
    - cbn [Z.eqb]; apply ncpy_plain.
    - cbn [Z.eqb]; apply ncpy_plain.
    - cbn [Z.eqb]; apply ncpy_plain.
    - cbn [Z.eqb]; apply ncpy_plain. }
  split.
  - exists (unesc (m_key m)), (claim_value_of (mtype e m) (vtext (m_kind m) (m_value m))).
    split; [exact Hd|]. split; [eapply json_body_kept; eauto|]. split; [|exact T].
    destruct (m_kind m); try exact V. destruct V as (t & d & V1 & V2 & V3 & V4). exists t. split; [exact V1|].
    rewrite V3, V4. unfold claim_value_of. cbn [Z.eqb]. eapply json_body_kept; eauto.
  - intros [S1 S2]. exists (unesc (m_key m)), (claim_value_of (mtype e m) (vtext (m_kind m) (m_value m))).
    split; [exact Hd|]. split; [apply simple_unesc; exact S1|]. split; [|exact T].
    destruct (m_kind m); try exact V. destruct V as (t & d & V1 & V2 & V3 & V4). exists t. split; [exact V1|].
    destruct S2 as (t' & S2 & S3). assert (t' = t).
    { rewrite S2 in V1. unfold quoted in V1. inversion V1 as [E]. apply app_inj_tail in E as [E _]. exact E. } subst t'.
    rewrite V3, V4. unfold claim_value_of. cbn [Z.eqb]. apply simple_unesc; exact S3.
Qed.

(** If pushing to the claims buffer does not fail, and header and payload are JSON objects, a successful
    call hands out claims that represent the members of the header followed by those of the payload, in
    order, except that \u escapes stay as they are; without \u escapes, exactly. (For texts that
    do not [fit] the call may be undefined: C31_members_refuted.)
    Missing: \u escapes (refuted), and silently dropped claims when chillbuff_push_back fails (C32). *)
Theorem C31_members_partial :
  forall p e dp w r w', wf w -> appended w w' -> uses_jsmn e -> (32 <= p_size_bits p)%N -> checknum_right e ->
  l8w8jwt_decode p e (Some dp) true true true w = Ret r w' -> dr_rc r = L8W8JWT_SUCCESS ->
  exists h pl hj pj ht pt, token_parts p dp h pl /\ url_decodes h hj ht /\ url_decodes pl pj pt
  /\ forall hms pms, object_text hj hms -> object_text pj pms ->
     exists b cs, dr_claims r = Some (CArr b cs, N.of_nat (length cs))
       /\ Forall2 (represents kept_body) cs (hms ++ pms)
       /\ (Forall simple_member (hms ++ pms) -> Forall2 (represents json_body) cs (hms ++ pms)).
Proof.
  intros p e dp w r w' Hwf Hg Hj Hp Hc H Hrc.
  as_growing (local_decode p e (Some dp) true true true) H Hg.
  destruct (decode_reads _ _ _ _ _ _ _ _ Hwf Hj Hp H Hrc)
    as (sg & hb & hm & pb & pm & eh & ep & id & cs & sub & res1 & v' & Hs & P1 & R1 & P2 & R2 & _ & Hsub & Hh & T & _ & _ & _ & Hcl).
  specialize (Hsub Hg). subst sub.
  destruct (segments_parts _ _ _ Hs) as (h & pl & Hparts & (id1 & hj & ht & D1 & E1) & (id2 & pj & pt & D2 & E2)).
  rewrite E1 in P1, R1. rewrite E2 in P2, R2. cbn [s_ptr s_len] in *.
  assert (hm = hj ++ ht) by congruence. assert (pm = pj ++ pt) by congruence. subst hm pm.
  exists h, pl, hj, pj, ht, pt. split; [exact Hparts|]. split; [apply b64_decodes_url; exact D1|].
  split; [apply b64_decodes_url; exact D2|]. intros hms pms O1 O2.
  destruct (object_read e hj hms ht _ Hj Hc O1 R1) as [X1 K1]. destruct (object_read e pj pms pt _ Hj Hc O2 R2) as [X2 K2].
  rewrite X1, X2, <- map_app in *.
  exists (Some id), cs. split; [exact Hcl|].
  assert (K : Forall member_ok (hms ++ pms)) by (apply Forall_app; auto).
  unfold told in T. clear - Hc K Hh T. revert K Hh T. generalize (hms ++ pms). intros ms. revert cs.
  induction ms as [|m ms IH]; intros cs K Hh T; cbn [map] in *.
  - inversion Hh; subst. split; [constructor|intros _; constructor].
  - destruct cs as [|c cs']; [inversion Hh|]. inversion Hh as [|? ? ? ? Hx Hh' ]; subst.  inversion T as [|? ? ? ? (_ & _ & Hn) T' ]; subst.
    inversion K as [|? ? Km K']; subst. destruct (IH cs' K' Hh' T') as [I1 I2].
    destruct (holds_represents e c m Hc Km Hx Hn) as [J1 J2].
    split; [constructor; auto|]. intros S. inversion S; subst. constructor; auto.
Qed.
Print Assumptions C31_members_partial.

(** *** Samples *)
(** The toy world with a checknum that only takes digits and signs for integers. *)
Definition num_char (c : byte) : bool := Byte.eqb c x2d || ((48 <=? b2n c)%N && (b2n c <=? 57)%N).
Definition toy_num : env := {|
  e_seed_ok := true; e_hmac := e_hmac toy; e_md := e_md toy; e_parse_key := e_parse_key toy;
  e_parse_public_key := e_parse_public_key toy; e_x509_parse := e_x509_parse toy;
  e_can_do := e_can_do toy; e_bitlen := e_bitlen toy; e_pk_sign := e_pk_sign toy;
  e_pk_verify := e_pk_verify toy; e_pk_rsa := e_pk_rsa toy; e_rsa_len := e_rsa_len toy;
  e_pss_sign := e_pss_sign toy; e_pss_verify := e_pss_verify toy; e_pk_ec := e_pk_ec toy;
  e_ecdsa_from_keypair := e_ecdsa_from_keypair toy; e_group := e_group toy;
  e_ecdsa_sign := e_ecdsa_sign toy; e_ecdsa_verify := e_ecdsa_verify toy;
  e_ed_sign := e_ed_sign toy; e_ed_verify := e_ed_verify toy; e_time := e_time toy;
  e_checknum := fun v => if forallb num_char v then 1%Z else 2%Z; e_jsmn := e_jsmn toy; e_tok_junk := e_tok_junk toy |}.
Lemma digit_num c : digit c -> num_char c = true.
Proof. cbn. intros H. decompose [or] H; subst; try contradiction; reflexivity. Qed.
Lemma integer_chars v : integer_text v -> forallb num_char v = true.
Proof.
  intros (sg & i & S & I & ->). rewrite forallb_app. apply andb_true_intro. split.
  - destruct S as [<-|[<-|[]]]; reflexivity.
  - destruct I as [|c s D _ Ds]; [reflexivity|]. cbn [forallb]. rewrite (digit_num c D). cbn [andb].
    apply forallb_forall. intros x Hx. apply digit_num. revert x Hx. apply Forall_forall. exact Ds.
Qed.
Lemma number_chars v : json_number v -> forallb num_char v = true -> integer_text v.
Proof.
  intros [sg i f ex S I F X] H. rewrite !forallb_app in H. apply andb_true_iff in H as [_ H].
  apply andb_true_iff in H as [_ H]. apply andb_true_iff in H as [H1 H2].
  destruct F as [|s _]; [|discriminate H1]. destruct X as [|c sg' s C _ _].
  - exists sg, i. rewrite !app_nil_r. auto.
  - destruct C as [<-|[<-|[]]]; discriminate H2.
Qed.
Lemma toy_num_right : checknum_right toy_num.
Proof.
  intros v Hv. cbn [e_checknum toy_num]. split.
  - intros H. rewrite (integer_chars v H). reflexivity.
  - intros H. destruct (forallb num_char v) eqn:E; [|reflexivity]. exfalso. apply H. apply number_chars; auto.
Qed.

Lemma text_b64_decodes s : s <> [] -> exists tail, b64_decodes (rfc4648_unpadded true s) s tail.
Proof.
  intros Hs. destruct (dec_all_text true s Hs) as (Hb & k & Hd). rewrite syms_text in Hb, Hd.
  assert (E : syms true (rfc4648_unpadded true s) = rfc4648_unpadded true s) by apply (syms_text true s).
  eexists. unfold b64_decodes. cbv zeta. rewrite E. split.
  - intros X. rewrite X in Hd. vm_compute in Hd. inversion Hd. congruence.
  - split; [exact Hb|]. exists (repeat x00 k). split; [exact Hd|reflexivity].
Qed.
Lemma text_decodes s : s <> [] -> exists tail, url_decodes (rfc4648_unpadded true s) s tail.
Proof. intros Hs. destruct (text_b64_decodes s Hs) as (tail & H). exists tail. apply b64_decodes_url. exact H. Qed.

(** Reading concrete JSON texts. *)
Ltac js_ws := repeat constructor.
Ltac js_body :=
  repeat first [apply JB_nil | apply JB_char; [vm_compute; discriminate|discriminate|discriminate|]
               |eapply JB_escape; [vm_compute; intuition reflexivity|]].
Definition rich_payload : string := (" { ""n\n"" : [1,{""x"":null}], ""b"":-1.5e3,""c"":""\""x\\"" } ")%string.
Definition rich_members : list member :=
  [Member (lit "n\n") KArray (lit "[1,{""x"":null}]"); Member (lit "b") KNumber (lit "-1.5e3");
   Member (lit "c") KString (lit """\""x\\""")].
Definition plain_members : list member :=
  [Member (lit "alg") KString (quoted (lit "HS256")); Member (lit "typ") KString (quoted (lit "JWT"))].
Lemma plain_object : object_text (lit plain_header) plain_members.
Proof.
  exists [], (lit plain_header), []. split; [constructor|]. split; [|split; [constructor|reflexivity]].
  change (lit plain_header) with (lit "{" ++ ([] ++ quoted (lit "alg") ++ [] ++ lit ":" ++ [] ++ quoted (lit "HS256") ++ []
    ++ lit "," ++ ([] ++ quoted (lit "typ") ++ [] ++ lit ":" ++ [] ++ quoted (lit "JWT") ++ [])) ++ lit "}").
  apply JO_members. eapply JM_cons; [js_ws|js_body|js_ws|js_ws|eapply JV_string; js_body|js_ws|].
  eapply JM_one; [js_ws|js_body|js_ws|js_ws|eapply JV_string; js_body|js_ws].
Qed.
Lemma rich_object : object_text (lit rich_payload) rich_members.
Proof.
  set (a1 := [] ++ quoted (lit "x") ++ [] ++ lit ":" ++ [] ++ lit "null" ++ []).
  set (a := lit "[" ++ ([] ++ lit "1" ++ [] ++ lit "," ++ ([] ++ (lit "{" ++ a1 ++ lit "}") ++ [])) ++ lit "]").
  set (t := lit "{" ++ (lit " " ++ quoted (lit "n\n") ++ lit " " ++ lit ":" ++ lit " " ++ a ++ []
    ++ lit "," ++ (lit " " ++ quoted (lit "b") ++ [] ++ lit ":" ++ [] ++ lit "-1.5e3" ++ []
    ++ lit "," ++ ([] ++ quoted (lit "c") ++ [] ++ lit ":" ++ [] ++ quoted (lit "\""x\\") ++ lit " "))) ++ lit "}").
  exists (lit " "), t, (lit " "). split; [js_ws; auto|]. split; [|split; [js_ws; auto|reflexivity]].
  unfold t. apply JO_members. eapply (JM_cons (lit " ") (lit "n\n")); [js_ws; auto|js_body|js_ws; auto|js_ws; auto|apply (JV_array ([] ++ lit "1" ++ [] ++ lit "," ++ ([] ++ (lit "{" ++ a1 ++ lit "}") ++ [])))|js_ws|].
  - eapply (JEl_cons [] KNumber); [js_ws|apply JV_number; apply (JN [] (lit "1") [] [])|js_ws|].
    + left. reflexivity.
    + apply JI_pos; [vm_compute; auto|discriminate|constructor].
    + constructor.
    + constructor.
    + eapply (JEl_one [] KObject); [js_ws|apply JV_object with (ms := [Member (lit "x") KNull (lit "null")])|js_ws].
      unfold a1. eapply JM_one; [js_ws|js_body|js_ws|js_ws|apply JV_null|js_ws].
  - eapply JM_cons; [js_ws; auto|js_body|js_ws|js_ws|apply JV_number; apply (JN (lit "-") (lit "1") (lit ".5") (lit "e3"))|js_ws|].
    + right. left. reflexivity.
    + apply JI_pos; [vm_compute; auto|discriminate|constructor].
    + apply JF_some. split; [discriminate|constructor; [vm_compute; auto 12|constructor]].
    + apply (JE_some x65 []); [left; reflexivity|left; reflexivity|].
      split; [discriminate|constructor; [vm_compute; auto 12|constructor]].
    + eapply (JM_one [] (lit "c")); [js_ws|js_body|js_ws|js_ws|eapply JV_string; js_body|js_ws; auto].
Qed.

(** A text encoded in base64url contains neither dots nor NULs. *)
Lemma acc_no_dot l : all_acc true l -> no_dot l /\ no_nul l.
Proof. intros H. split; intros I; apply H in I; vm_compute in I; discriminate I. Qed.
Lemma unpadded_clean s : no_dot (rfc4648_unpadded true s) /\ no_nul (rfc4648_unpadded true s).
Proof. apply acc_no_dot, unpadded_acc. Qed.
Lemma signed_parts p h pl alg key klen :
  token_parts p (dp_plain (signed h pl) alg key klen) (rfc4648_unpadded true (lit h)) (rfc4648_unpadded true (lit pl)).
Proof.
  destruct (unpadded_clean (lit h)) as [A1 A2]. destruct (unpadded_clean (lit pl)) as [B1 B2].
  eapply TP_three with (jwt := signed h pl ++ [x00]); [exists None; reflexivity|].
  split; [|auto]. unfold signed. rewrite <- !app_assoc. reflexivity.
Qed.

Definition rich_token : bytes := signed plain_header rich_payload.
(** Non-vacuous: a token whose payload has nesting, white space and escapes meets all hypotheses. *)
Example C31_example :
  let dp := dp_plain rich_token 0 (zstr "secret") 6 in
  wf we /\ grows we /\ uses_jsmn toy_num /\ checknum_right toy_num
  /\ token_parts pe dp (rfc4648_unpadded true (lit plain_header)) (rfc4648_unpadded true (lit rich_payload))
  /\ (exists tail, url_decodes (rfc4648_unpadded true (lit plain_header)) (lit plain_header) tail)
  /\ (exists tail, url_decodes (rfc4648_unpadded true (lit rich_payload)) (lit rich_payload) tail)
  /\ object_text (lit plain_header) plain_members /\ object_text (lit rich_payload) rich_members
  /\ fits (lit plain_header) plain_members /\ fits (lit rich_payload) rich_members
  /\ exists r w', l8w8jwt_decode pe toy_num (Some dp) true true true we = Ret r w' /\ dr_rc r = L8W8JWT_SUCCESS
     /\ handed_out r [(lit "alg", lit "HS256"); (lit "typ", lit "JWT");
          (lit "n" ++ [x0a], lit "[1,{""x"":null}]"); (lit "b", lit "-1.5e3"); (lit "c", lit """x\")].
Proof.
  cbv zeta. split; [apply we_wf|]. split; [intros k; reflexivity|]. split; [intros js cap; reflexivity|].
  split; [apply toy_num_right|]. split; [apply signed_parts|].
  split; [apply text_decodes; discriminate|]. split; [apply text_decodes; discriminate|].
  split; [apply plain_object|]. split; [apply rich_object|].
  split; [left; apply small_size; vm_compute; reflexivity|]. split; [left; apply small_size; vm_compute; reflexivity|].
  do 2 eexists. split; [vm_compute; reflexivity|]. split; [reflexivity|]. told_pairs.
Qed.

Lemma body_A v : json_body (lit "\u0041") v -> v = lit "A".
Proof.
  intros H. inversion H as [| |? ? ? ? He|? ? ? ? u ? ? Hu _ _ Ht|]; subst.
  - congruence.
  - exfalso. cbn in He. decompose [or] He; try congruence; contradiction.
  - vm_compute in Hu. inversion Hu; subst. inversion Ht; subst. reflexivity.
Qed.
Lemma zeros_array n : json_elements (lit (String.concat ","%string (repeat "0"%string (S n)))).
Proof.
  assert (Z : json_value KNumber (lit "0")).
  { apply JV_number. apply (JN [] (lit "0") [] []); [left; reflexivity|constructor|constructor|constructor]. }
  induction n as [|n IH].
  - apply (JEl_one [] KNumber (lit "0") []); [constructor|exact Z|constructor].
  - change (lit (String.concat ","%string (repeat "0"%string (S (S n)))))
      with ([] ++ lit "0" ++ [] ++ lit "," ++ lit (String.concat ","%string (repeat "0"%string (S n)))).
    apply (JEl_cons [] KNumber); [constructor|exact Z|constructor|exact IH].
Qed.
Definition many_members : list member := [Member (lit "a") KArray (lit "[" ++ lit zeros ++ lit "]")].
Definition many_payload : bytes := lit (String.append "{""a"":[" (String.append zeros "]}"))%string.
Lemma many_object : object_text many_payload many_members.
Proof.
  exists [], many_payload, []. split; [constructor|]. split; [|split; [constructor|rewrite app_nil_r; reflexivity]].
  change many_payload with (lit "{" ++ ([] ++ quoted (lit "a") ++ [] ++ lit ":" ++ [] ++ (lit "[" ++ lit zeros ++ lit "]") ++ []) ++ lit "}").
  apply JO_members. eapply JM_one; [constructor|js_body|constructor|constructor|apply JV_array; apply (zeros_array 64)|constructor].
Qed.
Lemma empty_object : object_text (lit "{}") [].
Proof. exists [], (lit "{}"), []. split; [constructor|]. split; [apply (JO_empty []); constructor|split; [constructor|reflexivity]]. Qed.
Definition unicode_payload : string := ("{""a"":""\u0041""}")%string.
Definition unicode_members : list member := [Member (lit "a") KString (quoted (lit "\u0041"))].
Lemma unicode_object : object_text (lit unicode_payload) unicode_members.
Proof.
  exists [], (lit unicode_payload), []. split; [constructor|]. split; [|split; [constructor|reflexivity]].
  change (lit unicode_payload) with (lit "{" ++ ([] ++ quoted (lit "a") ++ [] ++ lit ":" ++ [] ++ quoted (lit "\u0041") ++ []) ++ lit "}").
  apply JO_members. eapply JM_one; [constructor|js_body|constructor|constructor| |constructor].
  eapply JV_string. eapply JB_unicode with (u := 65%N); [reflexivity| | |constructor];
    unfold high_surrogate, low_surrogate; lia.
Qed.

(** As stated the claim is false even if nothing runs out of memory: a \u escape is handed out as its
    six characters; and for an object of more than 64 tokens that ends in an array (or object), the
    decoder reads behind the end of its token array. *)
Theorem C31_members_refuted :
  (exists p e dp w r w' h hj ht pl pj pt hms pms b cs n,
     wf w /\ grows w /\ uses_jsmn e /\ checknum_right e
     /\ l8w8jwt_decode p e (Some dp) true true true w = Ret r w' /\ dr_rc r = L8W8JWT_SUCCESS
     /\ token_parts p dp h pl /\ url_decodes h hj ht /\ url_decodes pl pj pt
     /\ object_text hj hms /\ object_text pj pms /\ fits hj hms /\ fits pj pms
     /\ dr_claims r = Some (CArr b cs, n) /\ ~ Forall2 (represents json_body) cs (hms ++ pms))
  /\ (exists p e dp w h hj ht pl pj pt hms pms,
     wf w /\ grows w /\ uses_jsmn e /\ checknum_right e
     /\ token_parts p dp h pl /\ url_decodes h hj ht /\ url_decodes pl pj pt
     /\ object_text hj hms /\ object_text pj pms
     /\ l8w8jwt_decode p e (Some dp) true true true w = Undef OOBRead).
Proof.
  split.
  - destruct (text_decodes (lit "{}")) as (ht & Dh); [discriminate|].
    destruct (text_decodes (lit unicode_payload)) as (pt & Dp); [discriminate|].
    exists pe, toy_num, (dp_plain (signed "{}" unicode_payload) 0 (zstr "secret") 6), we. do 2 eexists.
    exists (rfc4648_unpadded true (lit "{}")), (lit "{}"), ht, (rfc4648_unpadded true (lit unicode_payload)), (lit unicode_payload), pt,
      [], unicode_members. do 3 eexists.
    split; [apply we_wf|]. split; [intros k; reflexivity|]. split; [intros js cap; reflexivity|]. split; [apply toy_num_right|].
    split; [vm_compute; reflexivity|]. split; [reflexivity|]. split; [apply signed_parts|]. split; [exact Dh|]. split; [exact Dp|].
    split; [apply empty_object|]. split; [apply unicode_object|]. split; [left; apply small_size; vm_compute; reflexivity|].
    split; [left; apply small_size; vm_compute; reflexivity|]. split; [reflexivity|].
    unfold unicode_members. cbn [app]. intros F. apply Forall2_cons_iff in F as [F _].
    destruct F as (k & v & (_ & _ & _ & El) & _ & (t & Et & Bt) & _).
    cbn [m_value] in Et. assert (t = lit "\u0041") by (apply (f_equal (vtext KString)) in Et; rewrite !vtext_quoted in Et; congruence). subst t. apply body_A in Bt. subst v. discriminate El.
  - destruct (text_decodes (lit "{}")) as (ht & Dh); [discriminate|].
    destruct (text_decodes many_payload) as (pt & Dp); [discriminate|].
    exists pe, toy_num, (many_params "]}"), we, (rfc4648_unpadded true (lit "{}")), (lit "{}"), ht,
      (rfc4648_unpadded true many_payload), many_payload, pt, [], many_members.
    split; [apply we_wf|]. split; [intros k; reflexivity|]. split; [intros js cap; reflexivity|]. split; [apply toy_num_right|].
    split; [apply signed_parts|]. split; [exact Dh|]. split; [exact Dp|].
    split; [apply empty_object|]. split; [apply many_object|]. vm_compute. reflexivity.
Qed.
Print Assumptions C31_members_refuted.

(** ** C45 *)
(** Texts jsmn takes for JSON: strings with valid escapes, runs of other printable characters, commas,
    colons and white space in any order, and brackets that match. [loose st s]: such a text that
    starts inside the brackets [st] (innermost first) and closes them. *)
Inductive loose_string : bytes -> Prop :=
| LS_nil : loose_string []
| LS_char c t : c <> x00 -> c <> x22 -> c <> x5c -> loose_string t -> loose_string (c :: t)
| LS_escape e c t : In (e, c) simple_escapes -> loose_string t -> loose_string (x5c :: e :: t)
| LS_unicode h1 h2 h3 h4 t : Forall (fun h => hexdig h <> None) [h1; h2; h3; h4] -> loose_string t ->
    loose_string (x5c :: x75 :: h1 :: h2 :: h3 :: h4 :: t).
Definition separator (c : byte) : Prop := In c (x09 :: x0a :: x0d :: lit " ,:").
Definition bracket (c : byte) : Prop := In c (lit "{}[]").
Definition printable (c : byte) : Prop := (32 <= b2n c < 127)%N.
Inductive loose : list byte -> bytes -> Prop :=
| L_end : loose [] []
| L_separator st c r : separator c -> loose st r -> loose st (c :: r)
| L_string st s r : loose_string s -> loose st r -> loose st (quoted s ++ r)
| L_word st c s r : printable c -> ~ separator c -> ~ bracket c -> c <> x22 ->
    Forall (fun x => printable x /\ ~ separator x /\ x <> x5d /\ x <> x7d) s -> loose st r -> loose st (c :: s ++ r)
| L_object st r : loose (x7d :: st) r -> loose st (x7b :: r)
| L_array st r : loose (x5d :: st) r -> loose st (x5b :: r)
| L_close st c r : c = x7d \/ c = x5d -> loose st r -> loose (c :: st) (c :: r).
(** Texts without any token. *)
Definition silent (c : byte) : Prop := separator c \/ c = x7d \/ c = x5d.

Definition bracket_of (ty : jtype) : byte := match ty with JObject => x7d | _ => x5d end.
Definition open_brackets (toks : list tok) : list byte := map (fun t => bracket_of (t_type t)) (filter tok_open toks).

Lemma close_last_brackets ty e toks : forall toks', close_last ty e toks = Some toks' -> (0 <= e)%Z ->
  open_brackets toks = bracket_of ty :: open_brackets toks' /\ map t_type toks' = map t_type toks.
Proof.
  induction toks as [|t r IH]; intros toks' H He; [discriminate|]. cbn [close_last] in H. unfold open_brackets in *. cbn [filter].
  destruct (tok_open t) eqn:Eo.
  - destruct (jtype_eqb (t_type t) ty) eqn:Et; [|discriminate]. inversion H; subst.
    assert (E : tok_open (Tok (t_type t) (t_start t) e) = false) by (unfold tok_open; cbn [t_start t_end]; lia).
    cbn [filter map]. rewrite E. cbn [t_type]. split; [|reflexivity]. f_equal.
    destruct (t_type t), ty; try discriminate Et; reflexivity.
  - destruct (close_last ty e r) as [r'|] eqn:E; [|discriminate]. inversion H; subst. cbn [filter map]. rewrite Eo.
    destruct (IH r' eq_refl He) as [I1 I2]. split; [exact I1|]. rewrite I2. reflexivity.
Qed.

Lemma hex_is c : is_hex c = true -> hexdig c <> None.
Proof. destruct c; intros H; vm_compute in H; try discriminate H; discriminate. Qed.
Lemma simple_escape_is c : is_simple_escape c = true -> exists d, In (c, d) simple_escapes.
Proof. destruct c; intros H; try discriminate H; eexists; cbn; intuition reflexivity. Qed.
Lemma jstr_hex h : forall l n m r, jstr h l n = JFound m r ->
  exists hs l' n', l = hs ++ l' /\ length hs = h /\ Forall (fun c => hexdig c <> None) hs /\ jstr 0 l' n' = JFound m r.
Proof.
  induction h as [|h IH]; intros l n m r H; [exists [], l, n; auto|].
  destruct l as [|c t]; [discriminate|]. cbn [jstr] in H. destruct (is_nul c); [discriminate|].
  destruct (is_hex c) eqn:Eh; [|discriminate]. apply IH in H as (hs & l' & n' & -> & L & F & H).
  exists (c :: hs), l', n'. split; [reflexivity|]. split; [cbn [length]; congruence|]. split; [constructor; auto using hex_is|exact H].
Qed.
Lemma jstr_loose k : forall l n m r, (length l <= k)%nat -> jstr 0 l n = JFound m r ->
  exists body, l = body ++ x22 :: r /\ loose_string body.
Proof.
  induction k as [|k IH]; intros l n m r Hk H; (destruct l as [|c t]; [discriminate|]); [simpl in Hk; lia|].
  cbn [length] in Hk. cbn [jstr] in H. destruct (is_nul c) eqn:En; [discriminate|]. apply is_nul_false in En.
  destruct (Byte.eqb c x22) eqn:Eq.
  { apply byte_eqb_eq in Eq. subst c. inversion H; subst. exists []. split; [reflexivity|constructor]. }
  apply byte_eqb_neq in Eq. destruct (Byte.eqb c x5c) eqn:Ec.
  - apply byte_eqb_eq in Ec. subst c. destruct t as [|e t']; [discriminate|]. cbn [length] in Hk.
    destruct (is_simple_escape e) eqn:Ee.
    + apply IH in H as (body & -> & Hb); [|lia]. destruct (simple_escape_is e Ee) as (d & Hd).
      exists (x5c :: e :: body). split; [reflexivity|]. eapply LS_escape; eauto.
    + destruct (Byte.eqb e x75) eqn:Eu; [|discriminate]. apply byte_eqb_eq in Eu. subst e.
      apply jstr_hex in H as (hs & l' & n' & -> & L & F & H). rewrite app_length in Hk.
      apply IH in H as (body & -> & Hb); [|lia].
      destruct hs as [|h1 [|h2 [|h3 [|h4 [|]]]]]; try discriminate L.
      exists (x5c :: x75 :: h1 :: h2 :: h3 :: h4 :: body). split; [reflexivity|]. apply LS_unicode; auto.
  - apply byte_eqb_neq in Ec. apply IH in H as (body & -> & Hb); [|lia]. exists (c :: body). split; [reflexivity|].
    apply LS_char; auto.
Qed.
Lemma prim_end_is c : prim_end c = false -> ~ separator c /\ c <> x5d /\ c <> x7d.
Proof.
  intros H. split; [|split; intros ->; discriminate H]. intros S. cbn in S.
  decompose [or] S; try contradiction; subst; discriminate H.
Qed.
Lemma jprim_loose l : forall n m r, jprim l n = JFound m r ->
  exists body, l = body ++ r /\ Forall (fun x => printable x /\ ~ separator x /\ x <> x5d /\ x <> x7d) body.
Proof.
  induction l as [|c t IH]; intros n m r H; cbn [jprim] in H; [inversion H; subst; exists []; split; [reflexivity|constructor]|].
  destruct (is_nul c) eqn:En; [inversion H; subst; exists []; split; [reflexivity|constructor]|].
  destruct (prim_end c) eqn:Ep; [inversion H; subst; exists []; split; [reflexivity|constructor]|].
  destruct ((b2n c <? 32)%N || (127 <=? b2n c)%N) eqn:Er; [discriminate|].
  apply IH in H as (body & -> & F). exists (c :: body). split; [reflexivity|]. constructor; [|exact F].
  split; [unfold printable; lia|]. apply prim_end_is. exact Ep.
Qed.
Lemma blank_is c : blank c = true <-> separator c.
Proof.
  unfold blank, separator. split.
  - intros H. apply existsb_exists in H as (x & Hx & E). apply byte_eqb_eq in E. subst x. cbn in *. intuition auto.
  - intros H. apply existsb_exists. exists c. split; [cbn in *; intuition auto|apply byte_eqb_eq; reflexivity].
Qed.
Lemma bracket_is c : opens c = false -> closes c = false -> ~ bracket c.
Proof. intros H1 H2 B. cbn in B. decompose [or] B; try contradiction; subst; discriminate. Qed.

(** The filling pass. *)
Lemma before_nul_app a b : no_nul a -> before_nul (a ++ b) = a ++ before_nul b.
Proof.
  induction a as [|c a IH]; intros H; [reflexivity|]. apply no_nul_cons in H as [Hc H]. cbn [app before_nul].
  apply is_nul_false in Hc. rewrite Hc, IH by exact H. reflexivity.
Qed.
Lemma jmain_loose cap f : forall rest pos toks count r toks',
  jmain f (Some cap) rest pos toks count = (r, toks') -> (0 <= r)%Z -> (0 <= pos)%Z -> existsb tok_open toks' = false ->
  loose (open_brackets toks) (before_nul rest).
Proof.
  induction f as [|f IH]; intros rest pos toks count r toks' H Hr Hp Ho; [inversion H; subst; vm_compute in Hr; congruence|].
  assert (Done : forall l, existsb tok_open l = false -> open_brackets l = []).
  { clear. intros l H. unfold open_brackets. replace (filter tok_open l) with (@nil tok); [reflexivity|].
    induction l as [|t l IH]; [reflexivity|]. cbn [existsb] in H. apply orb_false_elim in H as [H1 H2]. cbn [filter]. rewrite H1. auto. }
  destruct rest as [|c t].
  { cbn [jmain] in H. inversion H; subst. rewrite Done by exact Ho. constructor. }
  rewrite jmain_step in H. cbn [before_nul]. destruct (is_nul c) eqn:Ec.
  { inversion H; subst. rewrite Done by exact Ho. constructor. }
  assert (Push : forall tk toks1, push_tok (Some cap) toks tk = Some toks1 -> toks1 = tk :: toks).
  { intros tk toks1 E. unfold push_tok in E. destruct (_ <? _)%Z; inversion E. reflexivity. }
  destruct (opens c) eqn:Eo.
  { destruct (push_tok _ _ _) as [toks1|] eqn:E; [|inversion H; subst; vm_compute in Hr; congruence].
    apply Push in E. subst toks1. apply IH in H; [|exact Hr|lia|exact Ho].
    unfold opens in Eo. apply orb_true_iff in Eo as [E|E]; apply byte_eqb_eq in E; subst c;
      [apply L_object|apply L_array]; unfold open_brackets in H; cbn [filter] in H;
      (replace (tok_open _) with true in H by (unfold tok_open; cbn [t_start t_end]; lia)); exact H. }
  destruct (closes c) eqn:Ek.
  { destruct (close_last _ _ _) as [toks1|] eqn:E; [|inversion H; subst; vm_compute in Hr; congruence].
    apply close_last_brackets in E as [E _]; [|lia]. apply IH in H; [|exact Hr|lia|exact Ho]. rewrite E.
    unfold closes in Ek. apply orb_true_iff in Ek as [Ek|Ek]; apply byte_eqb_eq in Ek; subst c; apply L_close; auto. }
  destruct (Byte.eqb c x22) eqn:Eq.
  { apply byte_eqb_eq in Eq. subst c. destruct (jstr 0 t 0) as [er|n r1] eqn:E; [inversion H; subst; apply jstr_err in E; lia|].
    destruct (push_tok _ _ _) as [toks1|] eqn:E1; [|inversion H; subst; vm_compute in Hr; congruence].
    apply Push in E1. subst toks1. pose proof (jstr_found _ _ _ _ _ E) as (b1 & E1 & En & Hn).
    apply (jstr_loose (length t)) in E as (body & E2 & Hb); [|lia].
    assert (b1 = body).
    { rewrite E1 in E2. assert (L : length b1 = length body) by (apply (f_equal (@length byte)) in E2; rewrite !app_length in E2; lia).
      apply (f_equal (firstn (length b1))) in E2. rewrite firstn_app_exact, L, firstn_app_exact in E2. exact E2. }
    subst b1 t. apply IH in H; [|exact Hr|lia|exact Ho]. unfold open_brackets in *. cbn [filter] in H.
    replace (tok_open _) with false in H by (unfold tok_open; cbn [t_start t_end]; lia).
    change (x22 :: before_nul (body ++ x22 :: r1)) with ([x22] ++ before_nul (body ++ x22 :: r1)).
    rewrite before_nul_app by exact Hn. cbn [before_nul]. change (is_nul x22) with false. cbv iota.
    replace ([x22] ++ body ++ x22 :: before_nul r1) with (quoted body ++ before_nul r1)
      by (unfold quoted; cbn [app]; rewrite <- app_assoc; reflexivity).
    apply L_string; auto. }
  destruct (blank c) eqn:Eb.
  { apply IH in H; [|exact Hr|lia|exact Ho]. apply L_separator; [apply blank_is; exact Eb|exact H]. }
  destruct (jprim (c :: t) 0) as [er|n r1] eqn:E; [inversion H; subst; apply jprim_err in E; lia|].
  destruct (push_tok _ _ _) as [toks1|] eqn:E1; [|inversion H; subst; vm_compute in Hr; congruence].
  apply Push in E1. subst toks1.
  pose proof (jprim_nonempty c t n r1 Ec (not_blank_prim c Ec Eo Ek Eq Eb) E) as Hpos.
  pose proof (jprim_found _ _ _ _ E) as (b1 & E1 & En & Hn & _).
  apply jprim_loose in E as (body & E2 & Hb).
  assert (b1 = body).
  { rewrite E1 in E2. assert (L : length b1 = length body) by (apply (f_equal (@length byte)) in E2; rewrite !app_length in E2; lia).
    apply (f_equal (firstn (length b1))) in E2. rewrite firstn_app_exact, L, firstn_app_exact in E2. exact E2. }
  subst b1. destruct body as [|c' s]; [simpl in En; lia|]. cbn [app] in E1. inversion E1; subst c' t.
  apply no_nul_cons in Hn as [_ Hn]. rewrite before_nul_app by exact Hn.
  apply IH in H; [|exact Hr|lia|exact Ho]. unfold open_brackets in *. cbn [filter] in H.
  replace (tok_open _) with false in H by (unfold tok_open; cbn [t_start t_end]; lia).
  pose proof (Forall_inv Hb) as (P1 & P2 & _). pose proof (Forall_inv_tail Hb) as P3.
  apply L_word; auto using bracket_is. apply byte_eqb_neq. exact Eq.
Qed.

(** The first token stays the first and keeps its type. *)
Lemma jmain_keeps cap f : forall rest pos toks count r toks',
  jmain f (Some cap) rest pos toks count = (r, toks') -> (0 <= pos)%Z ->
  exists pre, map t_type toks' = pre ++ map t_type toks.
Proof.
  induction f as [|f IH]; intros rest pos toks count r toks' H Hp; [inversion H; subst; exists []; reflexivity|].
  destruct rest as [|c t]; [cbn [jmain] in H; inversion H; subst; exists []; reflexivity|].
  rewrite jmain_step in H.
  assert (St : forall tk rest1 pos1, match push_tok (Some cap) toks tk with
      | None => (JSMN_ERROR_NOMEM, toks) | Some toks1 => jmain f (Some cap) rest1 pos1 toks1 (count + 1) end = (r, toks') ->
      (0 <= pos1)%Z -> exists pre, map t_type toks' = pre ++ map t_type toks).
  { intros tk rest1 pos1 E P. unfold push_tok in E. destruct (_ <? _)%Z; [|inversion E; subst; exists []; reflexivity].
    apply IH in E as (pre & E); [|exact P]. cbn [map] in E. exists (pre ++ [t_type tk]). rewrite <- app_assoc. exact E. }
  destruct (is_nul c) eqn:Ec; [inversion H; subst; exists []; reflexivity|].
  destruct (opens c) eqn:Eo; [apply (St _ _ _ H); lia|].
  destruct (closes c) eqn:Ek.
  { destruct (close_last _ _ _) as [toks1|] eqn:E; [|inversion H; subst; exists []; reflexivity].
    apply close_last_brackets in E as [_ E]; [|lia]. apply IH in H as (pre & H); [|lia]. exists pre. rewrite H, E. reflexivity. }
  destruct (Byte.eqb c x22) eqn:Eq.
  { destruct (jstr 0 t 0) as [er|n r1] eqn:E; [inversion H; subst; exists []; reflexivity|].
    apply jstr_found in E as (b & _ & En & _). apply (St _ _ _ H). lia. }
  destruct (blank c) eqn:Eb; [apply IH in H as (pre & H); [exists pre; exact H|lia]|].
  destruct (jprim (c :: t) 0) as [er|n r1] eqn:E; [inversion H; subst; exists []; reflexivity|].
  apply jprim_found in E as (b & _ & En & _). apply (St _ _ _ H). lia.
Qed.
Lemma map_rev_head (toks : list tok) t0 tl pre ty : rev toks = t0 :: tl -> map t_type toks = pre ++ [ty] -> t_type t0 = ty.
Proof.
  intros H1 H2. apply (f_equal (@rev jtype)) in H2. rewrite <- map_rev, H1, rev_app_distr in H2. cbn in H2. congruence.
Qed.
Lemma jmain_first cap f : forall rest pos count r toks' t0 tl,
  jmain f (Some cap) rest pos [] count = (r, toks') -> (0 <= r)%Z -> (0 <= pos)%Z ->
  rev toks' = t0 :: tl -> t_type t0 = JObject ->
  exists b rest', before_nul rest = b ++ x7b :: rest' /\ Forall separator b.
Proof.
  induction f as [|f IH]; intros rest pos count r toks' t0 tl H Hr Hp E0 T0; [inversion H; subst; vm_compute in Hr; congruence|].
  destruct rest as [|c t]; [cbn [jmain] in H; inversion H; subst; discriminate E0|].
  rewrite jmain_step in H. cbn [before_nul]. destruct (is_nul c) eqn:Ec; [inversion H; subst; discriminate E0|].
  assert (St : forall tk rest1 pos1, match push_tok (Some cap) [] tk with
      | None => (JSMN_ERROR_NOMEM, []) | Some toks1 => jmain f (Some cap) rest1 pos1 toks1 (count + 1) end = (r, toks') ->
      (0 <= pos1)%Z -> t_type tk = JObject).
  { intros tk rest1 pos1 E P. unfold push_tok in E. destruct (_ <? _)%Z; [|inversion E; subst; discriminate E0].
    apply jmain_keeps in E as (pre & E); [|exact P]. cbn [map] in E. rewrite <- T0. symmetry. eapply map_rev_head; eauto. }
  destruct (opens c) eqn:Eo.
  { apply St in H; [|lia]. cbn [t_type] in H. destruct (Byte.eqb c x7b) eqn:E; [|discriminate].
    apply byte_eqb_eq in E. subst c. exists [], (before_nul t). split; [reflexivity|constructor]. }
  destruct (closes c) eqn:Ek; [cbn [close_last] in H; inversion H; subst; vm_compute in Hr; congruence|].
  destruct (Byte.eqb c x22) eqn:Eq.
  { destruct (jstr 0 t 0) as [er|n r1] eqn:E; [inversion H; subst; discriminate E0|].
    apply jstr_found in E as (b & _ & En & _). apply St in H; [discriminate H|lia]. }
  destruct (blank c) eqn:Eb.
  { destruct (IH _ _ _ _ _ _ _ H Hr ltac:(lia) E0 T0) as (b & rest' & E & F). exists (c :: b), rest'.
    split; [rewrite E; reflexivity|]. constructor; [apply blank_is; exact Eb|exact F]. }
  destruct (jprim (c :: t) 0) as [er|n r1] eqn:E; [inversion H; subst; discriminate E0|].
  apply jprim_found in E as (b & _ & En & _). apply St in H; [discriminate H|lia].
Qed.
(** The counting pass finds no token. *)
Lemma jmain_zero f : forall rest pos toks c toks', jmain f None rest pos toks c = (c, toks') -> (0 <= c)%Z ->
  Forall silent (before_nul rest).
Proof.
  induction f as [|f IH]; intros rest pos toks c toks' H Hc; [inversion H; subst; vm_compute in Hc; congruence|].
  destruct rest as [|x t]; [constructor|].
  rewrite jmain_step in H. cbn [before_nul]. destruct (is_nul x) eqn:Ec; [constructor|].
  assert (St : forall rest1 pos1 toks1, jmain f None rest1 pos1 toks1 (c + 1) = (c, toks') -> False).
  { intros rest1 pos1 toks1 E. destruct (jmain_count f _ _ _ _ _ _ (repeat (Tok JUndefined 0 0) (Z.to_nat (c + 1))) E) as [L _];
      [lia|rewrite repeat_length; lia|lia|lia]. }
  cbn [push_tok] in H.
  destruct (opens x) eqn:Eo; [destruct (St _ _ _ H)|].
  destruct (closes x) eqn:Ek.
  { constructor; [|eapply IH; eauto]. right. unfold closes in Ek. apply orb_true_iff in Ek as [E|E]; apply byte_eqb_eq in E; auto. }
  destruct (Byte.eqb x x22) eqn:Eq.
  { destruct (jstr 0 t 0) as [er|n r1] eqn:E; [inversion H; subst; apply jstr_err in E; lia|destruct (St _ _ _ H)]. }
  destruct (blank x) eqn:Eb; [constructor; [left; apply blank_is; exact Eb|eapply IH; eauto]|].
  destruct (jprim (x :: t) 0) as [er|n r1] eqn:E; [inversion H; subst; apply jprim_err in E; lia|destruct (St _ _ _ H)].
Qed.

(** What a segment decode accepts looks like, up to the first NUL. *)
Definition accepted_text (js : bytes) : Prop :=
  Forall silent (before_nul js)
  \/ (loose [] (before_nul js) /\ exists b rest, before_nul js = b ++ x7b :: rest /\ Forall separator b).
Lemma reads_shape e js tail es : reads e (js ++ tail) (N.of_nat (length js)) es -> accepted_text js.
Proof.
  unfold reads. cbv zeta. rewrite Nat2N.id, firstn_app_exact.
  destruct (jmain (S (length js)) None js 0 [] 0) as [r0 l0] eqn:E0.
  assert (Er : fst (jsmn_parse js None) = r0) by (unfold jsmn_parse; rewrite E0; destruct (r0 <? 0)%Z; reflexivity).
  rewrite Er. intros [[-> _]|(Hr & t0 & toks & Hp & T0 & _)]; [left; eapply jmain_zero; [exact E0|lia]|right].
  unfold jsmn_parse in Hp. destruct (jmain _ (Some _) js 0 [] 0) as [r2 l2] eqn:E2.
  destruct (Z.ltb_spec r2 0) as [L|L]; [inversion Hp; subst; lia|].
  destruct (existsb tok_open l2) eqn:Eo; [inversion Hp as [[X Y]]; rewrite <- X in Hr; vm_compute in Hr; discriminate Hr|].
  inversion Hp as [[X Y]]. split.
  - apply (jmain_loose _ _ _ _ _ _ _ _ E2); [exact L|lia|exact Eo].
  - eapply jmain_first; [exact E2|exact L|lia|exact Y|exact T0].
Qed.

(** If decode succeeds, then header and payload, each up to its first NUL, either start with an
    opening brace after separators and have the loose syntax above, or contain no token at all.
    Missing: being a JSON object; that is false (C45_object_refuted). *)
Theorem C45_object_partial :
  forall p e dp cn ln w r w', wf w -> uses_jsmn e -> (32 <= p_size_bits p)%N ->
  l8w8jwt_decode p e (Some dp) true cn ln w = Ret r w' -> dr_rc r = L8W8JWT_SUCCESS ->
  exists h pl hj pj ht pt, token_parts p dp h pl /\ url_decodes h hj ht /\ url_decodes pl pj pt
  /\ accepted_text hj /\ accepted_text pj.
Proof.
  intros p e dp cn ln w r w' Hwf Hj Hp H Hrc.
  destruct (decode_reads _ _ _ _ _ _ _ _ Hwf Hj Hp H Hrc)
    as (sg & hb & hm & pb & pm & eh & ep & id & cs & sub & res1 & v' & Hs & P1 & R1 & P2 & R2 & _).
  destruct (segments_parts _ _ _ Hs) as (h & pl & Hparts & (id1 & hj & ht & D1 & E1) & (id2 & pj & pt & D2 & E2)).
  rewrite E1 in P1, R1. rewrite E2 in P2, R2. cbn [s_ptr s_len] in *.
  assert (hm = hj ++ ht) by congruence. assert (pm = pj ++ pt) by congruence. subst hm pm.
  exists h, pl, hj, pj, ht, pt. split; [exact Hparts|]. split; [apply b64_decodes_url; exact D1|].
  split; [apply b64_decodes_url; exact D2|]. split; eapply reads_shape; eauto.
Qed.
Print Assumptions C45_object_partial.

Lemma value_head k t : json_value k t -> exists c r, t = c :: r /\ c <> x00 /\ ~ silent c /\ (k <> KObject -> c <> x7b).
Proof.
  assert (S : forall c, existsb (Byte.eqb c) [x09; x0a; x0d; x20; x2c; x3a; x7d; x5d] = false -> ~ silent c).
  { intros c H X. rewrite <- not_true_iff_false in H. apply H. apply existsb_exists. exists c.
    split; [|apply byte_eqb_eq; reflexivity]. unfold silent, separator in X. cbn in *. intuition auto. }
  intros H. destruct H as [t d H|t H| | | |ws H|t H|ws H|ms t H];
    try (do 2 eexists; split; [reflexivity|split; [discriminate|split; [apply S; reflexivity|intros; discriminate || congruence]]]).
  destruct H as [sg i f ex Hs Hi _ _]. destruct Hs as [<-|[<-|[]]].
  - destruct Hi as [|c s Hc _ _].
    + do 2 eexists; split; [reflexivity|split; [discriminate|split; [apply S; reflexivity|discriminate]]].
    + exists c, (s ++ f ++ ex). split; [reflexivity|]. cbn in Hc. decompose [or] Hc; try contradiction; subst;
        (split; [discriminate|split; [apply S; reflexivity|discriminate]]).
  - do 2 eexists; split; [reflexivity|split; [discriminate|split; [apply S; reflexivity|discriminate]]].
Qed.
Lemma ws_separator w : json_ws w -> Forall separator w /\ no_nul w.
Proof.
  intros H. split.
  - eapply Forall_impl; [|exact H]. cbn. intuition auto.
  - intros I. unfold json_ws in H. rewrite Forall_forall in H. apply H in I. cbn in I. intuition discriminate.
Qed.
Lemma first_nonseparator a b c d s t : Forall separator a -> Forall separator b -> ~ separator c -> ~ separator d ->
  a ++ c :: s = b ++ d :: t -> c = d.
Proof.
  intros Ha. revert b. induction Ha as [|x a Hx _ IH]; intros b Hb Hc Hd E; destruct b as [|y b]; cbn [app] in E; inversion E; subst.
  - reflexivity.
  - exfalso. apply Hc. inversion Hb; auto.
  - exfalso. auto.
  - apply (IH b); auto. exact (Forall_inv_tail Hb).
Qed.
Lemma accepted_json_object w1 k t w2 : json_ws w1 -> json_value k t -> accepted_text (w1 ++ t ++ w2) -> k = KObject.
Proof.
  intros H1 Hv Ha. destruct (value_head k t Hv) as (c & s & -> & Hn & Hs & Hk).
  destruct (ws_separator w1 H1) as [F N]. unfold accepted_text in Ha.
  rewrite before_nul_app in Ha by exact N. cbn [app before_nul] in Ha.
  replace (is_nul c) with false in Ha by (symmetry; apply is_nul_false; exact Hn).
  destruct Ha as [Ha|[_ (b & rest & E & Fb)]].
  - apply Forall_app in Ha as [_ Ha]. apply Forall_inv in Ha. contradiction.
  - assert (c = x7b).
    { eapply (first_nonseparator w1 b); [exact F|exact Fb| | |exact E].
      - intros X. apply Hs. left. exact X.
      - cbn. intuition discriminate. }
    destruct k; try (exfalso; apply Hk; [discriminate|assumption]). reflexivity.
Qed.

(** If decode succeeds and the header (or payload) is a JSON text, its value is an object: other JSON
    values are rejected. *)
Theorem C45_json_object_partial :
  forall p e dp cn ln w r w', wf w -> uses_jsmn e -> (32 <= p_size_bits p)%N ->
  l8w8jwt_decode p e (Some dp) true cn ln w = Ret r w' -> dr_rc r = L8W8JWT_SUCCESS ->
  exists h pl hj pj ht pt, token_parts p dp h pl /\ url_decodes h hj ht /\ url_decodes pl pj pt
  /\ forall w1 k t w2, json_ws w1 -> json_value k t -> json_ws w2 ->
     hj = w1 ++ t ++ w2 \/ pj = w1 ++ t ++ w2 -> k = KObject.
Proof.
  intros p e dp cn ln w r w' Hwf Hj Hp H Hrc.
  destruct (C45_object_partial _ _ _ _ _ _ _ _ Hwf Hj Hp H Hrc) as (h & pl & hj & pj & ht & pt & H1 & H2 & H3 & H4 & H5).
  exists h, pl, hj, pj, ht, pt. split; [exact H1|]. split; [exact H2|]. split; [exact H3|].
  intros w1 k t w2 W1 V W2 [->| ->]; apply (accepted_json_object w1 k t w2); auto.
Qed.
Print Assumptions C45_json_object_partial.

Definition json_verdict (pl : string) : option (Z * option N * option N) :=
  verdict_of (l8w8jwt_decode pe toy_num (Some (dp_plain (signed plain_header pl) 0 (zstr "secret") 6)) true true true we).
Arguments json_verdict pl%string_scope.
(** Return codes: objects are accepted; arrays, strings, numbers and literals are rejected, also with
    white space around. *)
Example C45_example :
  map (fun s => option_map (fun v => (fst (fst v) =? L8W8JWT_SUCCESS)%Z) (json_verdict s))
    ["{""a"":1}"; " {} "; "[1]"; """a"""; "12"; " true "; "null"; "{""a"":1"]%string
  = map Some [true; true; false; false; false; false; false; false].
Proof. vm_compute. reflexivity. Qed.

(** An object's text is a bracket, members and a bracket; the last character is a brace. *)
Lemma object_last ms t : json_object ms t -> exists s, t = s ++ [x7d].
Proof. intros [ws _|ms' t' _]; eexists; [apply (app_assoc (lit "{") ws)|apply (app_assoc (lit "{") t')]. Qed.
Lemma no_object js : (forall c s, js = s ++ [c] -> ~ In c [x20; x09; x0a; x0d; x7d]) -> js <> [] -> forall ms, ~ object_text js ms.
Proof.
  intros H Hn ms (w1 & t & w2 & _ & Ho & W2 & E). destruct (object_last _ _ Ho) as (s & ->).
  destruct w2 as [|x w] using rev_ind.
  - rewrite app_nil_r, app_assoc in E. apply (H x7d _ E). cbn. auto 6.
  - rewrite !app_assoc in E. apply (H x _ E). apply Forall_app in W2 as [_ W2]. apply Forall_inv in W2. cbn in *. intuition auto.
Qed.
(** As stated the claim is false: payloads that are no JSON texts at all are accepted. A single space;
    a brace with a trailing colon; and an object followed by a member outside of it, which is handed out
    as a claim. *)
Theorem C45_object_refuted :
  Forall (fun pj => exists p e dp w r w' h hj ht pl pt,
     wf w /\ grows w /\ uses_jsmn e /\ checknum_right e
     /\ l8w8jwt_decode p e (Some dp) true true true w = Ret r w' /\ dr_rc r = L8W8JWT_SUCCESS /\ dr_valid r = Some 0%N
     /\ token_parts p dp h pl /\ url_decodes h hj ht /\ url_decodes pl pj pt
     /\ forall ms, ~ object_text pj ms)
   [lit " "; lit "{}:"; lit "{""sub"":""alice""},""admin"":true"]
  /\ exists r w', l8w8jwt_decode pe toy_num (Some (dp_plain (signed plain_header "{""sub"":""alice""},""admin"":true") 0 (zstr "secret") 6))
        true true true we = Ret r w'
     /\ handed_out r [(lit "alg", lit "HS256"); (lit "typ", lit "JWT"); (lit "sub", lit "alice"); (lit "admin", lit "true")].
Proof.
  split; [|do 2 eexists; split; [vm_compute; reflexivity|told_pairs]].
  assert (G : forall pl, lit pl <> [] -> (forall ms, ~ object_text (lit pl) ms) ->
    (exists r w', l8w8jwt_decode pe toy_num (Some (dp_plain (signed plain_header pl) 0 (zstr "secret") 6)) true true true we = Ret r w'
       /\ dr_rc r = L8W8JWT_SUCCESS /\ dr_valid r = Some 0%N) ->
    exists p e dp w r w' h hj ht pl' pt,
     wf w /\ grows w /\ uses_jsmn e /\ checknum_right e
     /\ l8w8jwt_decode p e (Some dp) true true true w = Ret r w' /\ dr_rc r = L8W8JWT_SUCCESS /\ dr_valid r = Some 0%N
     /\ token_parts p dp h pl' /\ url_decodes h hj ht /\ url_decodes pl' (lit pl) pt
     /\ forall ms, ~ object_text (lit pl) ms).
  { intros pl Hn Hno (r & w' & H1 & H2 & H3).
    destruct (text_decodes (lit plain_header)) as (ht & Dh); [discriminate|].
    destruct (text_decodes (lit pl)) as (pt & Dp); [exact Hn|].
    exists pe, toy_num, (dp_plain (signed plain_header pl) 0 (zstr "secret") 6), we, r, w',
      (rfc4648_unpadded true (lit plain_header)), (lit plain_header), ht, (rfc4648_unpadded true (lit pl)), pt.
    split; [apply we_wf|]. split; [intros k; reflexivity|]. split; [intros js cap; reflexivity|]. split; [apply toy_num_right|].
    split; [exact H1|]. split; [exact H2|]. split; [exact H3|]. split; [apply signed_parts|]. auto. }
  apply Forall_cons; [|apply Forall_cons; [|apply Forall_cons; [|constructor]]]; apply G; try discriminate;
    try (do 2 eexists; split; [vm_compute; reflexivity|split; reflexivity]).
  - intros ms (w1 & t & w2 & _ & Ho & _ & E). destruct (object_last _ _ Ho) as (s & ->).
    assert (I : In x7d (lit " ")) by (rewrite E; rewrite !in_app_iff; cbn; auto). cbn in I. intuition discriminate.
  - apply no_object; [|discriminate]. intros c s E. apply (f_equal (fun l => last l x00)) in E. rewrite last_last in E.
    vm_compute in E. subst c. cbn. intuition discriminate.
  - apply no_object; [|discriminate]. intros c s E. apply (f_equal (fun l => last l x00)) in E. rewrite last_last in E.
    vm_compute in E. subst c. cbn. intuition discriminate.
Qed.
Print Assumptions C45_object_refuted.
