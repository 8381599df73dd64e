(** * Property C53: the verdict of decode, told on the JSON of the token *)
From Verif Require Import Base BaseProofs HeapProofs Util UtilProofs Claim Base64 SpecB64
  Base64EncProofs Base64EncApi Base64DecProofs Base64Api Jsmn Env Encode Decode SpecJson SpecJwa ClaimProofs UnescapeProofs
  EncodeProofs SignProofs EncodeTotal SpecEnc JsonProofs PropEncode DecodeProofs DecodeInv JsmnProofs ParseProofs
  PropClaim ReadProofs ValidateProofs JsmnJson JsmnSize PropVerify PropValidate PropLeak PropJson DecodeTotal DecodeOk
  PropSafe PropRoundTrip PropIssued.
From Coq Require Import ZifyBool ZifyNat ZifyN.
Ltac Zify.zify_post_hook ::= Z.div_mod_to_equations.
Local Opaque L8W8JWT_MAX_KEY_SIZE.

(** ** Notions *)
(** The text of a member's value: what a string denotes, and of the other kinds the JSON text. *)
Definition value_text (m : member) (v : bytes) : Prop :=
  match m_kind m with KString => exists t, m_value m = quoted t /\ json_body t v | _ => v = m_value m end.
(** The member's name is [name]. *)
Definition named (name : bytes) (m : member) : Prop := json_body (m_key m) name.
(** The member's name starts with [name], or is longer than it. *)
Definition starts (name : bytes) (m : member) : Prop := exists rest, named (name ++ rest) m.
Definition extends (name : bytes) (m : member) : Prop := exists rest, rest <> [] /\ named (name ++ rest) m.
(** [v] is the value of the first member with property [P]: the first called [name], or the first whose
    name starts with [name]. *)
Definition first_with (P : member -> Prop) (ms : list member) (v : bytes) : Prop :=
  exists a m b, ms = a ++ m :: b /\ P m /\ Forall (fun x => ~ P x) a /\ value_text m v.
Definition first_named (name : bytes) := first_with (named name).
Definition first_starting (name : bytes) := first_with (starts name).

(** What the caller asks for is in the token: the expected strings and times in the payload, the
    expected type in the header (RFC 7519 sections 4.1, 5.1 and 7.2); [first] says which member counts. *)
Definition met (first : bytes -> list member -> bytes -> Prop) (e : env) (dp : dec_params) (claims types : list member) : Prop :=
  (forall bit name q n s, In (bit, name, q, n) (identity_checks dp) -> given q n s -> first name claims s)
  /\ (forall c, time_requested dp c = true ->
        exists t z, first (time_name c) claims t /\ decimal t z /\ ~ out_of_time c (limit e dp c) z)
  /\ (forall b x rest, dp_validate_typ dp = Ptr b (x ++ x00 :: rest) -> no_nul x ->
        exists t, first (lit "typ") types t /\ same_nocase (dp_validate_typ_length dp) t x
          /\ (0 < dp_validate_typ_length dp)%N /\ (t <> [] \/ x <> [])).
(** As intended: claims are looked for in the payload, the type in the header. *)
Definition claims_met (e : env) (dp : dec_params) (hms pms : list member) : Prop := met first_named e dp pms hms.
(** As coded: header and payload are searched in this order, for names starting with the name asked for. *)
Definition claims_met_as_coded (e : env) (dp : dec_params) (hms pms : list member) : Prop :=
  met first_starting e dp (hms ++ pms) (hms ++ pms).

(** The names the caller asks for are used as intended: claims in the payload, typ in the header, no
    longer names starting with them, and times written as integers within the range. *)
Definition asked (dp : dec_params) (name : bytes) : Prop :=
  (exists bit q n, In (bit, name, q, n) (identity_checks dp) /\ q <> Null)
  \/ exists c, time_requested dp c = true /\ name = time_name c.
Definition names_clear (e : env) (dp : dec_params) (hms pms : list member) : Prop :=
  (forall name, asked dp name -> Forall (fun m => ~ starts name m) hms /\ Forall (fun m => ~ extends name m) pms)
  /\ (dp_validate_typ dp <> Null ->
        Forall (fun m => ~ extends (lit "typ") m) hms /\ Forall (fun m => ~ starts (lit "typ") m) pms)
  /\ (forall c, time_requested dp c = true -> ordinary_time (limit e dp c)
        /\ forall t, first_named (time_name c) pms t -> exists z, decimal t z).

(** The times asked for are integers, and the limits within the range. *)
Definition times_clear (e : env) (dp : dec_params) (ms : list member) : Prop :=
  forall c, time_requested dp c = true -> ordinary_time (limit e dp c)
    /\ forall t, first_starting (time_name c) ms t -> exists z, decimal t z.

(** The token [h].[pl].[s] in [dp], its header and payload JSON objects with members [hms] and [pms], its
    signature [sig] of the length that [jw] uses, the caller's key [k] usable, the requests well-formed. *)
Definition presented (p : platform) (e : env) (dp : dec_params) (h pl s sig : bytes) (hms pms : list member) (jw : jwa) (k : bytes)
    (w : world) : Prop :=
  (wf w /\ allocs w /\ grows w /\ uses_jsmn e /\ checknum_right e /\ (32 <= p_size_bits p)%N)
  /\ (c_text p dp (h ++ lit "." ++ pl ++ lit "." ++ s) /\ no_dot h /\ no_dot pl
      /\ (Z.of_nat (length (h ++ lit "." ++ pl ++ lit "." ++ s)) <= INT_MAX)%Z)
  /\ (exists hj ht, url_decodes h hj ht /\ object_text hj hms /\ fits hj hms)
  /\ (exists pj pt, url_decodes pl pj pt /\ object_text pj pms /\ fits pj pms)
  /\ (exists st, url_decodes s sig st /\ fit_for e jw k sig /\ right_length e jw k sig)
  /\ (supported (dp_alg dp) jw /\ key_ok (dp_verification_key dp) (dp_verification_key_length dp)
      /\ caller_key (dp_verification_key dp) (dp_verification_key_length dp) k /\ hex_if_ed jw k
      /\ ~ key_unusable p e jw k (h ++ lit "." ++ pl))
  /\ requests_ok p e dp /\ (dp_validate_typ dp = Null \/ typ_first_ok p (hms ++ pms)).

(** ** Lemmas *)
Lemma escape_fun ec c c' : In (ec, c) simple_escapes -> In (ec, c') simple_escapes -> c = c'.
Proof. cbn. intros H H'. decompose [or] H; decompose [or] H'; try contradiction; congruence. Qed.
Lemma escape_not_u c : ~ In (x75, c) simple_escapes.
Proof. cbn. intros H. decompose [or] H; try contradiction; congruence. Qed.
Lemma json_body_fun t d d' : json_body t d -> json_body t d' -> d = d'.
Proof.
  intros H. revert d'. induction H as [|c t d H1 H2 H3 H IH|x c t d Hx H IH|h1 h2 h3 h4 u t d Hu Hh Hl H IH
    |h1 h2 h3 h4 l1 l2 l3 l4 u v t d Hu Hh Hv Hl H IH]; intros d' H'; inversion H'; subst;
    try congruence; try (exfalso; eapply escape_not_u; eassumption).
  all: try solve [f_equal; [first [congruence|eapply escape_fun; eassumption]|auto] | f_equal; auto].
  all: repeat match goal with H : ?a = Some ?u, H' : ?a = Some ?v |- _ => assert_fails (constr_eq u v); assert (u = v) by congruence; subst u; clear H' end.
  all: try contradiction.
Qed.
Lemma value_text_fun m v v' : value_text m v -> value_text m v' -> v = v'.
Proof.
  unfold value_text. destruct (m_kind m); try congruence. intros (t & E & H) (t' & E' & H').
  rewrite E in E'. unfold quoted in E'. assert (t = t') as -> by (assert (E2 : t ++ [x22] = t' ++ [x22]) by congruence; apply app_inj_tail in E2; tauto).
  eapply json_body_fun; eauto.
Qed.
(** The claims handed out, as pairs, for the members they represent. *)
Lemma told_members cs kvs ms : told cs kvs -> Forall2 (represents json_body) cs ms ->
  Forall2 (fun kv m => named (fst kv) m /\ value_text m (snd kv)) kvs ms.
Proof.
  intros T. revert ms. induction T as [|c [k v] cs kvs (D & _) T IH]; intros ms H; inversion H as [|? m ? ms' R H']; subst; constructor; auto.
  destruct R as (k' & v' & D' & Hk & Hv & _). cbn [fst snd] in *. destruct (decoded_fun _ _ _ _ _ D D') as [-> ->]. auto.
Qed.
Lemma starts_prefix name k m : named k m -> (starts name m <-> prefixb name k = true).
Proof.
  intros Hk. rewrite prefixb_spec. split.
  - intros (rest & H). exists rest. exact (json_body_fun _ _ _ Hk H).
  - intros (rest & ->). exists rest. exact Hk.
Qed.
Lemma lookup_first name kvs ms v : Forall2 (fun kv m => named (fst kv) m /\ value_text m (snd kv)) kvs ms ->
  (lookup_prefix name kvs = Some v <-> first_starting name ms v).
Proof.
  intros F. induction F as [|[k x] m kvs ms (Hn & Hv) F IH].
  - split; [discriminate|]. intros (a & m & b & E & _). destruct a; discriminate.
  - cbn [fst snd] in *. unfold lookup_prefix. cbn [value_of]. destruct (prefixb name k) eqn:E.
    + apply (starts_prefix _ _ _ Hn) in E. split.
      * intros Q. assert (x = v) by congruence. subst x. exists [], m, ms. auto.
      * intros (a & m' & b & Em & Nm & Na & Vm). destruct a as [|a0 a].
        -- inversion Em; subst m' b. f_equal. eapply value_text_fun; eauto.
        -- inversion Em; subst a0. inversion Na; subst. contradiction.
    + fold (lookup_prefix name kvs). rewrite IH. assert (Hno : ~ starts name m).
      { intros C. apply (starts_prefix _ _ _ Hn) in C. congruence. }
      split.
      * intros (a & m' & b & -> & Nm & Na & Vm). exists (m :: a), m', b. auto.
      * intros (a & m' & b & Em & Nm & Na & Vm). destruct a as [|a0 a]; [inversion Em; subst; contradiction|].
        inversion Em; subst. inversion Na; subst. exists a, m', b. auto.
Qed.
Lemma first_with_app_r P a b v : Forall (fun m => ~ P m) a -> (first_with P (a ++ b) v <-> first_with P b v).
Proof.
  intros H. induction H as [|m a Hm H IH]; [reflexivity|]. rewrite <- IH. cbn [app]. split.
  - intros (x & m' & y & E & Nm & Nx & Vm). destruct x as [|x0 x]; [inversion E; subst; contradiction|].
    inversion E; subst. inversion Nx; subst. exists x, m', y. auto.
  - intros (x & m' & y & E & Nm & Nx & Vm). exists (m :: x), m', y. rewrite E. auto.
Qed.
Lemma first_with_app_l P a b v : Forall (fun m => ~ P m) b -> (first_with P (a ++ b) v <-> first_with P a v).
Proof.
  intros H. induction a as [|m a IH]; cbn [app].
  - split; [|intros (x & m' & y & E & _); destruct x; discriminate].
    intros (x & m' & y & E & Nm & _). exfalso. rewrite Forall_forall in H. apply (H m'); [|exact Nm].
    rewrite E. apply in_or_app. right. left. reflexivity.
  - split; intros (x & m' & y & E & Nm & Nx & Vm); destruct x as [|x0 x]; inversion E; subst.
    + exists [], m', a. auto.
    + inversion Nx; subst. destruct (proj1 IH) as (x' & m2 & y' & -> & Q1 & Q2 & Q3).
      { exists x, m', y. auto. }
      exists (x0 :: x'), m2, y'. auto.
    + exists [], m', (y ++ b). auto.
    + inversion Nx; subst. exists (x0 :: x), m', (y ++ b). split; [rewrite <- app_assoc; reflexivity|auto].
Qed.
Lemma first_with_ext P Q ms v : Forall (fun m => P m <-> Q m) ms -> (first_with P ms v <-> first_with Q ms v).
Proof.
  intros H. split; intros (a & m & b & -> & Pm & Na & Vm); exists a, m, b; (split; [reflexivity|]);
    apply Forall_app in H as [Ha Hm]; inversion Hm as [|? ? Hx _]; subst; (split; [apply Hx, Pm|]); (split; [|exact Vm]);
    rewrite Forall_forall in *; intros x Hi Px; apply (Na x Hi); apply (Ha x Hi); exact Px.
Qed.
Lemma no_extends_named name m : ~ extends name m -> (starts name m <-> named name m).
Proof.
  intros H. split.
  - intros (rest & Hr). destruct rest as [|c rest]; [rewrite app_nil_r in Hr; exact Hr|].
    exfalso. apply H. exists (c :: rest). split; [discriminate|exact Hr].
  - intros Hn. exists []. rewrite app_nil_r. exact Hn.
Qed.
Lemma clear_payload name hms pms v : Forall (fun m => ~ starts name m) hms -> Forall (fun m => ~ extends name m) pms ->
  (first_starting name (hms ++ pms) v <-> first_named name pms v).
Proof.
  intros H1 H2. unfold first_starting, first_named. rewrite (first_with_app_r _ _ _ _ H1). apply first_with_ext.
  eapply Forall_impl; [|exact H2]. intros m. apply no_extends_named.
Qed.
Lemma clear_header name hms pms v : Forall (fun m => ~ extends name m) hms -> Forall (fun m => ~ starts name m) pms ->
  (first_starting name (hms ++ pms) v <-> first_named name hms v).
Proof.
  intros H1 H2. unfold first_starting, first_named. rewrite (first_with_app_l _ _ _ _ H2). apply first_with_ext.
  eapply Forall_impl; [|exact H1]. intros m. apply no_extends_named.
Qed.
Lemma clear_met e dp hms pms : names_clear e dp hms pms -> (claims_met_as_coded e dp hms pms <-> claims_met e dp hms pms).
Proof.
  intros (Cn & Ct & _). unfold claims_met_as_coded, claims_met, met.
  assert (A1 : forall bit name q n s, In (bit, name, q, n) (identity_checks dp) -> given q n s -> asked dp name).
  { intros bit name q n s Hi Hg. left. exists bit, q, n. split; [exact Hi|]. intros ->. exact Hg. }
  assert (A2 : forall c, time_requested dp c = true -> asked dp (time_name c)) by (intros c Hq; right; eauto).
  split; intros (K1 & K2 & K3).
  - split; [|split].
    + intros bit name q n s Hi Hg. destruct (Cn name (A1 _ _ _ _ _ Hi Hg)) as [C1 C2].
      apply (clear_payload _ hms _ _ C1 C2). eauto.
    + intros c Hq. destruct (Cn _ (A2 c Hq)) as [C1 C2]. destruct (K2 c Hq) as (t & z & Hf & Hz).
      exists t, z. split; [apply (clear_payload _ hms _ _ C1 C2); exact Hf|exact Hz].
    + intros b x rest He Hx. destruct Ct as [C1 C2]; [rewrite He; discriminate|]. destruct (K3 _ _ _ He Hx) as (t & Hf & Hz).
      exists t. split; [apply (clear_header _ _ pms _ C1 C2); exact Hf|exact Hz].
  - split; [|split].
    + intros bit name q n s Hi Hg. destruct (Cn name (A1 _ _ _ _ _ Hi Hg)) as [C1 C2].
      apply (clear_payload _ hms _ _ C1 C2). eauto.
    + intros c Hq. destruct (Cn _ (A2 c Hq)) as [C1 C2]. destruct (K2 c Hq) as (t & z & Hf & Hz).
      exists t, z. split; [apply (clear_payload _ hms _ _ C1 C2); exact Hf|exact Hz].
    + intros b x rest He Hx. destruct Ct as [C1 C2]; [rewrite He; discriminate|]. destruct (K3 _ _ _ He Hx) as (t & Hf & Hz).
      exists t. split; [apply (clear_header _ _ pms _ C1 C2); exact Hf|exact Hz].
Qed.
Lemma handed_fun r kvs kvs' : handed_out r kvs -> handed_out r kvs' -> kvs = kvs'.
Proof.
  intros (b & cs & E & T) (b' & cs' & E' & T'). rewrite E in E'. assert (cs' = cs) by congruence. subst cs'. clear E E'.
  revert kvs' T'. induction T as [|c [k v] cs kvs (D & _) T IH]; intros kvs' T'; inversion T' as [|? [k' v'] ? kvs2 (D' & _) T2]; subst; [reflexivity|].
  cbn [fst snd] in *. destruct (decoded_fun _ _ _ _ _ D D') as [-> ->]. f_equal. auto.
Qed.
Lemma fit_verifiable e jw k sig st : fit_for e jw k sig -> verifiable e jw k (sig ++ st).
Proof.
  unfold fit_for, verifiable. rewrite app_length. destruct (j_family jw) as [| | |curve bits width|]; intros H; [lia|exact I| |exact H|lia].
  intros pk Hp. destruct (H _ Hp) as [H1 H2]. split; [exact H1|lia].
Qed.

(** ** C53 *)
(** The verdict on a token whose header and payload are JSON objects without unicode escapes in names
    and strings, that fit (see C31): L8W8JWT_VALID is reported if and only if the signature verifies under the
    caller's algorithm and key, and all the caller asked for is what the first member says whose name
    starts with the name asked for, header before payload. Times are to be integers. *)
Theorem C53_verdict_as_coded_partial :
  forall p e dp h pl s sig hms pms jw k w, presented p e dp h pl s sig hms pms jw k w -> Forall simple_member (hms ++ pms) ->
    times_clear e dp (hms ++ pms) ->
    exists r w' v, l8w8jwt_decode p e (Some dp) true true true w = Ret r w'
      /\ dr_rc r = L8W8JWT_SUCCESS /\ dr_valid r = Some v
      /\ (v = L8W8JWT_VALID <-> verified_by e jw k (h ++ lit "." ++ pl) sig /\ claims_met_as_coded e dp hms pms).
Proof.
  intros p e dp h pl s sig hms pms jw k w
    ((Hwf & Ha & Hg & Hj & Hc & Hp) & (Ht & N1 & N2 & Hlen) & (hj & ht & D1 & O1 & F1) & (pj & pt & D2 & O2 & F2)
     & (st & D3 & Hft & Hrl) & (Hjw & Hk & Hck & Hhx & Hu) & Hrq & Hty) Hsm Hcl.
  pose proof (url_b64_decodes _ _ _ D1) as B1. pose proof (url_b64_decodes _ _ _ D2) as B2. pose proof (url_b64_decodes _ _ _ D3) as B3.
  destruct (object_reads e hj hms ht Hj Hc O1 F1) as [R1 M1]. destruct (object_reads e pj pms pt Hj Hc O2 F2) as [R2 M2].
  assert (Hfo : typ_found p dp (map kv_of (map (entry_of e) hms ++ map (entry_of e) pms))).
  { rewrite <- map_app. destruct Hty as [Hty|Hty]; [left; exact Hty|]. apply typ_first_found; [apply Forall_app; auto|exact Hty]. }
  pose proof (b64_decodes_shorter _ _ _ B1) as L1. pose proof (b64_decodes_shorter _ _ _ B2) as L2.
  rewrite !app_length in Hlen. change (length (lit ".")) with 1%nat in Hlen.
  destruct (decode_ok p e dp h pl s hj ht pj pt sig st _ _ true true w Hwf Ha Hj Hp eq_refl Ht N1 N2 B1 B2 B3
    ltac:(lia) ltac:(lia) R1 R2 Hk
    (or_intror (ex_intro _ jw (ex_intro _ k (conj Hjw (conj Hck (conj (fit_verifiable _ _ _ _ _ Hft) Hu)))))) Hrq Hg Hfo)
    as (r & w' & H & Hrc).
  assert (Uniq : forall b' jwt h' pl' rest', dp_jwt dp = Ptr b' jwt -> three_parts jwt h' pl' rest' ->
    h' = h /\ pl' = pl /\ exists rest, rest' = s ++ x00 :: rest).
  { intros b' jwt h' pl' rest' Ej T. destruct Ht as ((b & rest & Ej') & Hz & _).
    assert (jwt = (h ++ lit "." ++ pl ++ lit "." ++ s) ++ x00 :: rest) by congruence. subst jwt.
    assert (T' : three_parts ((h ++ lit "." ++ pl ++ lit "." ++ s) ++ x00 :: rest) h pl (s ++ x00 :: rest)).
    { split; [rewrite <- !app_assoc; reflexivity|]. assert (no_nul h) by (intros K; apply Hz; rewrite !in_app_iff; auto).
      assert (no_nul pl) by (intros K; apply Hz; rewrite !in_app_iff; auto). auto. }
    destruct (three_parts_fun _ _ _ _ _ _ _ T T') as (-> & -> & ->). eauto. }
  (* the claims handed out *)
  destruct (C31_members_partial p e dp w r w' Hwf (LocalProofs.grows_appended _ _ Hg) Hj Hp Hc H Hrc) as (h' & pl' & hj' & pj' & ht' & pt' & TP & D1' & D2' & Hcs).
  assert (h' = h /\ pl' = pl) as (-> & ->).
  { destruct TP as [jwt h0 pl0 rest (b' & Ej) T|jwt h0 s0 rest n _ Ea _ _ _ _ _ _].
    - destruct (Uniq _ _ _ _ _ Ej T) as (-> & -> & _). auto.
    - destruct (supported_range _ _ Hjw). lia. }
  destruct (url_decodes_fun _ _ _ _ _ D1' D1) as [_ ->]. destruct (url_decodes_fun _ _ _ _ _ D2' D2) as [_ ->].
  destruct (Hcs hms pms O1 O2) as (b & cs & Ecs & _ & Hrep). specialize (Hrep Hsm).
  (* the signature *)
  destruct (decode_reads _ _ _ _ _ _ _ _ Hwf Hj Hp H Hrc)
    as (sg & hb & hm & pb & pm & eh & ep & id & cs' & sub & res1 & v & _ & _ & _ & _ & _ & _ & _ & _ & _ & _ & _ & Hvr & _).
  destruct (decode_signature p e dp true true w r w' v jw k Hwf H Hrc Hvr Hjw Hck Hhx)
    as (jwt & h' & pl' & rest' & third & sig' & tail' & (b' & Ej) & T & (n & En & Hn & Eth) & Hd & Hbit).
  destruct (Uniq _ _ _ _ _ Ej T) as (-> & -> & rest & ->).
  assert (third = s) as ->.
  { destruct Ht as (_ & _ & Hl & Hs). rewrite !app_length in Hl, Hs. change (length (lit ".")) with 1%nat in Hl, Hs.
    rewrite to_size_small in En by lia. rewrite Eth.
    replace (N.to_nat n) with (length s) by lia. apply firstn_app_exact. }
  destruct (b64_decodes_fun _ _ _ _ _ Hd B3) as [-> ->].
  assert (Hb7 : N.testbit v 7 = false <-> verified_by e jw k (h ++ lit "." ++ pl) sig).
  { rewrite Hbit. split.
    - intros (looked & Hl & Hv). rewrite (right_length_read _ _ _ _ _ _ Hrl Hl) in Hv. exact Hv.
    - intros Hv. exists sig. split; [eapply read_whole; eauto|exact Hv]. }
  assert (Acc : accepted p e dp r v) by (split; [exact Hj|]; split; [exact Hp|]; split; [exists w, w'; auto|auto]).
  exists r, w', v. do 3 (split; [assumption|]).
  (* what is looked up is the first member of that name *)
  destruct (C24_identity_claims_partial _ _ _ _ _ Acc) as (kvs & Ho & G24).
  assert (HF : Forall2 (fun kv m => named (fst kv) m /\ value_text m (snd kv)) kvs (hms ++ pms)).
  { destruct Ho as (b2 & cs2 & E2 & T2). rewrite Ecs in E2. assert (cs2 = cs) by congruence. subst cs2. eapply told_members; eauto. }
  assert (I1 : forall bit name q n' x, In (bit, name, q, n') (identity_checks dp) -> given q n' x ->
     (N.testbit v bit = false <-> first_starting name (hms ++ pms) x)).
  { intros bit name q n' x Hi Hgq. destruct (G24 _ _ _ _ _ Hi Hgq) as [G _]. rewrite G. apply lookup_first. exact HF. }
  assert (I2 : forall c, time_requested dp c = true ->
     (N.testbit v (time_bit c) = false <->
      exists t z, first_starting (time_name c) (hms ++ pms) t /\ decimal t z /\ ~ out_of_time c (limit e dp c) z)).
  { intros c Hq. pose proof (fun x => lookup_first (time_name c) _ _ x HF) as P2.
    destruct (Hcl c Hq) as [Hl Hdec]. destruct (time_partial _ _ _ _ _ Acc) as (kvs' & Ho' & G).
    rewrite (handed_fun _ _ _ Ho' Ho) in G. destruct (G c Hq Hl) as [G2 _].
    destruct (lookup_prefix (time_name c) kvs) as [t|] eqn:El; cbn [time_flag_right] in G2.
    - pose proof (proj1 (P2 t) eq_refl) as Hf. destruct (Hdec t Hf) as (z & Hz). split.
      + intros Hb. exists t, z. split; [exact Hf|]. split; [exact Hz|]. intros Ho2. apply (G2 z Hz) in Ho2. congruence.
      + intros (t' & z' & Hf' & Hz' & Hno). apply P2 in Hf'. assert (t' = t) by congruence. subst t'.
        destruct (N.testbit v (time_bit c)) eqn:Eb; [|reflexivity]. exfalso. apply Hno. apply (G2 z' Hz'). reflexivity.
    - rewrite G2. split; [discriminate|]. intros (t & z & Hf & _). apply P2 in Hf. discriminate. }
  assert (I3 : forall b x rest, dp_validate_typ dp = Ptr b (x ++ x00 :: rest) -> no_nul x ->
     (N.testbit v 8 = false <->
      exists t, first_starting (lit "typ") (hms ++ pms) t /\ same_nocase (dp_validate_typ_length dp) t x
          /\ (0 < dp_validate_typ_length dp)%N /\ (t <> [] \/ x <> []))).
  { intros b2 x rest2 He Hx. destruct (C27_type_partial _ _ _ _ _ _ _ _ Acc He Hx) as (kvs' & Ho' & G & _).
    rewrite (handed_fun _ _ _ Ho' Ho) in G.
    pose proof (fun t => lookup_first (lit "typ") _ _ t HF) as Hlk.
    rewrite G. split; intros (t & Q1 & Q2); exists t; (split; [apply Hlk, Q1|exact Q2]). }
  split.
  - intros ->. split; [apply Hb7; reflexivity|]. split; [|split].
    + intros bit name q n' x Hi Hgq. apply (I1 _ _ _ _ _ Hi Hgq). apply N.bits_0.
    + intros c Hq. apply (I2 c Hq). apply N.bits_0.
    + intros b2 x rest2 He Hx. apply (I3 _ _ _ He Hx). reflexivity.
  - intros (Hv & K1 & K2 & K3). apply N.bits_inj_0. intros bit. destruct (N.testbit v bit) eqn:Eb; [exfalso|reflexivity].
    destruct (proj1 C28_only_requested_flags p e dp true true w r w' v Hwf H Hrc Hvr) as [K _].
    destruct (K bit Eb) as [Rq|(-> & _)]; [|rewrite (proj2 Hb7 Hv) in Eb; discriminate].
    assert (Str : forall name q n', In (bit, name, q, n') (identity_checks dp) -> expectable q n' -> text_request q n' <> NoRequest -> False).
    { intros name q n' Hi He Hx. destruct He as [->|(x & Hgq)]; [apply Hx; reflexivity|].
      pose proof (proj2 (I1 _ _ _ _ _ Hi Hgq) (K1 _ _ _ _ _ Hi Hgq)). congruence. }
    assert (Tm : forall c, bit = time_bit c -> time_requested dp c = true -> False).
    { intros c Ec Hq. pose proof (proj2 (I2 c Hq) (K2 c Hq)). congruence. }
    destruct Hrq as (Q1 & Q2 & Q3 & Q4 & _ & Qt). unfold request_for in Rq.
    destruct bit as [|[[[[]|[]|]|[[]|[]|]|]|[[[]|[]|]|[[]|[]|]|]|]]; try (apply Rq; reflexivity);
      try (eapply Str; [| |exact Rq]; [cbn [identity_checks In]; tauto|assumption]).
    all: try (eapply (Tm Exp); [reflexivity|cbn [time_requested]; destruct (dp_validate_exp dp); congruence]).
    all: try (eapply (Tm Nbf); [reflexivity|cbn [time_requested]; destruct (dp_validate_nbf dp); congruence]).
    all: try (eapply (Tm Iat); [reflexivity|cbn [time_requested]; destruct (dp_validate_iat dp); congruence]).
    destruct Qt as [Qt|(bt & x & rest2 & Qt & Qn & _)]; [rewrite Qt in Rq; apply Rq; reflexivity|].
    pose proof (proj2 (I3 _ _ _ Qt Qn) (K3 _ _ _ Qt Qn)). congruence.
Qed.
Print Assumptions C53_verdict_as_coded_partial.

(** So with names used as intended, L8W8JWT_VALID is reported if and only if the signature verifies and
    the payload's claims (the header's type) are what the caller asked for. Missing: names used otherwise
    ([names_clear]), unicode escapes, and signatures of another length than the algorithm's; in these cases the
    statement fails, see below and C19. *)
Theorem C53_verdict_partial :
  forall p e dp h pl s sig hms pms jw k w, presented p e dp h pl s sig hms pms jw k w -> Forall simple_member (hms ++ pms) ->
    names_clear e dp hms pms ->
    exists r w' v, l8w8jwt_decode p e (Some dp) true true true w = Ret r w'
      /\ dr_rc r = L8W8JWT_SUCCESS /\ dr_valid r = Some v
      /\ (v = L8W8JWT_VALID <-> verified_by e jw k (h ++ lit "." ++ pl) sig /\ claims_met e dp hms pms).
Proof.
  intros p e dp h pl s sig hms pms jw k w Hpr Hsm Hcl.
  destruct (C53_verdict_as_coded_partial p e dp h pl s sig hms pms jw k w Hpr Hsm) as (r & w' & v & H & Hrc & Hv & G).
  - intros c Hq. destruct Hcl as (Cn & _ & Cz). destruct (Cz c Hq) as [C1 C2]. split; [exact C1|]. intros t Hf.
    destruct (Cn (time_name c)) as [C3 C4]; [right; eauto|]. apply C2. apply (clear_payload _ hms _ _ C3 C4). exact Hf.
  - exists r, w', v. do 3 (split; [assumption|]). rewrite G, (clear_met _ _ _ _ Hcl). reflexivity.
Qed.
Print Assumptions C53_verdict_partial.

(** ** Examples *)
Definition verdict_params (tok : bytes) : dec_params :=
  DecParams (Ptr None (tok ++ [x00])) (N.of_nat (length tok)) 0 Null 0 (zstr "alice") 0 Null 0 Null 0
    true false false 0 0 0 (zstr "secret") 6 (zstr "JWT") 4.
Definition alice_payload : string := ("{""sub"":""alice"",""exp"":2000}")%string.
Definition alice_members : list member :=
  [Member (lit "sub") KString (quoted (lit "alice")); Member (lit "exp") KNumber (lit "2000")].
Lemma num_2000 : json_value KNumber (lit "2000").
Proof.
  apply JV_number. apply (JN [] (lit "2000") [] []); [left; reflexivity| |constructor|constructor].
  apply JI_pos; [vm_compute; tauto|discriminate|]. repeat constructor; vm_compute; tauto.
Qed.
Lemma alice_object : object_text (lit alice_payload) alice_members.
Proof.
  exists [], (lit alice_payload), []. split; [constructor|]. split; [|split; [constructor|reflexivity]].
  change (lit alice_payload) with (lit "{" ++ ([] ++ quoted (lit "sub") ++ [] ++ lit ":" ++ [] ++ quoted (lit "alice") ++ []
    ++ lit "," ++ ([] ++ quoted (lit "exp") ++ [] ++ lit ":" ++ [] ++ lit "2000" ++ [])) ++ lit "}").
  apply JO_members. eapply JM_cons; [js_ws|js_body|js_ws|js_ws|eapply JV_string; js_body|js_ws|].
  eapply JM_one; [js_ws|js_body|js_ws|js_ws|apply num_2000|js_ws].
Qed.

(** Tokens signed in the toy world, presented with the right key and the requests of [verdict_params]. *)
Lemma signed_presented hd pl hms pms :
  object_text (lit hd) hms -> object_text (lit pl) pms -> fits (lit hd) hms -> fits (lit pl) pms ->
  (Z.of_nat (length (signed hd pl)) <= 4000)%Z -> Forall (fun m => Forall (plain pe) (m_value m)) (hms ++ pms) ->
  let h := rfc4648_unpadded true (lit hd) in let p := rfc4648_unpadded true (lit pl) in
  let sig := fit 32 (lit "secret" ++ h ++ lit "." ++ p) in
  presented pe toy_num (verdict_params (signed hd pl)) h p (rfc4648_unpadded true sig) sig hms pms
    (Jwa 0 (lit "HS256") HS SHA256) (lit "secret") we
  /\ verified_by toy_num (Jwa 0 (lit "HS256") HS SHA256) (lit "secret") (h ++ lit "." ++ p) sig.
Proof.
  intros O1 O2 F1 F2 Hlen Hpl. cbv zeta.
  set (h := rfc4648_unpadded true (lit hd)) in *. set (q := rfc4648_unpadded true (lit pl)) in *.
  set (sig := fit 32 (lit "secret" ++ h ++ lit "." ++ q)).
  assert (Es : signed hd pl = h ++ lit "." ++ q ++ lit "." ++ rfc4648_unpadded true sig).
  { unfold signed. fold h q. unfold sig. rewrite <- !app_assoc. reflexivity. }
  assert (Hne : forall js ms, object_text js ms -> js <> []).
  { intros js ms (a & t & b & _ & Ht & _ & ->) E. apply app_eq_nil in E as [_ E]. apply app_eq_nil in E as [E _].
    exact (object_not_empty _ _ Ht E). }
  assert (L32 : length sig = 32%nat) by apply fit_length.
  split.
  - split; [split; [apply we_wf|]; split; [intros i; reflexivity|]; split; [intros i; reflexivity|];
      split; [intros js cap; reflexivity|]; split; [apply toy_num_right|vm_compute; discriminate]|].
    split.
    { split; [|split; [apply unpadded_clean|split; [apply unpadded_clean|rewrite <- Es; unfold INT_MAX; lia]]].
      split; [exists None, []; cbn [verdict_params dp_jwt]; rewrite Es; reflexivity|].
      split.
      - intros K. rewrite !in_app_iff in K. destruct K as [K|[K|[K|[K|K]]]]; try (destruct K; [discriminate|contradiction]);
          revert K; apply unpadded_clean.
      - rewrite <- Es. cbn [verdict_params dp_jwt_length]. split; [reflexivity|].
        change (size_mod pe) with 18446744073709551616%N. lia. }
    split; [destruct (text_decodes (lit hd) (Hne _ _ O1)) as (t & D); exists (lit hd), t; auto|].
    split; [destruct (text_decodes (lit pl) (Hne _ _ O2)) as (t & D); exists (lit pl), t; auto|].
    split.
    { destruct (text_decodes sig) as (t & D); [intros E; rewrite E in L32; discriminate|]. exists t.
      split; [exact D|]. unfold fit_for, right_length. cbn [j_family]. rewrite L32. split; vm_compute; congruence. }
    split.
    { split; [apply hs256_supported|]. split; [apply secret_ok|]. split; [apply hmac_key_secret|]. split; [discriminate|].
      intros [(C & _)|C]; [|exact C]. destruct C as (a & b & C). apply (f_equal (@length byte)) in C. rewrite !app_length in C. cbn in C. lia. }
    split.
    { split; [right; exists (lit "alice"); exists []; split; [reflexivity|vm_compute; intuition discriminate]|].
      do 3 (split; [left; reflexivity|]). split; [vm_compute; repeat split; discriminate|]. right. exists None, (lit "JWT"), [].
      split; [reflexivity|]. split; [apply no_nul_b; reflexivity|]. repeat constructor. }
    right. intros a m b E _ _. rewrite Forall_forall in Hpl. apply Hpl. rewrite E. apply in_or_app. right. left. reflexivity.
  - eexists. split; [reflexivity|]. symmetry. apply fit_exact. rewrite L32. reflexivity.
Qed.

Ltac js_simple :=
  repeat first [apply SB_nil | apply SB_char; [vm_compute; discriminate|discriminate|discriminate|]
               |eapply SB_escape; [vm_compute; intuition reflexivity|]].
Ltac js_members :=
  unfold simple_member; repeat (apply Forall_cons; [split; cbn [m_key m_kind m_value];
    [js_simple|first [exact I|eexists; split; [reflexivity|js_simple]]]|]); apply Forall_nil.
Ltac js_plain := vm_compute; repeat constructor.
(** Names that are not escaped denote themselves. *)
Lemma plain_name k : Forall (fun c => (32 <= b2n c)%N /\ c <> x22 /\ c <> x5c) k -> forall d, json_body k d -> d = k.
Proof.
  intros H d Hd. apply (json_body_fun _ _ _ Hd). clear Hd d. induction H as [|c k (H1 & H2 & H3) H IH]; constructor; auto.
Qed.
Ltac js_name H := apply plain_name in H; [|repeat (apply Forall_cons; [split; [vm_compute; discriminate|split; discriminate]|]); apply Forall_nil].
Ltac name_ok :=
  let rest := fresh "rest" in let H := fresh "H" in let Hne := fresh "Hne" in
  first [ intros (rest & Hne & H); js_name H; first [discriminate H | destruct rest; [apply Hne; reflexivity|discriminate H]]
        | intros (rest & H); js_name H; discriminate H ].
Ltac names_ok := repeat (apply Forall_cons; [name_ok|]); apply Forall_nil.

Definition verdict_of_token (h pl : string) : option (Z * option N * option N) :=
  verdict_of (l8w8jwt_decode pe toy_num (Some (verdict_params (signed h pl))) true true true we).
Arguments verdict_of_token (h pl)%string_scope.

(** Non-vacuous: a token with sub alice, good until 2000, at time 1000. *)
Example C53_example :
  (exists h pl s sig, presented pe toy_num (verdict_params (signed plain_header alice_payload)) h pl s sig plain_members alice_members
       (Jwa 0 (lit "HS256") HS SHA256) (lit "secret") we
     /\ Forall simple_member (plain_members ++ alice_members)
     /\ names_clear toy_num (verdict_params (signed plain_header alice_payload)) plain_members alice_members
     /\ verified_by toy_num (Jwa 0 (lit "HS256") HS SHA256) (lit "secret") (h ++ lit "." ++ pl) sig
     /\ claims_met toy_num (verdict_params (signed plain_header alice_payload)) plain_members alice_members)
  /\ verdict_of_token plain_header alice_payload = Some (L8W8JWT_SUCCESS, Some 0%N, Some 4%N)
  (* another subject, an expired token, another type *)
  /\ verdict_of_token plain_header "{""sub"":""bob"",""exp"":2000}" = Some (L8W8JWT_SUCCESS, Some 2%N, Some 4%N)
  /\ verdict_of_token plain_header "{""sub"":""alice"",""exp"":999}" = Some (L8W8JWT_SUCCESS, Some 16%N, Some 4%N)
  /\ verdict_of_token "{""typ"":""JWE""}" alice_payload = Some (L8W8JWT_SUCCESS, Some 256%N, Some 3%N).
Proof.
  split; [|vm_compute; auto].
  destruct (signed_presented plain_header alice_payload plain_members alice_members plain_object alice_object) as [P V];
    [left; apply small_size; vm_compute; reflexivity|left; apply small_size; vm_compute; reflexivity|vm_compute; discriminate|js_plain|].
  do 4 eexists. split; [exact P|]. split.
  { js_members. }
  split; [|split; [exact V|]].
  - split; [|split].
    + intros name [(bit & q & n & Hi & Hq)|(c & Hq & ->)].
      * cbn [identity_checks In] in Hi. decompose [or] Hi; try contradiction;
          match goal with K : _ = (_, _, _, _) |- _ => inversion K; subst end; try (exfalso; apply Hq; reflexivity).
        split; names_ok.
      * destruct c; try discriminate Hq. split; names_ok.
    + intros _. split; names_ok.
    + intros c Hq. destruct c; try discriminate Hq. split; [split; reflexivity|]. intros t (a & m & b & E & Nm & _ & Vm).
      destruct a as [|a0 [|a1 a]]; inversion E; subst.
      * js_name Nm. discriminate Nm.
      * cbv in Vm. subst t. exists 2000%Z. apply (D_pos (lit "2000")). split; [discriminate|]. repeat constructor; vm_compute; tauto.
      * destruct a; discriminate.
  - split; [|split].
    + intros bit name q n s Hi Hg. cbn [identity_checks In] in Hi. decompose [or] Hi; try contradiction;
          match goal with K : _ = (_, _, _, _) |- _ => inversion K; subst end; try contradiction.
      exists [], (Member (lit "sub") KString (quoted (lit "alice"))), [Member (lit "exp") KNumber (lit "2000")].
      split; [reflexivity|]. split; [unfold named; cbn [m_key]; js_body|]. split; [constructor|].
      exists (lit "alice"). split; [reflexivity|].
      assert (Ga : given (zstr "alice") 0 (lit "alice")) by (exists []; split; [reflexivity|vm_compute; intuition discriminate]).
      rewrite (given_det _ _ _ _ Hg Ga). js_body.
    + intros c Hq. destruct c; try discriminate Hq. exists (lit "2000"), 2000%Z. split; [|split].
      * exists [Member (lit "sub") KString (quoted (lit "alice"))], (Member (lit "exp") KNumber (lit "2000")), [].
        split; [reflexivity|]. split; [unfold named; cbn [m_key time_name]; js_body|]. split; [|reflexivity].
        constructor; [|constructor]. intros H. js_name H. discriminate H.
      * apply (D_pos (lit "2000")). split; [discriminate|]. repeat constructor; vm_compute; tauto.
      * vm_compute. discriminate.
    + intros b x rest He Hx. exists (lit "JWT").
      assert (x = lit "JWT") as ->.
      { cbn [verdict_params dp_validate_typ] in He. assert (E : lit "JWT" ++ [x00] = x ++ x00 :: rest) by (cbv in He; cbv; congruence).
        pose proof (before_nul_cstr x rest Hx) as B. rewrite <- E in B. vm_compute in B. symmetry. exact B. }
      split; [|split; [reflexivity|split; [reflexivity|left; discriminate]]].
      exists [Member (lit "alg") KString (quoted (lit "HS256"))], (Member (lit "typ") KString (quoted (lit "JWT"))), [].
      split; [reflexivity|]. split; [unfold named; cbn [m_key]; js_body|]. split.
      * constructor; [|constructor]. intros H. js_name H. discriminate H.
      * exists (lit "JWT"). split; [reflexivity|js_body].
Qed.

(** As stated, without the restrictions, the claim is false in both directions. A token whose payload is
    about mallory passes the check for alice because its header has a member sub too; a token about
    alice, written with a unicode escape, fails it. Both are signed and otherwise in order. *)
Definition shadow_header : string := ("{""alg"":""HS256"",""typ"":""JWT"",""sub"":""alice""}")%string.
Definition shadow_members : list member := plain_members ++ [Member (lit "sub") KString (quoted (lit "alice"))].
Definition mallory_payload : string := ("{""sub"":""mallory"",""exp"":2000}")%string.
Definition mallory_members : list member :=
  [Member (lit "sub") KString (quoted (lit "mallory")); Member (lit "exp") KNumber (lit "2000")].
Definition escaped_payload : string := ("{""sub"":""\u0061lice"",""exp"":2000}")%string.
Definition escaped_members : list member :=
  [Member (lit "sub") KString (quoted (lit "\u0061lice")); Member (lit "exp") KNumber (lit "2000")].
Lemma shadow_object : object_text (lit shadow_header) shadow_members.
Proof.
  exists [], (lit shadow_header), []. split; [constructor|]. split; [|split; [constructor|reflexivity]].
  change (lit shadow_header) with (lit "{" ++ ([] ++ quoted (lit "alg") ++ [] ++ lit ":" ++ [] ++ quoted (lit "HS256") ++ []
    ++ lit "," ++ ([] ++ quoted (lit "typ") ++ [] ++ lit ":" ++ [] ++ quoted (lit "JWT") ++ []
    ++ lit "," ++ ([] ++ quoted (lit "sub") ++ [] ++ lit ":" ++ [] ++ quoted (lit "alice") ++ []))) ++ lit "}").
  apply JO_members. eapply JM_cons; [js_ws|js_body|js_ws|js_ws|eapply JV_string; js_body|js_ws|].
  eapply JM_cons; [js_ws|js_body|js_ws|js_ws|eapply JV_string; js_body|js_ws|].
  eapply JM_one; [js_ws|js_body|js_ws|js_ws|eapply JV_string; js_body|js_ws].
Qed.
Lemma mallory_object : object_text (lit mallory_payload) mallory_members.
Proof.
  exists [], (lit mallory_payload), []. split; [constructor|]. split; [|split; [constructor|reflexivity]].
  change (lit mallory_payload) with (lit "{" ++ ([] ++ quoted (lit "sub") ++ [] ++ lit ":" ++ [] ++ quoted (lit "mallory") ++ []
    ++ lit "," ++ ([] ++ quoted (lit "exp") ++ [] ++ lit ":" ++ [] ++ lit "2000" ++ [])) ++ lit "}").
  apply JO_members. eapply JM_cons; [js_ws|js_body|js_ws|js_ws|eapply JV_string; js_body|js_ws|].
  eapply JM_one; [js_ws|js_body|js_ws|js_ws|apply num_2000|js_ws].
Qed.
Lemma alice_escaped : json_body (lit "\u0061lice") (lit "alice").
Proof.
  change (lit "alice") with (utf8 97 ++ lit "lice"). eapply JB_unicode with (u := 97%N); [reflexivity| | |js_body];
    unfold high_surrogate, low_surrogate; lia.
Qed.
Lemma escaped_object : object_text (lit escaped_payload) escaped_members.
Proof.
  exists [], (lit escaped_payload), []. split; [constructor|]. split; [|split; [constructor|reflexivity]].
  change (lit escaped_payload) with (lit "{" ++ ([] ++ quoted (lit "sub") ++ [] ++ lit ":" ++ [] ++ quoted (lit "\u0061lice") ++ []
    ++ lit "," ++ ([] ++ quoted (lit "exp") ++ [] ++ lit ":" ++ [] ++ lit "2000" ++ [])) ++ lit "}").
  apply JO_members. eapply JM_cons; [js_ws|js_body|js_ws|js_ws|eapply JV_string; apply alice_escaped|js_ws|].
  eapply JM_one; [js_ws|js_body|js_ws|js_ws|apply num_2000|js_ws].
Qed.
Theorem C53_verdict_refuted :
  (exists p e dp h pl s sig hms pms jw k w r w', presented p e dp h pl s sig hms pms jw k w /\ Forall simple_member (hms ++ pms)
     /\ l8w8jwt_decode p e (Some dp) true true true w = Ret r w' /\ dr_rc r = L8W8JWT_SUCCESS
     /\ dr_valid r = Some L8W8JWT_VALID
     /\ given (dp_validate_sub dp) (dp_validate_sub_length dp) (lit "alice") /\ first_named (lit "sub") pms (lit "mallory")
     /\ ~ claims_met e dp hms pms)
  /\ (exists p e dp h pl s sig hms pms jw k w r w' v, presented p e dp h pl s sig hms pms jw k w /\ names_clear e dp hms pms
     /\ verified_by e jw k (h ++ lit "." ++ pl) sig /\ claims_met e dp hms pms
     /\ l8w8jwt_decode p e (Some dp) true true true w = Ret r w' /\ dr_rc r = L8W8JWT_SUCCESS
     /\ dr_valid r = Some v /\ v <> L8W8JWT_VALID).
Proof.
  split.
  - destruct (signed_presented shadow_header mallory_payload shadow_members mallory_members shadow_object mallory_object) as [P V];
      [left; apply small_size; vm_compute; reflexivity|left; apply small_size; vm_compute; reflexivity|vm_compute; discriminate|js_plain|].
    do 14 eexists. split; [exact P|]. split; [js_members|]. split; [vm_compute; reflexivity|].
    split; [reflexivity|]. split; [reflexivity|].
    assert (Ga : given (zstr "alice") 0 (lit "alice")) by (exists []; split; [reflexivity|vm_compute; intuition discriminate]).
    assert (Fm : first_named (lit "sub") mallory_members (lit "mallory")).
    { eexists [], _, _. split; [reflexivity|]. split; [unfold named; cbn [m_key]; js_body|]. split; [constructor|].
      exists (lit "mallory"). split; [reflexivity|js_body]. }
    split; [exact Ga|]. split; [exact Fm|].
    intros (K & _). specialize (K 1%N (lit "sub") (zstr "alice") 0%N (lit "alice") (or_introl eq_refl) Ga).
    destruct K as (a & m & b & E & Nm & Na & Vm). destruct a as [|a0 [|a1 a]]; inversion E; subst.
    + destruct Vm as (t & Et & Vm). apply quoted_inj in Et. subst t. js_name Vm. discriminate Vm.
    + js_name Nm. discriminate Nm.
    + destruct a; discriminate.
  - destruct (signed_presented plain_header escaped_payload plain_members escaped_members plain_object escaped_object) as [P V];
      [left; apply small_size; vm_compute; reflexivity|left; apply small_size; vm_compute; reflexivity|vm_compute; discriminate|js_plain|].
    do 15 eexists. split; [exact P|]. split; [|split; [exact V|split; [|split; [vm_compute; reflexivity|split; [reflexivity|split; [reflexivity|discriminate]]]]]].
    + split; [|split].
      * intros name [(bit & q & n & Hi & Hq)|(c & Hq & ->)].
        -- cbn [identity_checks In] in Hi. decompose [or] Hi; try contradiction;
             match goal with K : _ = (_, _, _, _) |- _ => inversion K; subst end; try (exfalso; apply Hq; reflexivity).
           split; names_ok.
        -- destruct c; try discriminate Hq. split; names_ok.
      * intros _. split; names_ok.
      * intros c Hq. destruct c; try discriminate Hq. split; [split; reflexivity|]. intros t (a & m & b & E & Nm & _ & Vm).
        destruct a as [|a0 [|a1 a]]; inversion E; subst.
        -- js_name Nm. discriminate Nm.
        -- cbv in Vm. subst t. exists 2000%Z. apply (D_pos (lit "2000")). split; [discriminate|]. repeat constructor; vm_compute; tauto.
        -- destruct a; discriminate.
    + split; [|split].
      * intros bit name q n s Hi Hg. cbn [identity_checks In] in Hi. decompose [or] Hi; try contradiction;
          match goal with K : _ = (_, _, _, _) |- _ => inversion K; subst end; try contradiction.
        eexists [], _, _. split; [reflexivity|]. split; [unfold named; cbn [m_key]; js_body|]. split; [constructor|].
        exists (lit "\u0061lice"). split; [reflexivity|].
        assert (Ga : given (zstr "alice") 0 (lit "alice")) by (exists []; split; [reflexivity|vm_compute; intuition discriminate]).
        rewrite (given_det _ _ _ _ Hg Ga). exact alice_escaped.
      * intros c Hq. destruct c; try discriminate Hq. exists (lit "2000"), 2000%Z. split; [|split].
        -- eexists [_], _, []. split; [reflexivity|]. split; [unfold named; cbn [m_key time_name]; js_body|]. split; [|reflexivity].
           constructor; [|constructor]. intros H. js_name H. discriminate H.
        -- apply (D_pos (lit "2000")). split; [discriminate|]. repeat constructor; vm_compute; tauto.
        -- vm_compute. discriminate.
      * intros b x rest He Hx. exists (lit "JWT").
        assert (x = lit "JWT") as ->.
        { cbn [verdict_params dp_validate_typ] in He. assert (E : lit "JWT" ++ [x00] = x ++ x00 :: rest) by (cbv in He; cbv; congruence).
          pose proof (before_nul_cstr x rest Hx) as B. rewrite <- E in B. vm_compute in B. symmetry. exact B. }
        split; [|split; [reflexivity|split; [reflexivity|left; discriminate]]].
        eexists [_], _, []. split; [reflexivity|]. split; [unfold named; cbn [m_key]; js_body|]. split.
        -- constructor; [|constructor]. intros H. js_name H. discriminate H.
        -- exists (lit "JWT"). split; [reflexivity|js_body].
Qed.
Print Assumptions C53_verdict_refuted.
