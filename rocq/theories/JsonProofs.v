(** * Lemmas about the JSON specification and the texts encode writes *)
From Verif Require Import Base BaseProofs HeapProofs Util UtilProofs Claim Base64 SpecB64
  Base64EncProofs Base64EncApi Base64Api UnescapeProofs Jsmn Env Encode SpecJson SpecJwa ClaimProofs EncodeProofs
  SignProofs SpecEnc.
From Coq Require Import ZifyBool ZifyNat ZifyN.
Ltac Zify.zify_post_hook ::= Z.div_mod_to_equations.

Ltac notin H := exfalso; vm_compute in H; decompose [or] H; try discriminate; try contradiction.

Lemma ws_nil : json_ws [].
Proof. constructor. Qed.
#[global] Hint Resolve ws_nil : core.

Lemma json_members_app a s : json_members a s -> forall b t, json_members b t ->
  json_members (a ++ b) (s ++ lit "," ++ t).
Proof.
  induction 1; intros b u Hb; rewrite <- ?app_assoc; cbn [app].
  - replace (w1 ++ quoted kb ++ w2 ++ lit ":" ++ w3 ++ t ++ w4 ++ lit "," ++ u)
      with (w1 ++ quoted kb ++ w2 ++ lit ":" ++ w3 ++ t ++ w4 ++ lit "," ++ u) by reflexivity.
    eapply JM_cons; eauto.
  - eapply JM_cons; eauto.
Qed.

(** The text of one member as encode writes it. *)
Definition member_text (m : member) (t : bytes) : Prop :=
  exists d w1 w2, json_body (m_key m) d /\ json_ws w1 /\ json_ws w2
    /\ json_value (m_kind m) (m_value m)
    /\ t = quoted (m_key m) ++ lit ":" ++ w1 ++ m_value m ++ w2.
Lemma member_text_members m t : member_text m t -> json_members [m] t.
Proof.
  intros (d & w1 & w2 & Hk & H1 & H2 & Hv & ->). destruct m as [k kd v]. cbn [m_key m_kind m_value] in *.
  apply (JM_one [] k d [] w1 kd v w2); auto.
Qed.
Lemma members_join ms ts :
  Forall2 member_text ms ts -> ms <> [] -> json_members ms (join ts).
Proof.
  induction 1 as [|m t ms ts H Hs IH]; [congruence|]. intros _.
  apply member_text_members in H. destruct Hs as [|m2 t2 ms ts H2 Hs].
  - exact H.
  - change (join (t :: t2 :: ts)) with (t ++ lit "," ++ join (t2 :: ts)).
    apply (json_members_app [m]); auto. apply IH. discriminate.
Qed.

(** ** Unique reading of strings *)
Lemma simple_not_u e c : In (e, c) simple_escapes -> e <> x75.
Proof.
  intros Hin. simpl in Hin. decompose [or] Hin; try contradiction;
    match goal with H : _ = _ |- _ => inversion H; subst; discriminate end.
Qed.
Lemma body_unique a da : json_body a da -> forall b db r s, json_body b db ->
  a ++ x22 :: r = b ++ x22 :: s -> a = b /\ r = s.
Proof.
  induction 1; intros b db r s Hb E; inversion Hb; subst; cbn [app] in E;
    try (inversion E; subst; congruence);
    try (inversion E; subst; exfalso; eapply simple_not_u; eauto; reflexivity).
  - inversion E; auto.
  - injection E as -> E.
    match goal with Hj : json_body t0 _ |- _ => destruct (IHjson_body _ _ _ _ Hj E) as [-> ->] end. auto.
  - injection E as -> E.
    match goal with Hj : json_body t0 _ |- _ => destruct (IHjson_body _ _ _ _ Hj E) as [-> ->] end. auto.
  - injection E as -> -> -> -> E.
    match goal with Hj : json_body t0 _ |- _ => destruct (IHjson_body _ _ _ _ Hj E) as [-> ->] end. auto.
  - injection E as -> -> -> -> -> -> -> -> E.
    match goal with Hj : json_body t0 _ |- _ => destruct (IHjson_body _ _ _ _ Hj E) as [-> ->] end. auto.
Qed.
Lemma quoted_unique a da b db r s : json_body a da -> json_body b db ->
  quoted a ++ r = quoted b ++ s -> a = b /\ r = s.
Proof.
  intros Ha Hb E. unfold quoted in E. cbn [app] in E. injection E as E.
  rewrite <- !app_assoc in E. exact (body_unique _ _ Ha _ _ _ _ Hb E).
Qed.

(** ** First characters *)
Lemma ws_head w c r s : json_ws w -> ~ In c [x20; x09; x0a; x0d] -> w ++ r = c :: s ->
  w = [] /\ r = c :: s.
Proof.
  intros Hw Hc E. destruct w as [|d w]; [auto|]. injection E as -> E. inversion Hw; subst.
  contradiction.
Qed.
Lemma digit_not_quote : ~ digit x22.
Proof. intros H. notin H. Qed.
Lemma value_quote k t r s : json_value k t -> t ++ r = x22 :: s ->
  k = KString /\ exists b d, json_body b d /\ t = quoted b.
Proof.
  intros Hv E. inversion Hv; subst; try discriminate.
  - split; [auto|]. eauto.
  - exfalso. match goal with Hn : json_number _ |- _ => inversion Hn as [sg i f e Hs Hi Hf He]; subst end.
    destruct Hs as [<-|[<-|[]]]; [|discriminate].
    inversion Hi; subst; [discriminate|]. cbn [app] in E. injection E as -> E.
    apply digit_not_quote; auto.
Qed.

(** Reading one string member off the front. *)
Lemma first_string ms t kb kd vb vd x :
  json_members ms t -> json_body kb kd -> json_body vb vd ->
  t ++ lit "}" = quoted kb ++ lit ":" ++ quoted vb ++ x ->
  exists w y, json_ws w /\ x = w ++ y
    /\ (y = lit "}" \/ exists ms' r, json_members ms' r /\ y = lit "," ++ r ++ lit "}").
Proof.
  intros Hm Hk Hv E2.
  assert (E : exists w1 kb' kd' w2 w3 k v w4 y,
     json_ws w1 /\ json_body kb' kd' /\ json_ws w2 /\ json_ws w3 /\ json_value k v /\ json_ws w4
     /\ (y = lit "}" \/ exists ms' r, json_members ms' r /\ y = lit "," ++ r ++ lit "}")
     /\ t ++ lit "}" = w1 ++ quoted kb' ++ w2 ++ lit ":" ++ w3 ++ v ++ w4 ++ y).
  { inversion Hm; subst.
    - exists w1, kb0, kd0, w2, w3, k, t0, w4, (lit "}"). repeat split; auto.
      rewrite <- !app_assoc. reflexivity.
    - exists w1, kb0, kd0, w2, w3, k, t0, w4, (lit "," ++ r ++ lit "}"). repeat split; eauto.
      rewrite <- !app_assoc. reflexivity. }
  destruct E as (w1 & kb' & kd' & w2 & w3 & k & v & w4 & y & Hw1 & Hk' & Hw2 & Hw3 & Hv' & Hw4 & Hy & E).
  rewrite E in E2. clear E Hm.
  apply ws_head in E2; auto; [|intros Hin; notin Hin].
  destruct E2 as [_ E2].
  change (quoted kb' ++ w2 ++ lit ":" ++ w3 ++ v ++ w4 ++ y = quoted kb ++ lit ":" ++ quoted vb ++ x) in E2.
  destruct (quoted_unique _ _ _ _ _ _ Hk' Hk E2) as [_ E3].
  apply ws_head in E3; auto; [|intros Hin; notin Hin].
  destruct E3 as [_ E3]. injection E3 as E3.
  apply ws_head in E3; auto; [|intros Hin; notin Hin].
  destruct E3 as [_ E3].
  destruct (value_quote _ _ _ _ Hv' E3) as (_ & b & d & Hb & ->).
  change (quoted b ++ w4 ++ y = quoted vb ++ x) in E3.
  destruct (quoted_unique _ _ _ _ _ _ Hb Hv E3) as [_ E4].
  exists w4, y. auto.
Qed.
(** ** Last characters *)
Lemma last_app {A} (a b : list A) d : b <> [] -> last (a ++ b) d = last b d.
Proof.
  intros Hb. induction a as [|x a IH]; [auto|]. cbn [app last].
  destruct (a ++ b) eqn:E; [|exact IH]. apply app_eq_nil in E. tauto.
Qed.
Lemma forall_last {A} (P : A -> Prop) l d : Forall P l -> l <> [] -> P (last l d).
Proof.
  intros H Hn. destruct (exists_last Hn) as (l' & x & ->). rewrite last_last.
  apply Forall_app in H. destruct H as [_ H]. inversion H; auto.
Qed.
Lemma digit_last s : Forall digit s -> s <> [] -> last s x00 <> x2c.
Proof.
  intros H Hn E. apply (forall_last _ _ x00) in H; auto. rewrite E in H. notin H.
Qed.
Lemma number_last t : json_number t -> t <> [] /\ last t x00 <> x2c.
Proof.
  intros H. inversion H as [sg i f e Hs Hi Hf He]; subst.
  assert (Hi' : i <> [] /\ last i x00 <> x2c).
  { inversion Hi; subst; [split; discriminate|]. split; [discriminate|].
    apply digit_last; [constructor; auto|discriminate]. }
  assert (Hif : i ++ f <> [] /\ last (i ++ f) x00 <> x2c).
  { inversion Hf as [|s [Hn Hd]]; subst; [rewrite app_nil_r; auto|].
    split; [destruct i; discriminate|]. rewrite last_app by discriminate.
    change (x2e :: s) with ([x2e] ++ s). rewrite last_app; auto. apply digit_last; auto. }
  assert (Hie : i ++ f ++ e <> [] /\ last (i ++ f ++ e) x00 <> x2c).
  { rewrite app_assoc. inversion He as [|c sg' s Hc Hsg [Hn Hd]]; subst; [rewrite app_nil_r; auto|].
    split; [destruct (i ++ f); discriminate|]. rewrite last_app by discriminate.
    change (c :: sg' ++ s) with ((c :: sg') ++ s). rewrite last_app; auto. apply digit_last; auto. }
  split; [|rewrite last_app; tauto]. destruct Hie as [Hie _]. intros E.
  apply app_eq_nil in E. tauto.
Qed.
Lemma value_last k t : json_value k t -> t <> [] /\ last t x00 <> x2c.
Proof.
  intros H. inversion H; subst; try (split; discriminate); try (apply number_last; assumption).
  - split; [discriminate|]. unfold quoted. change (x22 :: t0 ++ [x22]) with ((x22 :: t0) ++ [x22]).
    rewrite last_last. discriminate.
  - split; [destruct ws; discriminate|]. rewrite app_assoc, last_app by discriminate. discriminate.
  - split; [discriminate|]. rewrite app_assoc, last_app by discriminate. discriminate.
  - split; [destruct ws; discriminate|]. rewrite app_assoc, last_app by discriminate. discriminate.
  - split; [discriminate|]. rewrite app_assoc, last_app by discriminate. discriminate.
Qed.
Lemma value_ws_last k t w : json_value k t -> json_ws w ->
  t ++ w <> [] /\ last (t ++ w) x00 <> x2c.
Proof.
  intros Hv Hw. destruct (value_last _ _ Hv) as [Hn Hl]. destruct w as [|c w].
  - rewrite app_nil_r. auto.
  - split; [destruct t; discriminate|]. rewrite last_app by discriminate. intros E.
    pose proof (forall_last _ _ x00 Hw ltac:(discriminate)) as Hin. rewrite E in Hin. notin Hin.
Qed.
Lemma members_last ms t : json_members ms t -> t <> [] /\ last t x00 <> x2c.
Proof.
  induction 1; rewrite !app_assoc.
  - destruct (value_ws_last _ _ _ H3 H4) as [Hn Hl]. rewrite <- (app_assoc _ t w4). split.
    + intros E. apply app_eq_nil in E. tauto.
    + rewrite last_app; auto.
  - destruct IHjson_members as [Hn Hl]. split.
    + intros E. apply app_eq_nil in E. tauto.
    + rewrite last_app; auto.
Qed.
(** A comma before the closing brace is not an object. *)
Lemma no_trailing_comma ms t : ~ json_object ms (lit "{" ++ t ++ lit "," ++ lit "}").
Proof.
  rewrite app_assoc, (app_assoc _ (lit ",")).
  intros H. remember ((_ ++ lit ",") ++ lit "}") as txt eqn:E2 in H.
  destruct H as [ws Hws|ms t' Hm]; rewrite app_assoc in E2;
    apply app_inj_tail in E2; destruct E2 as [E2 _]; injection E2 as E2.
  - subst ws. apply Forall_app in Hws. destruct Hws as [_ Hin]. inversion Hin; subst.
    match goal with Hq : In x2c _ |- _ => notin Hq end.
  - destruct (members_last _ _ Hm) as [_ Hl]. rewrite E2, last_app in Hl by discriminate. apply Hl. reflexivity.
Qed.

(** ** Texts written by encode *)
Lemma wrote_text claims n (ok : Prop) t : wrote claims n ok t -> ok ->
  exists ts, Forall2 text_of (keyed_claims claims n) ts /\ t = join ts.
Proof.
  intros [(-> & H)|(b & cs & ts & -> & Hn & Hts & ->)] Hok.
  - exists []. split; [|reflexivity].
    assert (E : keyed_claims claims n = []).
    { destruct H as [->|[->|H]]; [reflexivity| |contradiction]. destruct claims; reflexivity. }
    rewrite E. constructor.
  - exists ts. split; [exact Hts|reflexivity].
Qed.
(** The member as written: the key, and the value if it is a string, escaped by the encoder. *)
Definition written (c : claim) (m : member) : Prop :=
  exists k v, given (c_key c) (c_key_length c) k /\ given (c_value c) (c_value_length c) v
    /\ m_key m = escape k
    /\ (c_type c = L8W8JWT_CLAIM_TYPE_STRING -> m_kind m = KString /\ m_value m = quoted (escape v)).
Lemma text_member c t :
  text_of c t ->
  (c_type c <> L8W8JWT_CLAIM_TYPE_STRING ->
    forall v, given (c_value c) (c_value_length c) v ->
    exists w1 k t w2, json_ws w1 /\ json_value k t /\ json_ws w2 /\ v = w1 ++ t ++ w2) ->
  exists m, asks_for c m /\ written c m /\ member_text m t.
Proof.
  intros (k & v & Hk & Hv & ->) Hraw. unfold member_bytes, is_str.
  destruct (Z.eqb_spec (c_type c) L8W8JWT_CLAIM_TYPE_STRING) as [E|E].
  - exists (Member (escape k) KString (quoted (escape v))). split.
    + exists k, v. split; [exact Hk|]. split; [exact Hv|]. split; [apply escape_body|].
      split; [|contradiction]. intros _. split; [reflexivity|]. exists (escape v).
      split; [apply escape_body|reflexivity].
    + split; [exists k, v; auto|]. exists k, [], []. split; [apply escape_body|]. split; [auto|]. split; [auto|].
      split; [eapply JV_string, escape_body|]. cbn [m_key m_value app]. rewrite app_nil_r. reflexivity.
  - destruct (Hraw E v Hv) as (w1 & kd & u & w2 & H1 & Hu & H2 & ->).
    exists (Member (escape k) kd u). split.
    + exists k, (w1 ++ u ++ w2). split; [exact Hk|]. split; [exact Hv|]. split; [apply escape_body|].
      split; [contradiction|]. intros _. split; [exact Hu|]. exists w1, w2. auto.
    + split; [exists k, (w1 ++ u ++ w2); repeat split; auto; contradiction|]. exists k, w1, w2. split; [apply escape_body|]. auto.
Qed.
Lemma texts_members cs ts : Forall2 text_of cs ts -> raw_values_ok cs ->
  exists ms, Forall2 asks_for cs ms /\ Forall2 written cs ms /\ Forall2 member_text ms ts.
Proof.
  induction 1 as [|c t cs ts H Hs IH]; intros Hr.
  - exists []. split; [|split]; constructor.
  - inversion Hr as [|? ? Hc Hrs]; subst. destruct IH as (ms & H1 & H2 & H3); auto.
    destruct (text_member _ _ H) as (m & Hm1 & Hm2 & Hm3); auto.
    exists (m :: ms). split; [|split]; constructor; auto.
Qed.
Lemma forall2_nil {A B} (R : A -> B -> Prop) l l' : Forall2 R l l' -> (l = [] <-> l' = []).
Proof. intros H; inversion H; subst; split; intros; congruence. Qed.

Lemma lit_body s : escape s = s -> json_body s s.
Proof. intros E. rewrite <- E at 1. apply escape_body. Qed.
Lemma string_text name value : escape name = name -> escape value = value ->
  member_text (string_member name value) (quoted name ++ lit ":" ++ quoted value).
Proof.
  intros H1 H2. exists name, [], []. cbn [m_key m_kind m_value string_member app].
  rewrite app_nil_r. split; [apply lit_body; auto|]. repeat split; auto.
  eapply JV_string, lit_body. auto.
Qed.

(** The fixed part of the header. *)
Lemma header_fixed alg h j : header_prefix alg = Some h -> supported alg j ->
  exists ts, h = lit "{" ++ join ts /\ Forall2 member_text (fixed_members j) ts.
Proof.
  intros H (Hin & Hid). exists (map (fun m => quoted (m_key m) ++ lit ":" ++ m_value m) (fixed_members j)).
  cbn [jwa_table In] in Hin.
  decompose [or] Hin; try contradiction; subst; cbn [j_id] in H;
    (split;
     [match type of H with ?l = Some _ => let v := eval vm_compute in l in
        assert (E : Some h = v) by (rewrite <- H; vm_compute; reflexivity) end;
      injection E as ->; vm_compute; reflexivity
     |repeat (constructor; [apply string_text; reflexivity|]); constructor]).
Qed.

(** The registered claims. *)
Lemma time_one c name t ts :
  time_fact c name t -> escape name = name -> Forall2 text_of (filter has_key [c]) ts ->
  exists ms, asks_time name t ms /\ Forall2 member_text ms ts /\ (ms <> [] <-> t <> 0%Z).
Proof.
  intros (Ht & [(-> & Hk)|(Hn & Hk & Hv)]) En H.
  - cbn [filter] in H. unfold has_key in H. rewrite Hk in H. cbn [is_null negb] in H. inversion H; subst.
    exists []. split; [left; auto|]. split; [constructor|]. tauto.
  - cbn [filter] in H. unfold has_key in H. destruct (c_key c) as [|b m] eqn:Ek; [contradiction|].
    cbn [is_null negb] in H. inversion H as [|c' t' cs' ts' Hc Hn' E1 E2]; subst. inversion Hn'; subst.
    destruct Hc as (k & v & Gk & Gv & ->). rewrite Ek in Gk.
    rewrite (given_det _ _ _ _ Gk Hk), (given_det _ _ _ _ Gv Hv).
    unfold member_bytes, is_str. rewrite Ht. cbn [Z.eqb L8W8JWT_CLAIM_TYPE_INTEGER L8W8JWT_CLAIM_TYPE_STRING].
    rewrite En. pose proof (print_u64_number _ (to_u64_lt t)) as Hnum.
    exists [Member name KNumber (print_u64 (to_u64 t))]. split; [|split].
    + right. split; [exact Hn|]. eexists. split; [reflexivity|]. split; [exact Hnum|].
      split; [apply print_u64_digits|]. apply (print_u64_value _ (to_u64_lt t)).
    + constructor; [|constructor]. exists name, [], []. cbn [m_key m_kind m_value app].
      split; [apply lit_body; auto|]. rewrite app_nil_r. repeat split; auto. constructor; auto.
    + split; [auto|discriminate].
Qed.
(** A registered string claim as written. *)
Definition written_string (name : bytes) (q : ptr) (n : N) (ms : list member) : Prop :=
  (q = Null /\ ms = []) \/ exists v, given q n v /\ ms = [Member name KString (quoted (escape v))].
Lemma str_one c name q n ts :
  str_fact c name q n -> escape name = name -> Forall2 text_of (filter has_key [c]) ts ->
  exists ms, asks_string name q n ms /\ Forall2 member_text ms ts /\ (ms <> [] <-> q <> Null)
    /\ Forall (fun t => exists kb kd vb vd, json_body kb kd /\ json_body vb vd
                        /\ t = quoted kb ++ lit ":" ++ quoted vb) ts
    /\ written_string name q n ms.
Proof.
  intros (Ht & [(-> & Hk)|(Hn & Hk & Hv & Hvl)]) En H.
  - cbn [filter] in H. unfold has_key in H. rewrite Hk in H. cbn [is_null negb] in H. inversion H; subst.
    exists []. split; [left; auto|]. split; [constructor|]. split; [tauto|]. split; [constructor|left; auto].
  - cbn [filter] in H. unfold has_key in H. destruct (c_key c) as [|b m] eqn:Ek; [contradiction|].
    cbn [is_null negb] in H. inversion H as [|c' t' cs' ts' Hc Hn' E1 E2]; subst. inversion Hn'; subst.
    destruct Hc as (k & v & Gk & Gv & ->). rewrite Ek in Gk.
    rewrite (given_det _ _ _ _ Gk Hk).
    unfold member_bytes, is_str. rewrite Ht. cbn [Z.eqb L8W8JWT_CLAIM_TYPE_STRING].
    rewrite En.
    exists [Member name KString (quoted (escape v))]. split; [|split; [|split; [|split]]].
    + right. exists v, (escape v). split; [exact Gv|]. split; [apply escape_body|reflexivity].
    + constructor; [|constructor]. exists name, [], []. cbn [m_key m_kind m_value app].
      split; [apply lit_body; auto|]. rewrite app_nil_r. repeat split; auto.
      eapply JV_string, escape_body.
    + split; [auto|discriminate].
    + constructor; [|constructor]. exists name, name, (escape v), v. split; [apply lit_body; auto|].
      split; [apply escape_body|reflexivity].
    + right. exists v. auto.
Qed.
Definition string_text_of (t : bytes) : Prop :=
  exists kb kd vb vd, json_body kb kd /\ json_body vb vd /\ t = quoted kb ++ lit ":" ++ quoted vb.

Definition written_registered (ep : enc_params) (ms : list member) : Prop :=
  exists iat nbf exp sub iss aud jti,
    ms = iat ++ nbf ++ exp ++ sub ++ iss ++ aud ++ jti
    /\ asks_time (lit "iat") (ep_iat ep) iat /\ asks_time (lit "nbf") (ep_nbf ep) nbf
    /\ asks_time (lit "exp") (ep_exp ep) exp
    /\ written_string (lit "sub") (ep_sub ep) (ep_sub_length ep) sub
    /\ written_string (lit "iss") (ep_iss ep) (ep_iss_length ep) iss
    /\ written_string (lit "aud") (ep_aud ep) (ep_aud_length ep) aud
    /\ written_string (lit "jti") (ep_jti ep) (ep_jti_length ep) jti.
Lemma registered_members ep tbuf ts :
  iatnbfexp ep = OK tbuf ->
  Forall2 text_of (filter has_key (registered_claims ep tbuf)) ts ->
  exists ms, (asks_registered ep ms /\ written_registered ep ms) /\ Forall2 member_text ms ts
    /\ (ms <> [] <-> some_time ep \/ some_string ep)
    /\ (~ some_time ep -> Forall string_text_of ts).
Proof.
  intros Htb H.
  destruct (registered_facts ep tbuf Htb)
    as (c1 & c2 & c3 & c4 & c5 & c6 & c7 & E & F1 & F2 & F3 & F4 & F5 & F6 & F7).
  rewrite E in H.
  change [c1; c2; c3; c4; c5; c6; c7] with ([c1] ++ [c2] ++ [c3] ++ [c4] ++ [c5] ++ [c6] ++ [c7]) in H.
  rewrite !filter_app in H.
  apply Forall2_app_inv_l in H as (t1 & r & H1 & H & ->).
  apply Forall2_app_inv_l in H as (t2 & r2 & H2 & H & ->).
  apply Forall2_app_inv_l in H as (t3 & r3 & H3 & H & ->).
  apply Forall2_app_inv_l in H as (t4 & r4 & H4 & H & ->).
  apply Forall2_app_inv_l in H as (t5 & r5 & H5 & H & ->).
  apply Forall2_app_inv_l in H as (t6 & t7 & H6 & H7 & ->).
  destruct (time_one _ _ _ _ F1 eq_refl H1) as (m1 & A1 & B1 & N1).
  destruct (time_one _ _ _ _ F2 eq_refl H2) as (m2 & A2 & B2 & N2).
  destruct (time_one _ _ _ _ F3 eq_refl H3) as (m3 & A3 & B3 & N3).
  destruct (str_one _ _ _ _ _ F4 eq_refl H4) as (m4 & A4 & B4 & N4 & S4 & T4).
  destruct (str_one _ _ _ _ _ F5 eq_refl H5) as (m5 & A5 & B5 & N5 & S5 & T5).
  destruct (str_one _ _ _ _ _ F6 eq_refl H6) as (m6 & A6 & B6 & N6 & S6 & T6).
  destruct (str_one _ _ _ _ _ F7 eq_refl H7) as (m7 & A7 & B7 & N7 & S7 & T7).
  exists (m1 ++ m2 ++ m3 ++ m4 ++ m5 ++ m6 ++ m7). split; [|split; [|split]].
  - split; exists m1, m2, m3, m4, m5, m6, m7; (split; [reflexivity|]); tauto.
  - repeat (apply Forall2_app; [assumption|]). assumption.
  - unfold some_time, some_string. rewrite <- N1, <- N2, <- N3, <- N4, <- N5, <- N6, <- N7. split.
    + intros K. destruct m1; [|left; left; discriminate]. destruct m2; [|left; right; left; discriminate].
      destruct m3; [|left; right; right; discriminate]. right.
      destruct m4; [|left; discriminate]. destruct m5; [|right; left; discriminate].
      destruct m6; [|right; right; left; discriminate]. destruct m7; [|right; right; right; discriminate].
      contradiction.
    + intros K Z. repeat (apply app_eq_nil in Z as [? Z]). tauto.
  - intros Hs. unfold some_time in Hs.
    assert (m1 = [] /\ m2 = [] /\ m3 = []) as (-> & -> & ->).
    { destruct m1; [|exfalso; apply Hs; left; apply N1; discriminate].
      destruct m2; [|exfalso; apply Hs; right; left; apply N2; discriminate].
      destruct m3; [|exfalso; apply Hs; right; right; apply N3; discriminate]. auto. }
    inversion B1; inversion B2; inversion B3; subst. cbn [app].
    repeat (apply Forall_app; split; [assumption|]). assumption.
Qed.

(** ** Objects *)
Lemma header_object ep (ok : Prop) ht j :
  header_text ep ok ht -> ok -> supported (ep_alg ep) j ->
  header_commas_ok ep ->
  raw_values_ok (keyed_claims (ep_header_claims ep) (ep_header_claims_count ep)) ->
  exists add, (Forall2 asks_for (keyed_claims (ep_header_claims ep) (ep_header_claims_count ep)) add
      /\ Forall2 written (keyed_claims (ep_header_claims ep) (ep_header_claims_count ep)) add)
    /\ json_object (fixed_members j ++ add) ht.
Proof.
  intros (h & t & Hh & Hw & ->) Hok Hj Hc Hr.
  destruct (header_fixed _ _ _ Hh Hj) as (fts & -> & Hf).
  destruct (wrote_text _ _ _ _ Hw Hok) as (ts & Hts & ->).
  destruct (texts_members _ _ Hts Hr) as (ms & Ha & Haw & Hm).
  exists ms. split; [auto|]. unfold header_commas_ok in Hc.
  pose proof (members_join _ _ Hf ltac:(unfold fixed_members; discriminate)) as Hfix.
  rewrite <- !app_assoc. unfold opt_claims. destruct (N.ltb_spec 0 (ep_header_claims_count ep)) as [Hn|Hn].
  - replace (lit "{" ++ join fts ++ (lit "," ++ join ts) ++ lit "}")
      with (lit "{" ++ (join fts ++ lit "," ++ join ts) ++ lit "}") by (rewrite <- !app_assoc; reflexivity).
    apply JO_members. apply json_members_app; auto. apply members_join; auto.
    intros ->. apply (Hc Hn). eapply forall2_nil; [exact Ha|reflexivity].
  - assert (E : ep_header_claims_count ep = 0%N) by lia. rewrite E in Ha.
    assert (ms = []) as ->.
    { apply (forall2_nil _ _ _ Ha). destruct (ep_header_claims ep); reflexivity. }
    rewrite app_nil_r. cbn [app]. apply (JO_members _ (join fts)). exact Hfix.
Qed.

Lemma comma_flag ep :
  comma ep = if existsb (fun b => b) [negb (ep_iat ep =? 0)%Z; negb (ep_exp ep =? 0)%Z;
    negb (ep_nbf ep =? 0)%Z; negb (ep_iss_length ep =? 0)%N; negb (ep_sub_length ep =? 0)%N;
    negb (ep_jti_length ep =? 0)%N; negb (ep_aud_length ep =? 0)%N] then lit "," else [].
Proof. unfold comma. cbn [existsb]. rewrite !orb_false_r, !orb_assoc. reflexivity. Qed.
Lemma comma_cases ep :
  (comma ep = lit "," /\ (some_time ep \/ some_length ep))
  \/ (comma ep = [] /\ ~ (some_time ep \/ some_length ep)).
Proof.
  unfold comma, some_time, some_length.
  destruct (Z.eqb_spec (ep_iat ep) 0); [|left; tauto]. destruct (Z.eqb_spec (ep_exp ep) 0); [|left; tauto].
  destruct (Z.eqb_spec (ep_nbf ep) 0); [|left; tauto].
  destruct (N.eqb_spec (ep_iss_length ep) 0); [|left; tauto].
  destruct (N.eqb_spec (ep_sub_length ep) 0); [|left; tauto].
  destruct (N.eqb_spec (ep_jti_length ep) 0); [|left; tauto].
  destruct (N.eqb_spec (ep_aud_length ep) 0); [|left; tauto]. right. tauto.
Qed.

Lemma payload_object ep (ok : Prop) pt :
  payload_text ep ok pt -> ok -> payload_commas_ok ep ->
  raw_values_ok (keyed_claims (ep_payload_claims ep) (ep_payload_claims_count ep)) ->
  exists reg add, (asks_registered ep reg /\ written_registered ep reg)
    /\ (Forall2 asks_for (keyed_claims (ep_payload_claims ep) (ep_payload_claims_count ep)) add
        /\ Forall2 written (keyed_claims (ep_payload_claims ep) (ep_payload_claims_count ep)) add)
    /\ json_object (reg ++ add) pt.
Proof.
  intros (tbuf & r & t & Htb & Hwr & Hw & ->) Hok Hc Hr.
  destruct (wrote_text _ _ _ _ Hw Hok) as (ts & Hts & ->).
  destruct (wrote_text _ _ _ _ Hwr Hok) as (rts & Hrts & ->).
  cbn [keyed_claims] in Hrts. rewrite firstn_all2 in Hrts by (simpl; lia).
  destruct (registered_members _ _ _ Htb Hrts) as (reg & Hreg & Hrm & Hne & _).
  destruct (texts_members _ _ Hts Hr) as (ms & Ha & Haw & Hm).
  exists reg, ms. split; [exact Hreg|]. split; [auto|].
  unfold opt_claims, payload_commas_ok in *.
  pose proof (forall2_nil _ _ _ Ha) as Hnil.
  destruct (N.ltb_spec 0 (ep_payload_claims_count ep)) as [Hn|Hn].
  - specialize (Hc Hn). destruct (comma_cases ep) as [(-> & Hf)|(-> & Hf)].
    + apply Hc in Hf as [Hs Hk]. apply Hne in Hs.
      replace (lit "{" ++ join rts ++ (lit "," ++ join ts) ++ lit "}")
        with (lit "{" ++ (join rts ++ lit "," ++ join ts) ++ lit "}")
        by (rewrite <- !app_assoc; reflexivity).
      apply JO_members. apply json_members_app; apply members_join; auto; tauto.
    + destruct reg as [|m reg].
      * inversion Hrm; subst. cbn [app join]. destruct ms as [|m ms].
        -- inversion Hm; subst. apply (JO_empty []). auto.
        -- apply JO_members. apply members_join; auto. discriminate.
      * assert (K : keyed_claims (ep_payload_claims ep) (ep_payload_claims_count ep) = []).
        { destruct (keyed_claims (ep_payload_claims ep) (ep_payload_claims_count ep)); [auto|].
          exfalso. apply Hf, Hc. split; [apply Hne; discriminate|discriminate]. }
        apply Hnil in K. subst ms. inversion Hm; subst. cbn [app join]. rewrite !app_nil_r.
        apply JO_members, members_join; auto. discriminate.
  - assert (E : ep_payload_claims_count ep = 0%N) by lia. rewrite E in *.
    assert (ms = []) as ->. { apply Hnil. destruct (ep_payload_claims ep); reflexivity. }
    rewrite app_nil_r. cbn [app]. destruct reg as [|m reg].
    + inversion Hrm; subst. apply (JO_empty []). auto.
    + apply JO_members, members_join; auto. discriminate.
Qed.

(** ** The commas matter *)
Lemma string_texts_no_quote ts : Forall string_text_of ts -> ts <> [] -> forall ms t rest,
  json_members ms t -> t ++ lit "}" <> join ts ++ x22 :: rest.
Proof.
  induction 1 as [|q ts (kb & kd & vb & vd & Hk & Hv & ->) Hts IH]; intros Hn ms t rest Hm E; [contradiction|].
  rewrite join_cons, <- !app_assoc in E.
  destruct (first_string _ _ _ _ _ _ _ Hm Hk Hv E) as (w & y & Hw & E2 & Hy).
  destruct ts as [|q2 ts].
  - cbn [join_more flat_map app] in E2. symmetry in E2. apply ws_head in E2; auto; [|intros Hin; notin Hin].
    destruct E2 as [_ E2]. destruct Hy as [->|(ms' & r & _ & ->)]; discriminate.
  - change (join_more (q2 :: ts)) with (lit "," ++ q2 ++ join_more ts) in E2.
    rewrite <- join_cons in E2. symmetry in E2. apply ws_head in E2; auto; [|intros Hin; notin Hin].
    destruct E2 as [_ E2]. destruct Hy as [->|(ms' & r & Hm' & ->)]; [discriminate|].
    injection E2 as E2. eapply IH; eauto. discriminate.
Qed.
Lemma object_inv ms x : json_object ms (lit "{" ++ x ++ lit "}") ->
  (ms = [] /\ json_ws x) \/ json_members ms x.
Proof.
  intros H. remember (lit "{" ++ x ++ lit "}") as txt eqn:E in H.
  destruct H as [ws Hws|ms t' Hm]; rewrite !app_assoc in E;
    apply app_inj_tail in E as [E _]; injection E as <-; auto.
Qed.
Lemma members_head ms t : json_members ms t -> exists c r, t = c :: r /\ In c [x20; x09; x0a; x0d; x22].
Proof.
  intros H. assert (E : exists w r, json_ws w /\ t = w ++ x22 :: r).
  { inversion H; subst; exists w1; eexists; (split; [assumption|]); reflexivity. }
  destruct E as (w & r & Hw & ->). destruct Hw as [|c w Hc Hw].
  - do 2 eexists. split; [reflexivity|]. simpl. tauto.
  - do 2 eexists. split; [reflexivity|]. simpl in *. tauto.
Qed.

Lemma text_of_quote c t : text_of c t -> exists r, t = x22 :: r.
Proof. intros (k & v & _ & _ & ->). eexists. reflexivity. Qed.

Lemma header_object_conv ep (ok : Prop) ht ms :
  header_text ep ok ht -> ok -> json_object ms ht -> header_commas_ok ep.
Proof.
  intros (h & t & Hh & Hw & ->) Hok Ho Hn E.
  destruct (wrote_text _ _ _ _ Hw Hok) as (ts & Hts & ->).
  rewrite E in Hts. inversion Hts; subst. cbn [join] in Ho.
  unfold opt_claims in Ho. destruct (N.ltb_spec 0 (ep_header_claims_count ep)); [|lia].
  destruct (header_prefix_inv _ _ Hh) as (j & _ & more & ->).
  rewrite app_nil_r, <- !app_assoc in Ho.
  eapply (no_trailing_comma ms (quoted (lit "alg") ++ lit ":" ++ quoted (j_name j) ++ more)).
  rewrite <- !app_assoc. exact Ho.
Qed.
Lemma payload_object_conv ep (ok : Prop) pt ms :
  payload_text ep ok pt -> ok -> json_object ms pt -> payload_commas_ok ep.
Proof.
  intros (tbuf & r & t & Htb & Hwr & Hw & ->) Hok Ho Hn.
  destruct (wrote_text _ _ _ _ Hw Hok) as (ts & Hts & ->).
  destruct (wrote_text _ _ _ _ Hwr Hok) as (rts & Hrts & ->).
  cbn [keyed_claims] in Hrts. rewrite firstn_all2 in Hrts by (simpl; lia).
  destruct (registered_members _ _ _ Htb Hrts) as (reg & Hreg & Hrm & Hne & Hstr).
  unfold opt_claims in Ho. destruct (N.ltb_spec 0 (ep_payload_claims_count ep)); [|lia].
  pose proof (forall2_nil _ _ _ Hts) as Hnil. pose proof (forall2_nil _ _ _ Hrm) as Hrnil.
  destruct (comma_cases ep) as [(Ec & Hf)|(Ec & Hf)]; rewrite Ec in Ho.
  - split; [|auto]. intros _.
    assert (Hk : ts <> []).
    { intros ->. cbn [join] in Ho. rewrite app_nil_r in Ho. exact (no_trailing_comma _ _ Ho). }
    assert (Hr : rts <> []).
    { intros ->. cbn [join app] in Ho.
      change (lit "{" ++ lit "," ++ join ts ++ lit "}") with (lit "{" ++ (lit "," ++ join ts) ++ lit "}") in Ho.
      apply object_inv in Ho as [[_ Ho]|Ho].
      - inversion Ho as [|? ? Hin]; subst. notin Hin.
      - destruct (members_head _ _ Ho) as (c & u & E & Hin). injection E as <- _. notin Hin. }
    tauto.
  - split; [tauto|]. intros (Hs & Hk). exfalso.
    assert (Hr : rts <> []) by tauto. assert (Ht : ts <> []) by tauto.
    destruct ts as [|q ts]; [contradiction|].
    assert (Hq : exists u, q = x22 :: u) by (inversion Hts; subst; eapply text_of_quote; eauto).
    destruct Hq as (u & ->). rewrite join_cons in Ho. cbn [app] in Ho.
    assert (Hx : exists z, join rts = x22 :: z).
    { destruct rts as [|q rts]; [contradiction|]. rewrite join_cons.
      assert (Hq : exists u, q = x22 :: u) by (inversion Hrts; subst; eapply text_of_quote; eauto).
      destruct Hq as (u' & ->). eexists. reflexivity. }
    change (lit "{" ++ join rts ++ x22 :: (u ++ join_more ts) ++ lit "}")
      with (lit "{" ++ join rts ++ (x22 :: (u ++ join_more ts)) ++ lit "}") in Ho.
    rewrite (app_assoc (join rts)) in Ho.
    apply object_inv in Ho as [[_ Ho]|Ho].
    + destruct Hx as (z & Hx). rewrite Hx in Ho. inversion Ho as [|? ? Hin]; subst. notin Hin.
    + apply (string_texts_no_quote rts) with (ms := ms) (t := join rts ++ x22 :: u ++ join_more ts)
        (rest := (u ++ join_more ts) ++ lit "}"); auto.
      rewrite <- !app_assoc. cbn [app]. rewrite <- !app_assoc. reflexivity.
Qed.

(** ** base64url text *)
Lemma groups_six n : forall l, (length l <= n)%nat -> Forall (fun g => length g = 6%nat) (six_bit_groups l).
Proof.
  induction n as [|n IH]; intros l Hl.
  - destruct l; [constructor|simpl in Hl; lia].
  - destruct l as [|b0 [|b1 [|b2 [|b3 [|b4 [|b5 l]]]]]];
      try (constructor; [reflexivity|constructor]); [constructor|].
    cbn [six_bit_groups]. constructor; [reflexivity|]. apply IH. simpl in Hl. lia.
Qed.
Lemma six_value g : length g = 6%nat -> (value_of_bits g < 64)%N.
Proof.
  intros H. destruct g as [|b0 [|b1 [|b2 [|b3 [|b4 [|b5 [|b6 g]]]]]]]; try discriminate.
  unfold value_of_bits. cbn [fold_left].
  destruct b0, b1, b2, b3, b4, b5; vm_compute; reflexivity.
Qed.
Lemma b64url_alphabet s : Forall (fun c => In c (rfc4648_alphabet true)) (b64url s).
Proof.
  unfold b64url, rfc4648_unpadded. apply Forall_map.
  eapply Forall_impl; [|apply (groups_six _ _ (le_n _))]. intros g Hg. cbn beta.
  apply nth_In. change (length (rfc4648_alphabet true)) with 64%nat.
  apply six_value in Hg. lia.
Qed.
Lemma b64url_nonempty s : s <> [] -> b64url s <> [].
Proof.
  intros Hs E. pose proof (unpadded_length true s) as L. unfold b64url in E. rewrite E in L.
  destruct s; [contradiction|]. cbn [length] in L. lia.
Qed.
