(** * Property C61: tokens with the same text were asked for with the same claims *)
From Verif Require Import Base BaseProofs HeapProofs Util UtilProofs Claim Base64 SpecB64
  Base64EncProofs Base64EncApi Base64DecProofs Base64Api UnescapeProofs Jsmn Env Encode Decode SpecJson SpecJwa ClaimProofs EncodeProofs
  SignProofs EncodeTotal SpecEnc JsonProofs JsonUnique PropEncode DecodeProofs DecodeInv JsmnProofs ParseProofs
  PropClaim ReadProofs ValidateProofs JsmnJson DecodeTotal PropVerify PropValidate PropJson PropRoundTrip LocalProofs.
From Coq Require Import ZifyBool ZifyNat ZifyN.
Ltac Zify.zify_post_hook ::= Z.div_mod_to_equations.

(** ** Specification *)
(** Two additional claims that say the same: the same name, and the same value. A string claim's
    value is text; another claim's value is JSON, with the whitespace around it not counted; a JSON
    string and a string claim say the same if the one spells the text of the other. *)
Definition is_string_claim (c : claim) : bool := (c_type c =? L8W8JWT_CLAIM_TYPE_STRING)%Z.
Definition trims (v t : bytes) : Prop := exists w1 w2, json_ws w1 /\ json_ws w2 /\ v = w1 ++ t ++ w2.
Definition same_claim (c c' : claim) : Prop :=
  exists k v v', given (c_key c) (c_key_length c) k /\ given (c_key c') (c_key_length c') k
    /\ given (c_value c) (c_value_length c) v /\ given (c_value c') (c_value_length c') v'
    /\ match is_string_claim c, is_string_claim c' with
       | true, true => v = v'
       | false, false => exists t, trims v t /\ trims v' t
       | true, false => exists t, json_body t v /\ trims v' (quoted t)
       | false, true => exists t, trims v (quoted t) /\ json_body t v'
       end.
(** A registered claim given as a string: absent in both, or the same text. *)
Definition same_string (q : ptr) (n : N) (q' : ptr) (n' : N) : Prop :=
  (q = Null /\ q' = Null) \/ exists v, given q n v /\ given q' n' v.
(** Values of the C type [time_t]. *)
Definition is_time (t : Z) : Prop := (- 2 ^ 63 <= t < 2 ^ 63)%Z.
Definition header_claims (ep : enc_params) : list claim := keyed_claims (ep_header_claims ep) (ep_header_claims_count ep).
Definition payload_claims (ep : enc_params) : list claim := keyed_claims (ep_payload_claims ep) (ep_payload_claims_count ep).
Definition registered : list bytes := [lit "iat"; lit "nbf"; lit "exp"; lit "sub"; lit "iss"; lit "aud"; lit "jti"].
(** No additional claim has one of the seven registered names. *)
Definition own_names (cs : list claim) : Prop :=
  Forall (fun c => forall k, given (c_key c) (c_key_length c) k -> ~ In k registered) cs.
(** A request whose claims come out as JSON (C11 says what happens otherwise). *)
Definition well_posed (ep : enc_params) : Prop :=
  header_commas_ok ep /\ payload_commas_ok ep /\ raw_values_ok (header_claims ep) /\ raw_values_ok (payload_claims ep).
(** [ep] asks for the payload members [ms]. *)
Definition asks_payload (ep : enc_params) (ms : list member) : Prop :=
  exists reg add, ms = reg ++ add /\ asks_registered ep reg /\ Forall2 asks_for (payload_claims ep) add.
Definition same_registered (ep ep' : enc_params) : Prop :=
  (is_time (ep_iat ep) -> is_time (ep_iat ep') -> ep_iat ep = ep_iat ep')
  /\ (is_time (ep_nbf ep) -> is_time (ep_nbf ep') -> ep_nbf ep = ep_nbf ep')
  /\ (is_time (ep_exp ep) -> is_time (ep_exp ep') -> ep_exp ep = ep_exp ep')
  /\ same_string (ep_sub ep) (ep_sub_length ep) (ep_sub ep') (ep_sub_length ep')
  /\ same_string (ep_iss ep) (ep_iss_length ep) (ep_iss ep') (ep_iss_length ep')
  /\ same_string (ep_aud ep) (ep_aud_length ep) (ep_aud ep') (ep_aud_length ep')
  /\ same_string (ep_jti ep) (ep_jti_length ep) (ep_jti ep') (ep_jti_length ep').

(** ** Lemmas *)
Lemma quoted_inj b b' : quoted b = quoted b' -> b = b'.
Proof. unfold quoted. intros E. assert (E' : b ++ [x22] = b' ++ [x22]) by congruence. apply app_inj_tail in E'. tauto. Qed.
Lemma asks_same c c' m : asks_for c m -> asks_for c' m -> same_claim c c'.
Proof.
  intros (k & v & K & V & B & S & R) (k' & v' & K' & V' & B' & S' & R').
  pose proof (json_body_det _ _ B _ B') as <-. exists k, v, v'. repeat (split; [assumption|]).
  unfold is_string_claim. destruct (Z.eqb_spec (c_type c) L8W8JWT_CLAIM_TYPE_STRING) as [T|T];
    destruct (Z.eqb_spec (c_type c') L8W8JWT_CLAIM_TYPE_STRING) as [T'|T'].
  - destruct (S T) as (_ & b & Hb & E). destruct (S' T') as (_ & b' & Hb' & E'). rewrite E in E'. apply quoted_inj in E' as <-.
    exact (json_body_det _ _ Hb _ Hb').
  - destruct (S T) as (_ & b & Hb & E). destruct (R' T') as (_ & w1 & w2 & W1 & W2 & Ev). rewrite E in Ev.
    exists b. split; [exact Hb|]. exists w1, w2. auto.
  - destruct (S' T') as (_ & b & Hb & E). destruct (R T) as (_ & w1 & w2 & W1 & W2 & Ev). rewrite E in Ev.
    exists b. split; [|exact Hb]. exists w1, w2. auto.
  - destruct (R T) as (_ & w1 & w2 & W1 & W2 & Ev). destruct (R' T') as (_ & w1' & w2' & W1' & W2' & Ev').
    exists (m_value m). split; [exists w1, w2|exists w1', w2']; auto.
Qed.
Lemma asks_all cs cs' ms : Forall2 asks_for cs ms -> Forall2 asks_for cs' ms -> Forall2 same_claim cs cs'.
Proof.
  intros H. revert cs'. induction H as [|c m cs ms Hc H IH]; intros cs' H'; inversion H' as [|c' m' cs1 ms1 Hc' H1]; subst; constructor; auto.
  eapply asks_same; eauto.
Qed.
Lemma split_at {A} (P : A -> Prop) w w' x y : w ++ x = w' ++ y ->
  Forall P w -> Forall P w' -> Forall (fun c => ~ P c) x -> Forall (fun c => ~ P c) y -> w = w' /\ x = y.
Proof.
  intros E H H' Hx Hy. revert w' H' Hx Hy E. induction H as [|c w Hc Hw IH]; intros w' H' Hx Hy E; destruct H' as [|c' w' Hc' Hw']; cbn [app] in E.
  - auto.
  - subst x. inversion Hx; subst. contradiction.
  - subst y. inversion Hy; subst. contradiction.
  - injection E as -> E. destruct (IH w' Hw' Hx Hy E) as [-> ->]. auto.
Qed.
Lemma unpadded_inj s s' : s <> [] -> s' <> [] -> rfc4648_unpadded true s = rfc4648_unpadded true s' -> s = s'.
Proof.
  intros H H' E. destruct (text_b64_decodes s H) as (t & D). destruct (text_b64_decodes s' H') as (t' & D').
  rewrite E in D. destruct (b64_decodes_fun _ _ _ _ _ D D'). auto.
Qed.
Lemma at_dot a : forall a' x x', no_dot a -> no_dot a' -> a ++ lit "." ++ x = a' ++ lit "." ++ x' -> a = a' /\ x = x'.
Proof.
  unfold no_dot. induction a as [|c a IH]; intros [|c' a'] x x' N N' E; cbn in E.
  - injection E as ->. auto.
  - exfalso. injection E as E1 _. subst c'. apply N'. left. reflexivity.
  - exfalso. injection E as E1 _. subst c. apply N. left. reflexivity.
  - injection E as -> E. destruct (IH a' x x') as [-> ->]; auto; intros I; [apply N|apply N']; right; exact I.
Qed.
Lemma same_fixed alg alg' j j' a a' : supported alg j -> supported alg' j' -> fixed_members j ++ a = fixed_members j' ++ a' ->
  alg = alg' /\ a = a'.
Proof.
  intros [H <-] [H' <-] E. vm_compute in H, H'.
  assert (En : j_name j = j_name j').
  { unfold fixed_members in E. cbn [app] in E. injection E as E _. apply app_inj_tail in E. tauto. }
  assert (j = j').
  { decompose [or] H; try contradiction; subst; decompose [or] H'; try contradiction; subst; try reflexivity; discriminate En. }
  subst. split; [reflexivity|]. eapply app_inv_head; exact E.
Qed.

(** The names of the registered members. *)
Definition named (n : bytes) (m : member) : Prop := m_key m = n.
Lemma time_named n t ms : asks_time n t ms -> Forall (named n) ms.
Proof. intros [(_ & ->)|(_ & d & -> & _)]; repeat constructor. Qed.
Lemma string_named n q l ms : asks_string n q l ms -> Forall (named n) ms.
Proof. intros [(_ & ->)|(v & b & _ & _ & ->)]; repeat constructor. Qed.
Lemma named_other n n' ms : n <> n' -> Forall (named n') ms -> Forall (fun m => ~ named n m) ms.
Proof. intros H. apply Forall_impl. unfold named. congruence. Qed.
Lemma name_body n : In n registered -> json_body n n.
Proof. intros H. vm_compute in H. decompose [or] H; try contradiction; subst; js_body. Qed.
Lemma own_members cs ms : own_names cs -> Forall2 asks_for cs ms -> Forall (fun m => ~ In (m_key m) registered) ms.
Proof.
  intros H H2. revert H. induction H2 as [|c m cs ms Hc _ IH]; intros H; inversion H as [|? ? Ho Hr]; subst; constructor; auto.
  destruct Hc as (k & v & K & _ & B & _). intros I. apply (Ho k K).
  rewrite <- (json_body_det _ _ (name_body _ I) _ B). exact I.
Qed.
Lemma time_agrees n t t' ms : asks_time n t ms -> asks_time n t' ms -> is_time t -> is_time t' -> t = t'.
Proof.
  unfold is_time. intros [(-> & E)|(N & d & E & _ & _ & V)] [(-> & E')|(N' & d' & E' & _ & _ & V')] T T'; subst; try discriminate; auto.
  injection E' as <-. rewrite V in V'.
  assert (M : (t mod 2 ^ 64 = t' mod 2 ^ 64)%Z).
  { apply Z2N.inj; auto; apply Z.mod_pos_bound; reflexivity. }
  change (2 ^ 64)%Z with 18446744073709551616%Z in M. change (2 ^ 63)%Z with 9223372036854775808%Z in *. lia.
Qed.
Lemma string_agrees n q l q' l' ms : asks_string n q l ms -> asks_string n q' l' ms -> same_string q l q' l'.
Proof.
  intros [(-> & E)|(v & b & G & B & E)] [(-> & E')|(v' & b' & G' & B' & E')]; subst; try discriminate.
  - left. auto.
  - right. injection E' as E'. apply app_inj_tail in E' as [<- _]. rewrite (json_body_det _ _ B' _ B) in G'. eauto.
Qed.
Lemma registered_agree ep ep' ms : asks_registered ep ms -> asks_registered ep' ms -> same_registered ep ep'.
Proof.
  intros (a & b & c & d & f & g & h & E & A & B & C & D & F & G & H)
         (a' & b' & c' & d' & f' & g' & h' & E' & A' & B' & C' & D' & F' & G' & H'). rewrite E in E'. clear E.
  pose proof (time_named _ _ _ A) as NA. pose proof (time_named _ _ _ B) as NB. pose proof (time_named _ _ _ C) as NC.
  pose proof (string_named _ _ _ _ D) as ND. pose proof (string_named _ _ _ _ F) as NF.
  pose proof (string_named _ _ _ _ G) as NG. pose proof (string_named _ _ _ _ H) as NH.
  pose proof (time_named _ _ _ A') as NA'. pose proof (time_named _ _ _ B') as NB'. pose proof (time_named _ _ _ C') as NC'.
  pose proof (string_named _ _ _ _ D') as ND'. pose proof (string_named _ _ _ _ F') as NF'.
  pose proof (string_named _ _ _ _ G') as NG'. pose proof (string_named _ _ _ _ H') as NH'.
  Ltac others := repeat (apply Forall_app; split); (eapply named_other; [|eassumption]; discriminate).
  destruct (split_at (named _) _ _ _ _ E' NA NA' ltac:(others) ltac:(others)) as [<- E1].
  destruct (split_at (named _) _ _ _ _ E1 NB NB' ltac:(others) ltac:(others)) as [<- E2].
  destruct (split_at (named _) _ _ _ _ E2 NC NC' ltac:(others) ltac:(others)) as [<- E3].
  destruct (split_at (named _) _ _ _ _ E3 ND ND' ltac:(others) ltac:(others)) as [<- E4].
  destruct (split_at (named _) _ _ _ _ E4 NF NF' ltac:(others) ltac:(others)) as [<- E5].
  destruct (split_at (named _) _ _ _ _ E5 NG NG' ltac:(others) ltac:(others)) as [<- <-].
  split; [exact (time_agrees _ _ _ _ A A')|]. split; [exact (time_agrees _ _ _ _ B B')|]. split; [exact (time_agrees _ _ _ _ C C')|].
  split; [exact (string_agrees _ _ _ _ _ _ D D')|]. split; [exact (string_agrees _ _ _ _ _ _ F F')|].
  split; [exact (string_agrees _ _ _ _ _ _ G G')|exact (string_agrees _ _ _ _ _ _ H H')].
Qed.
Lemma registered_named ep ms : asks_registered ep ms -> Forall (fun m => In (m_key m) registered) ms.
Proof.
  intros (a & b & c & d & f & g & h & -> & A & B & C & D & F & G & H).
  assert (I : forall n ms, In n registered -> Forall (named n) ms -> Forall (fun m => In (m_key m) registered) ms).
  { intros n l Hn. apply Forall_impl. intros m <-. exact Hn. }
  repeat (apply Forall_app; split);
    (eapply I; [|first [eapply time_named; eassumption|eapply string_named; eassumption]]); vm_compute; tauto.
Qed.

(** ** C61 *)
(** Two successful calls, on any platforms, with any keys, in any state of the heap, that return the
    same text: they named the same algorithm, their additional header claims say the same one by
    one, and they ask for the same payload members. If neither gives a registered name to an
    additional payload claim, the registered claims agree and so do the additional ones, one by one.
    Missing: requests that are not well posed, and the registered names; see the next theorem. *)
Theorem C61_same_token_same_claims_partial :
  forall p e ep w r w1 p' e' ep' w' r' w1' b b' text,
    (6 <= p_size_bits p)%N -> wf w -> appended w w1 -> allocated w w1 ->
    (6 <= p_size_bits p')%N -> wf w' -> appended w' w1' -> allocated w' w1' ->
    l8w8jwt_encode p e (Some ep) w = Ret r w1 -> er_rc r = L8W8JWT_SUCCESS ->
    l8w8jwt_encode p' e' (Some ep') w' = Ret r' w1' -> er_rc r' = L8W8JWT_SUCCESS ->
    er_out r = Some (Ptr b text) -> er_out r' = Some (Ptr b' text) ->
    well_posed ep -> well_posed ep' ->
    ep_alg ep = ep_alg ep'
    /\ Forall2 same_claim (header_claims ep) (header_claims ep')
    /\ (exists ms, asks_payload ep ms /\ asks_payload ep' ms)
    /\ (own_names (payload_claims ep) -> own_names (payload_claims ep') ->
        same_registered ep ep' /\ Forall2 same_claim (payload_claims ep) (payload_claims ep')).
Proof.
  intros p e ep w r w1 p' e' ep' w' r' w1' b b' text Hp Hwf Hg Ha Hp' Hwf' Hg' Ha' H Hrc H' Hrc' Ho Ho' (C1 & C2 & C3 & C4) (D1 & D2 & D3 & D4).
  as_unlimited (local_encode p e (Some ep)) H Hg Ha. as_unlimited (local_encode p' e' (Some ep')) H' Hg' Ha'.
  apply encode_inv in H as [(X & _)|(_ & _ & id & t & O & _ & _ & _ & _ & _ & Ht)]; auto; [congruence|].
  apply encode_inv in H' as [(X & _)|(_ & _ & id' & t' & O' & _ & _ & _ & _ & _ & Ht')]; auto; [congruence|].
  destruct (Ht Hg) as (ht & pt & sig & Hh & Hpt & _ & (j & k & Hj & _) & Et).
  destruct (Ht' Hg') as (ht' & pt' & sig' & Hh' & Hpt' & _ & (j' & k' & Hj' & _) & Et').
  destruct (header_object _ _ _ _ Hh Ha Hj C1 C3) as (hadd & (A1 & _) & O1).
  destruct (payload_object _ _ _ Hpt Ha C2 C4) as (reg & padd & (A2 & _) & (A3 & _) & O2).
  destruct (header_object _ _ _ _ Hh' Ha' Hj' D1 D3) as (hadd' & (A1' & _) & O1').
  destruct (payload_object _ _ _ Hpt' Ha' D2 D4) as (reg' & padd' & (A2' & _) & (A3' & _) & O2').
  assert (E : t = t').
  { rewrite O in Ho. rewrite O' in Ho'. injection Ho as _ Ho. injection Ho' as _ Ho'. rewrite <- Ho' in Ho. apply app_inj_tail in Ho. tauto. }
  subst t t'. unfold b64url in E.
  destruct (unpadded_clean ht) as [N1 _]. destruct (unpadded_clean pt) as [N2 _].
  destruct (unpadded_clean ht') as [N1' _]. destruct (unpadded_clean pt') as [N2' _].
  rewrite <- ?app_assoc in E.
  destruct (at_dot _ _ _ _ N1 N1' E) as [E1 E2]. destruct (at_dot _ _ _ _ N2 N2' E2) as [E3 _].
  apply unpadded_inj in E1; [|eapply object_not_empty; eassumption|eapply object_not_empty; eassumption].
  apply unpadded_inj in E3; [|eapply object_not_empty; eassumption|eapply object_not_empty; eassumption].
  subst ht' pt'. pose proof (json_object_fun _ _ _ O1 O1') as M1. pose proof (json_object_fun _ _ _ O2 O2') as M2.
  destruct (same_fixed _ _ _ _ _ _ Hj Hj' M1) as [Ealg <-].
  split; [exact Ealg|]. split; [exact (asks_all _ _ _ A1 A1')|].
  split; [exists (reg ++ padd); split; [exists reg, padd|exists reg', padd']; auto|].
  intros W W'.
  destruct (split_at (fun m => In (m_key m) registered) _ _ _ _ M2 (registered_named _ _ A2) (registered_named _ _ A2')
    (own_members _ _ W A3) (own_members _ _ W' A3')) as [<- <-].
  split; [exact (registered_agree _ _ _ A2 A2')|exact (asks_all _ _ _ A3 A3')].
Qed.
Print Assumptions C61_same_token_same_claims_partial.

(** Without the conditions the claims are not determined by the text. The issuer as parameter or as
    additional claim: the same token. A value of a type other than string is copied unchecked, so
    one claim can pass for two. *)
Definition ep_claims (iss : ptr) (n : N) (cs : list claim) : enc_params :=
  EncParams 0 iss n Null 0 Null 0 Null 0 0 0 0 CNull 0 (CArr None cs) (N.of_nat (length cs)) (zstr "secret") 6 Null 0 true true.
Definition ep_iss_param : enc_params := ep_with (zstr "me") 2 (zstr "secret") 6 0.
Definition ep_iss_claim : enc_params := ep_claims Null 0 [Claim (zstr "iss") 3 (zstr "me") 2 0].
Definition ep_one_claim : enc_params := ep_claims Null 0 [Claim (zstr "a") 1 (zstr "1,""admin"":true") 14 1].
Definition ep_two_claims : enc_params := ep_claims Null 0 [Claim (zstr "a") 1 (zstr "1") 1 1; Claim (zstr "admin") 5 (zstr "true") 4 3].
Theorem C61_same_token_other_claims_refuted :
  (exists text, outcome (l8w8jwt_encode pe toy (Some ep_iss_param) we) = Some (L8W8JWT_SUCCESS, text)
     /\ outcome (l8w8jwt_encode pe toy (Some ep_iss_claim) we) = Some (L8W8JWT_SUCCESS, text)
     /\ well_posed ep_iss_param /\ well_posed ep_iss_claim
     /\ ~ same_registered ep_iss_param ep_iss_claim
     /\ ~ Forall2 same_claim (payload_claims ep_iss_param) (payload_claims ep_iss_claim))
  /\ (exists text, outcome (l8w8jwt_encode pe toy (Some ep_one_claim) we) = Some (L8W8JWT_SUCCESS, text)
     /\ outcome (l8w8jwt_encode pe toy (Some ep_two_claims) we) = Some (L8W8JWT_SUCCESS, text)
     /\ own_names (payload_claims ep_one_claim) /\ own_names (payload_claims ep_two_claims)
     /\ ~ Forall2 same_claim (payload_claims ep_one_claim) (payload_claims ep_two_claims)).
Proof.
  split.
  - eexists. split; [vm_compute; reflexivity|]. split; [vm_compute; reflexivity|].
    split; [|split; [|split]].
    + split; [intros X; vm_compute in X; discriminate|]. split; [intros X; vm_compute in X; discriminate|]. split; constructor.
    + split; [intros X; vm_compute in X; discriminate|]. split; [|split; [constructor|]].
      * intros _. split.
        -- intros [[X|[X|X]]|[X|[X|[X|X]]]]; exfalso; apply X; reflexivity.
        -- intros ([[X|[X|X]]|[X|[X|[X|X]]]] & _); exfalso; apply X; reflexivity.
      * repeat constructor. intros X. exfalso. apply X. reflexivity.
    + intros (_ & _ & _ & _ & [(X & _)|(v & _ & X)] & _); [discriminate X|exact X].
    + intros X. inversion X.
  - eexists. split; [vm_compute; reflexivity|]. split; [vm_compute; reflexivity|].
    split; [|split].
    + constructor; [|constructor]. intros k (_ & ->) I. vm_compute in I. decompose [or] I; try discriminate; contradiction.
    + constructor; [|constructor; [|constructor]]; intros k (_ & ->) I; vm_compute in I; decompose [or] I; try discriminate; contradiction.
    + intros X. inversion X as [|? ? ? ? _ Y]; subst. inversion Y.
Qed.
Print Assumptions C61_same_token_other_claims_refuted.

(** Non-vacuous: two different well-posed requests, the second with the strings in larger buffers,
    lengths instead of terminators, and a JSON string instead of a string claim, return the same text. *)
Definition ep_same_a : enc_params :=
  EncParams 0 (zstr "me") 2 Null 0 Null 0 Null 0 2000 0 0 (CArr None [Claim (zstr "kid") 0 (zstr "k1") 0 0]) 1
    (CArr None [Claim (zstr "age") 3 (zstr "27") 0 1; Claim (zstr "city") 4 (zstr "Bern") 4 0]) 2 (zstr "secret") 6 Null 0 true true.
Definition ep_same_b : enc_params :=
  EncParams 0 (zstr "mean") 2 Null 0 Null 0 Null 0 2000 0 0 (CArr None [Claim (zstr "kidney") 3 (zstr "k12") 2 0]) 1
    (CArr None [Claim (zstr "age") 0 (zstr "27") 2 2; Claim Null 0 Null 0 0; Claim (zstr "city") 4 (zstr """Bern""") 0 7]) 3
    (zstr "secret") 6 Null 0 true true.
Example C61_example :
  (exists text, outcome (l8w8jwt_encode pe toy (Some ep_same_a) we) = Some (L8W8JWT_SUCCESS, text)
     /\ outcome (l8w8jwt_encode pe toy (Some ep_same_b) we) = Some (L8W8JWT_SUCCESS, text))
  /\ well_posed ep_same_a /\ well_posed ep_same_b /\ own_names (payload_claims ep_same_a) /\ own_names (payload_claims ep_same_b)
  /\ wf we /\ grows we /\ allocs we.
Proof.
  assert (Num : json_value KNumber (lit "27")).
  { apply JV_number. apply (JN [] (lit "27") [] []); [left; reflexivity| |constructor|constructor].
    apply JI_pos; [vm_compute; auto|discriminate|constructor; [vm_compute; auto 12|constructor]]. }
  assert (Given : forall s r v, no_nul (lit s) -> given (Ptr None (lit s ++ x00 :: r)) 0 v -> v = lit s).
  { intros s r v Hn Hv. apply (given_det _ _ _ _ Hv). exists r. auto. }
  assert (Nul : forall l : bytes, forallb (fun c => negb (Byte.eqb c x00)) l = true -> no_nul l).
  { intros l Hl I. rewrite forallb_forall in Hl. apply Hl in I. discriminate. }
  split; [eexists; split; vm_compute; reflexivity|].
  split; [|split; [|split; [|split]]].
  - split; [intros _; discriminate|]. split; [intros _; split; [intros _; split; [left; right; right; discriminate|discriminate]|intros _; left; right; right; discriminate]|].
    split; [repeat constructor; intros X; exfalso; apply X; reflexivity|].
    constructor; [|constructor; [intros X; exfalso; apply X; reflexivity|constructor]].
    intros _ v Hv. apply (Given "27"%string []) in Hv; [|apply Nul; reflexivity]. subst v.
    exists [], KNumber, (lit "27"), []. split; [constructor|]. split; [exact Num|]. split; [constructor|reflexivity].
  - split; [intros _; discriminate|]. split; [intros _; split; [intros _; split; [left; right; right; discriminate|discriminate]|intros _; left; right; right; discriminate]|].
    split; [repeat constructor; intros X; exfalso; apply X; reflexivity|].
    constructor; [|constructor; [|constructor]].
    + intros _ v (_ & ->). exists [], KNumber, (lit "27"), []. split; [constructor|]. split; [exact Num|]. split; [constructor|reflexivity].
    + intros _ v Hv. apply (Given """Bern"""%string []) in Hv; [|apply Nul; reflexivity]. subst v.
      exists [], KString, (quoted (lit "Bern")), []. split; [constructor|]. split; [eapply JV_string; js_body|]. split; [constructor|reflexivity].
  - constructor; [|constructor; [|constructor]]; intros k (_ & ->) I; vm_compute in I; decompose [or] I; try discriminate; contradiction.
  - constructor; [|constructor; [|constructor]].
    + intros k Hk. apply (Given "age"%string []) in Hk; [|apply Nul; reflexivity]. subst k.
      intros I; vm_compute in I; decompose [or] I; try discriminate; contradiction.
    + intros k (_ & ->) I; vm_compute in I; decompose [or] I; try discriminate; contradiction.
  - split; [exact we_wf|]. split; intros k; reflexivity.
Qed.
