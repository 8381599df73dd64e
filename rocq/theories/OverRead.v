(** * Lemmas: what claim parsing does at the end of the token array *)
From Verif Require Import Base BaseProofs HeapProofs Util UtilProofs Claim Base64 SpecB64
  Base64EncApi Base64DecProofs Base64Api Jsmn Env Encode Decode SpecJson SpecJwa ClaimProofs UnescapeProofs
  SignProofs DecodeProofs DecodeInv JsmnProofs ParseProofs PropClaim ReadProofs ValidateProofs JsmnJson EncodeTotal
  DecodeTotal DecodeOk.
From Coq Require Import ZifyBool ZifyNat ZifyN Permutation.
Ltac Zify.zify_post_hook ::= Z.div_mod_to_equations.
Local Opaque L8W8JWT_MAX_KEY_SIZE.

(** Skipping the tokens of a container that ends the text: the element behind the last token is
    looked at, and one more if that one happens to end early enough. *)
Lemma skip_last toks cap junk vend : forall inner pre fuel,
  toks = pre ++ inner -> pre <> [] -> (Z.of_nat (length toks) <= cap)%Z ->
  Forall (fun x => (t_end x <= vend)%Z) inner -> (length inner + 2 <= fuel)%nat ->
  let r := Z.of_nat (length toks) in
  skip_nested fuel (TokArr toks cap junk) r vend (Z.of_nat (length pre) - 1)
  = if (cap <=? r)%Z then KO OOBRead
    else if (t_end (junk r) <=? vend)%Z then (if (cap <=? r + 1)%Z then KO OOBRead else OK r) else OK (r - 1)%Z.
Proof.
  induction inner as [|x inner IH]; intros pre fuel E Hp Hcap Hi Hf r.
  - rewrite app_nil_r in E. assert (Er : r = Z.of_nat (length pre)) by (unfold r; rewrite E; reflexivity).
    destruct fuel as [|[|f]]; [simpl in Hf; lia|simpl in Hf; lia|]. cbn [skip_nested].
    rewrite <- Er. replace (r - 1 + 1)%Z with r by lia. unfold tok_at. cbn [ta_cap ta_toks ta_junk].
    assert (Hpos : (0 < r)%Z) by (destruct pre; [congruence|rewrite Er; cbn [length]; lia]).
    assert (O1 : nth (Z.to_nat r) toks (junk r) = junk r) by (apply nth_overflow; unfold r; lia).
    rewrite O1. destruct (Z.ltb_spec r 0) as [H|H]; [lia|clear H]. cbn [orb].
    destruct (Z.leb_spec cap r) as [C|C]; [reflexivity|]. cbn [ubind].
    destruct (Z.leb_spec (t_end (junk r)) vend) as [V|V]; [|reflexivity].
    replace (r - 1 <? r)%Z with true by lia. cbn [andb].
    destruct (Z.ltb_spec (r + 1) 0) as [H|H]; [lia|clear H]. cbn [orb].
    destruct (Z.leb_spec cap (r + 1)); [reflexivity|]. cbn [ubind]. rewrite Z.ltb_irrefl, andb_false_r. reflexivity.
  - destruct fuel as [|f]; [simpl in Hf; lia|]. cbn [skip_nested]. cbn [length] in Hf.
    replace (Z.of_nat (length pre) - 1 + 1)%Z with (Z.of_nat (length pre)) by lia.
    assert (L : (Z.of_nat (length pre) < r)%Z) by (unfold r; rewrite E, app_length; cbn [length]; lia).
    unfold tok_at at 1. cbn [ta_cap ta_toks ta_junk].
    destruct ((_ <? 0) || (cap <=? _))%Z eqn:Eb; [unfold r in L; lia|]. cbn [ubind].
    rewrite Nat2Z.id. replace (nth (length pre) toks (junk (Z.of_nat (length pre)))) with x
      by (rewrite E, app_nth2, Nat.sub_diag; [reflexivity|lia]).
    pose proof (Forall_inv Hi) as Hx. pose proof (Forall_inv_tail Hi) as Hi'. cbv beta in Hx.
    destruct (Z.leb_spec (t_end x) vend); [|lia].
    replace (Z.of_nat (length pre) - 1 <? r)%Z with true by lia. cbn [andb].
    unfold r. rewrite <- (IH (pre ++ [x]) f); auto; [|rewrite <- app_assoc; exact E|destruct pre; discriminate|lia].
    f_equal. rewrite app_length. cbn [length]. lia.
Qed.

Section Last.
Variables (e : env) (mem : bytes) (n : nat) (toks : list tok) (cap : Z) (junk : Z -> tok).
Let a := TokArr toks cap junk.
Let r := Z.of_nat (length toks).
Hypothesis Ht : Forall (tok_in n) toks.
Hypothesis Hn : (n <= length mem)%nat.
Hypothesis Hcap : (r <= cap)%Z.

(** Reading the claims of an object whose last member is a container. *)
Lemma read_laid_last m ms : forall pre tl fuel, toks = pre ++ tl -> pre <> [] -> laid mem (ms ++ [m]) tl ->
  Forall member_ok (ms ++ [m]) -> Forall (num_known e) (ms ++ [m]) -> (length tl < fuel)%nat ->
  container (m_kind m) = true ->
  exists vend, (0 <= vend <= Z.of_nat n)%Z /\
  read_claims fuel e mem a r (Z.of_nat (length pre))
  = if (cap <=? r)%Z || ((t_end (junk r) <=? vend) && (cap <=? r + 1))%Z then KO OOBRead
    else OK (L8W8JWT_SUCCESS, map (entry_of e) (ms ++ [m])).
Proof.
  induction ms as [|m0 ms IH]; intros pre tl fuel E Hp Hl Hok Hnum Hf Hc;
    cbn [app] in *; revert E; inversion Hl as [|? ? kt vt inner tl0 Hk1 Hk2 Hv1 Hv2 Hin Hnc Htl Hl' Em Etl]; subst; intros E;
    pose proof (Forall_inv Hok) as Hm; pose proof (Forall_inv_tail Hok) as Hok';
    pose proof (Forall_inv Hnum) as Hnk; pose proof (Forall_inv_tail Hnum) as Hnum';
    cbn [length] in Hf; rewrite app_length in Hf;
    (assert (Lr : r = Z.of_nat (length pre + 2 + length inner + length tl0))
      by (unfold r; rewrite E, app_length; cbn [length]; rewrite app_length; lia));
    (destruct fuel as [|f]; [lia|]); cbn [read_claims];
    (destruct (Z.ltb_spec (Z.of_nat (length pre)) r); [|lia]); cbn [negb];
    unfold a; rewrite (tok_at_app mem n toks cap junk Hn Hcap pre kt _ E); cbn [ubind];
    (assert (E2 : toks = (pre ++ [kt]) ++ vt :: inner ++ tl0) by (rewrite E, <- app_assoc; reflexivity));
    replace (Z.of_nat (length pre) + 1)%Z with (Z.of_nat (length (pre ++ [kt]))) by (rewrite app_length; cbn [length]; lia);
    rewrite (tok_at_app mem n toks cap junk Hn Hcap _ vt _ E2); cbn [ubind]; rewrite Hk1; cbn [jtype_eqb negb];
    replace (r <=? Z.of_nat (length (pre ++ [kt])))%Z with false by (rewrite app_length; cbn [length]; lia); cbn [orb];
    (assert (Hvt : tok_in n vt) by (rewrite Forall_forall in Ht; apply Ht; rewrite E2; apply in_app_iff; right; left; reflexivity)).
  - assert (Et0 : tl0 = []) by (inversion Hl'; reflexivity). rewrite Et0 in *. rewrite app_nil_r in E, E2. cbn [length] in *.
    exists (t_end vt). split; [destruct Hvt as (_ & V1 & V2 & _); lia|].
    assert (S1 := skip_last toks cap junk (t_end vt) inner ((pre ++ [kt]) ++ [vt]) (S (S (Z.to_nat r)))).
    specialize (S1 ltac:(rewrite E2, <- !app_assoc; reflexivity) ltac:(destruct pre; discriminate) Hcap Hin ltac:(lia)). cbv zeta in S1.
    replace (Z.of_nat (length ((pre ++ [kt]) ++ [vt])) - 1)%Z with (Z.of_nat (length (pre ++ [kt]))) in S1
      by (rewrite (app_length (pre ++ [kt])); cbn [length]; lia).
    assert (CT : claim_type e mem a r (Z.of_nat (length (pre ++ [kt]))) vt
      = (i' <-u skip_nested (S (S (Z.to_nat r))) a r (t_end vt) (Z.of_nat (length (pre ++ [kt]))) ;; OK (Some (mtype e m, i')))).
    { unfold claim_type, mtype. rewrite Hv1. destruct (m_kind m); try discriminate Hc; reflexivity. }
    fold a. rewrite CT. fold a r in S1. rewrite S1.
    destruct (Z.leb_spec cap r) as [C|C]; [reflexivity|]. cbn [orb].
    assert (Fin : forall i, (r <= i + 1)%Z -> (0 < f)%nat -> read_claims f e mem a r (i + 1) = OK (L8W8JWT_SUCCESS, [])).
    { intros i Hi Hf'. destruct f as [|f']; [lia|]. cbn [read_claims]. destruct (Z.ltb_spec (i + 1) r); [lia|]. reflexivity. }
    unfold entry_of. cbn [map]. rewrite <- Hk2, <- Hv2.
    destruct (Z.leb_spec (t_end (junk r)) (t_end vt)) as [V|V]; cbn [andb].
    + destruct (Z.leb_spec cap (r + 1)) as [C2|C2]; [reflexivity|]. cbn [ubind]. rewrite Fin by lia. reflexivity.
    + cbn [ubind]. rewrite Fin by lia. reflexivity.
  - assert (Hne : tl0 <> []) by (destruct ms; inversion Hl'; discriminate).
    assert (CT : claim_type e mem a r (Z.of_nat (length (pre ++ [kt]))) vt = OK (Some (mtype e m0, (Z.of_nat (length (pre ++ kt :: vt :: inner)) - 1)%Z))).
    { destruct (container (m_kind m0)) eqn:Ec.
      - destruct (skip_inner mem n toks cap junk Hn Hcap inner ((pre ++ [kt]) ++ [vt]) tl0 (S (S (Z.to_nat r))) (t_end vt)) as (i & S1 & S2 & S3).
        + rewrite E2, <- !app_assoc. reflexivity.
        + destruct pre; discriminate.
        + exact Hin.
        + lia.
        + exact Htl.
        + intros C. congruence.
        + replace (Z.of_nat (length ((pre ++ [kt]) ++ [vt])) - 1)%Z with (Z.of_nat (length (pre ++ [kt]))) in S1
            by (rewrite (app_length (pre ++ [kt])); cbn [length]; lia).
          specialize (S3 Hne).
          replace (((pre ++ [kt]) ++ [vt]) ++ inner) with (pre ++ kt :: vt :: inner) in S3 by (rewrite <- !app_assoc; reflexivity).
          unfold claim_type, mtype. rewrite Hv1.
          replace (Z.of_nat (length (pre ++ kt :: vt :: inner)) - 1)%Z with i by lia. fold a r in S1.
          destruct (m_kind m0); try discriminate Ec; cbn [jtype_of]; rewrite S1; reflexivity.
      - unfold a, r. rewrite (claim_type_laid e mem n toks cap junk Hn m0 _ vt Hm Hnk Hvt Hv1 Hv2 Ec). do 3 f_equal.
        rewrite (Hnc eq_refl), !app_length. cbn [length]. lia. }
    fold a. rewrite CT. cbn [ubind].
    replace (Z.of_nat (length (pre ++ kt :: vt :: inner)) - 1 + 1)%Z with (Z.of_nat (length (pre ++ kt :: vt :: inner))) by lia.
    destruct (IH (pre ++ kt :: vt :: inner) tl0 f) as (vend & Hvend & R); auto.
    + rewrite E, <- app_assoc. reflexivity.
    + destruct pre; discriminate.
    + lia.
    + exists vend. split; [exact Hvend|]. rewrite R. unfold entry_of at 2. cbn [map]. rewrite <- Hk2, <- Hv2.
      destruct (_ || _); reflexivity.
Qed.
End Last.

(** If reading the claims is undefined, so is the loop, memory permitting. *)
Lemma claims_loop_ko p e mem n toks cap r junk : (32 <= p_size_bits p)%N -> (r <= Z.of_nat (length toks))%Z ->
  Forall (tok_in n) toks -> (n <= length mem)%nat -> (Z.of_nat n <= INT_MAX)%Z ->
  forall fuel i c w u, (0 <= i)%Z -> allocs w ->
  read_claims fuel e mem (TokArr toks cap junk) r i = KO u ->
  claims_loop fuel p e mem (TokArr toks cap junk) r i c w = Undef u.
Proof.
  intros Hp Hr Ht Hn Hi. induction fuel as [|f IH]; intros i c w u H0 Ha H; [inversion H; reflexivity|]. cbn [read_claims] in H.
  cbn [claims_loop]. destruct (negb (i <? r)%Z) eqn:Ei; [discriminate|].
  unfold mbind at 1. destruct (tok_at (TokArr toks cap junk) i) as [key|u1] eqn:H1; cbn [ubind lift] in *; [|congruence].
  unfold mbind at 1. destruct (tok_at (TokArr toks cap junk) (i + 1)) as [value|u1] eqn:H2; cbn [ubind lift] in *; [|congruence].
  destruct (_ || _) eqn:Eb; [discriminate|].
  unfold mbind at 1. destruct (claim_type e mem (TokArr toks cap junk) r (i + 1) value) as [ct|u1] eqn:H3; cbn [ubind lift] in *; [|congruence].
  destruct ct as [[type i']|]; [|discriminate].
  pose proof (claim_type_next p e mem n toks cap r junk Hp Hn _ _ _ _ H3) as Hnx.
  destruct (read_claims f e mem (TokArr toks cap junk) r (i' + 1)) as [x|u1] eqn:H4; cbn [ubind] in H; [discriminate|].
  destruct (unescape_tok p mem n toks Hp Hn Hi type key value w) as (km & vm & E1 & E2 & E3);
    [apply (tok_at_real p mem n toks cap r junk Hp Hr Ht Hn i); [lia|exact H1]|apply (tok_at_real p mem n toks cap r junk Hp Hr Ht Hn (i + 1)); [lia|exact H2]|].
  unfold mbind at 1. rewrite E1. cbn [lift]. unfold mbind at 1. rewrite E2. cbn [lift].
  unfold mbind at 1. rewrite E3. unfold unescape_fun. rewrite !Ha. unfold mbind.
  destruct (cb_push_total _ c [Claim (Ptr (Some (w_next w)) (padded (unesc (span mem key)) (N.of_nat (length (span mem key)))))
                       (N.of_nat (length (unesc (span mem key))))
                       (Ptr (Some (S (w_next w))) (padded (claim_value_of type (span mem value)) (N.of_nat (length (span mem value)))))
                       (N.of_nat (length (claim_value_of type (span mem value)))) type] (w_ok (w_ok w))) as (c1 & ->).
  inversion H; subst u1. apply IH; [lia| |exact H4]. intros k. cbn [w_push w_ok w_alloc]. apply Ha.
Qed.

(** The same for l8w8jwt_parse_claims. *)
Lemma parse_claims_ko p e c b mem len w t0 toks :
  uses_jsmn e -> (32 <= p_size_bits p)%N -> (Z.of_N len <= INT_MAX)%Z -> (N.to_nat len <= length mem)%nat -> allocs w ->
  let js := firstn (N.to_nat len) mem in let r := fst (jsmn_parse js None) in
  (0 < r)%Z -> jsmn_parse js (Some r) = (r, t0 :: toks) -> t_type t0 = JObject ->
  read_claims (S (Z.to_nat r)) e mem (token_array e r (t0 :: toks)) r 1 = KO OOBRead ->
  l8w8jwt_parse_claims p e c (Ptr b mem) len w = Undef OOBRead.
Proof.
  intros Hj Hp Hm Ht Ha js r Hpos P T0 R. unfold l8w8jwt_parse_claims. unfold mbind at 1. cbn [deref lift].
  unfold mbind at 1. rewrite take_ok by lia. cbn [lift].
  destruct (Z.ltb_spec INT_MAX (Z.of_N len)); [lia|]. cbv zeta. rewrite !Hj. fold js. fold r.
  destruct (Z.eqb_spec r 0); [lia|]. destruct (Z.ltb_spec r 0); [lia|].
  destruct (jsmn_tokens _ _ _ _ P ltac:(lia)) as [Hlen Htok].
  destruct (before_nul_firstn (N.to_nat len) mem) as (B1 & B2 & B3). fold js in B1, B2, B3.
  assert (G : forall w1 blk, allocs w1 ->
    (let '(r2, toks0) := jsmn_parse js (Some r) in
       if (r2 <? 0)%Z then mret (L8W8JWT_DECODE_FAILED_INVALID_TOKEN_FORMAT, c)
       else t1 <- lift (tok_at (TokArr toks0 (if (r <=? 64)%Z then 64 else r)%Z (e_tok_junk e)) 0) ;;
         '(rc, buffer) <- (if negb (jtype_eqb (t_type t1) JObject)
             then mret (L8W8JWT_DECODE_FAILED_INVALID_TOKEN_FORMAT, c)
             else claims_loop (S (Z.to_nat r2)) p e mem (TokArr toks0 (if (r <=? 64)%Z then 64 else r)%Z (e_tok_junk e)) r2 1 c) ;;
          _ <- (match blk with Some id => free_id id | None => mret tt end) ;;
          mret (rc, buffer)) w1 = Undef OOBRead).
  { intros w1 blk A1. rewrite P. destruct (Z.ltb_spec r 0); [lia|].
    unfold tok_at. cbn [ta_cap ta_toks ta_junk].
    replace ((0 <? 0)%Z || ((if (r <=? 64)%Z then 64 else r) <=? 0)%Z) with false by (destruct (Z.leb_spec r 64); lia).
    unfold mbind at 1. cbn [lift nth Z.to_nat]. rewrite T0. cbn [jtype_eqb negb]. unfold mbind at 1.
    rewrite (claims_loop_ko p e mem _ (t0 :: toks) (if (r <=? 64)%Z then 64 else r)%Z r (e_tok_junk e) Hp ltac:(lia) Htok B3 ltac:(lia)
      (S (Z.to_nat r)) 1 c w1 _ ltac:(lia) A1 R). reflexivity. }
  destruct (r <=? 64)%Z eqn:E64.
  - unfold mbind at 1. unfold mret at 1. apply (G w None); auto.
  - unfold mbind at 1. unfold mbind at 1. rewrite alloc_eq, Ha. cbn [option_map]. unfold mret at 1.
    apply (G (w_ok w) (Some (w_next w))). exact Ha.
Qed.

(** If an allocation may fail: the same, or an error code. *)
Definition or_code (u : ub) (call : res (Z * chillbuff claim)) : Prop :=
  match call with Undef u' => u' = u | Ret x _ => fst x <> L8W8JWT_SUCCESS end.
Lemma claims_loop_ko_any p e mem n toks cap r junk : (32 <= p_size_bits p)%N -> (r <= Z.of_nat (length toks))%Z ->
  Forall (tok_in n) toks -> (n <= length mem)%nat -> (Z.of_nat n <= INT_MAX)%Z ->
  forall fuel i c w u, (0 <= i)%Z ->
  read_claims fuel e mem (TokArr toks cap junk) r i = KO u ->
  or_code u (claims_loop fuel p e mem (TokArr toks cap junk) r i c w).
Proof.
  intros Hp Hr Ht Hn Hi. induction fuel as [|f IH]; intros i c w u H0 H; [inversion H; reflexivity|]. cbn [read_claims] in H.
  cbn [claims_loop]. destruct (negb (i <? r)%Z) eqn:Ei; [discriminate|].
  unfold mbind at 1. destruct (tok_at (TokArr toks cap junk) i) as [key|u1] eqn:H1; cbn [ubind lift] in *; [|unfold mub, or_code; congruence].
  unfold mbind at 1. destruct (tok_at (TokArr toks cap junk) (i + 1)) as [value|u1] eqn:H2; cbn [ubind lift] in *; [|unfold mub, or_code; congruence].
  destruct (_ || _) eqn:Eb; [discriminate|].
  unfold mbind at 1. destruct (claim_type e mem (TokArr toks cap junk) r (i + 1) value) as [ct|u1] eqn:H3; cbn [ubind lift] in *; [|unfold mub, or_code; congruence].
  destruct ct as [[type i']|]; [|discriminate].
  pose proof (claim_type_next p e mem n toks cap r junk Hp Hn _ _ _ _ H3) as Hnx.
  destruct (read_claims f e mem (TokArr toks cap junk) r (i' + 1)) as [x|u1] eqn:H4; cbn [ubind] in H; [discriminate|].
  destruct (unescape_tok p mem n toks Hp Hn Hi type key value w) as (km & vm & E1 & E2 & E3);
    [apply (tok_at_real p mem n toks cap r junk Hp Hr Ht Hn i); [lia|exact H1]|apply (tok_at_real p mem n toks cap r junk Hp Hr Ht Hn (i + 1)); [lia|exact H2]|].
  unfold mbind at 1. rewrite E1. cbn [lift]. unfold mbind at 1. rewrite E2. cbn [lift].
  unfold mbind at 1. rewrite E3.
  destruct (unescape_fun_ret p type (span mem key) (span mem value) w) as (rc & oc & w1 & -> & N).
  destruct oc as [x|]; [|cbn [or_code fst mret]; rewrite N by reflexivity; discriminate].
  unfold mbind. destruct (cb_push_total _ c [x] w1) as (c1 & ->). inversion H; subst u1. apply IH; [lia|exact H4].
Qed.
Lemma parse_claims_ko_any p e c b mem len w t0 toks :
  uses_jsmn e -> (32 <= p_size_bits p)%N -> (Z.of_N len <= INT_MAX)%Z -> (N.to_nat len <= length mem)%nat -> wf w ->
  let js := firstn (N.to_nat len) mem in let r := fst (jsmn_parse js None) in
  (0 < r)%Z -> jsmn_parse js (Some r) = (r, t0 :: toks) -> t_type t0 = JObject ->
  read_claims (S (Z.to_nat r)) e mem (token_array e r (t0 :: toks)) r 1 = KO OOBRead ->
  or_code OOBRead (l8w8jwt_parse_claims p e c (Ptr b mem) len w).
Proof.
  intros Hj Hp Hm Ht Hwf js r Hpos P T0 R. unfold l8w8jwt_parse_claims. unfold mbind at 1. cbn [deref lift].
  unfold mbind at 1. rewrite take_ok by lia. cbn [lift].
  destruct (Z.ltb_spec INT_MAX (Z.of_N len)); [lia|]. cbv zeta. rewrite !Hj. fold js. fold r.
  destruct (Z.eqb_spec r 0); [lia|]. destruct (Z.ltb_spec r 0); [lia|].
  destruct (jsmn_tokens _ _ _ _ P ltac:(lia)) as [Hlen Htok].
  destruct (before_nul_firstn (N.to_nat len) mem) as (B1 & B2 & B3). fold js in B1, B2, B3.
  set (K := fun blk : option nat => let '(r2, toks0) := jsmn_parse js (Some r) in
       if (r2 <? 0)%Z then mret (L8W8JWT_DECODE_FAILED_INVALID_TOKEN_FORMAT, c)
       else t1 <- lift (tok_at (TokArr toks0 (if (r <=? 64)%Z then 64 else r)%Z (e_tok_junk e)) 0) ;;
         '(rc, buffer) <- (if negb (jtype_eqb (t_type t1) JObject)
             then mret (L8W8JWT_DECODE_FAILED_INVALID_TOKEN_FORMAT, c)
             else claims_loop (S (Z.to_nat r2)) p e mem (TokArr toks0 (if (r <=? 64)%Z then 64 else r)%Z (e_tok_junk e)) r2 1 c) ;;
          _ <- (match blk with Some id => free_id id | None => mret tt end) ;;
          mret (rc, buffer)).
  assert (G : forall w1 blk, wf w1 -> (match blk with Some id => w_live w1 id = true | None => True end) ->
    or_code OOBRead (K blk w1)).
  { intros w1 blk W1 L1. unfold K. rewrite P. destruct (Z.ltb_spec r 0); [lia|].
    unfold tok_at. cbn [ta_cap ta_toks ta_junk].
    replace ((0 <? 0)%Z || ((if (r <=? 64)%Z then 64 else r) <=? 0)%Z) with false by (destruct (Z.leb_spec r 64); lia).
    unfold mbind at 1. cbn [lift nth Z.to_nat]. rewrite T0. cbn [jtype_eqb negb]. unfold mbind at 1.
    pose proof (claims_loop_ko_any p e mem _ (t0 :: toks) (if (r <=? 64)%Z then 64 else r)%Z r (e_tok_junk e) Hp ltac:(lia) Htok B3 ltac:(lia)
      (S (Z.to_nat r)) 1 c w1 _ ltac:(lia) R) as N.
    destruct (claims_loop _ _ _ _ _ _ _ _ w1) as [[rc c'] w2|u] eqn:Ec; cbn [or_code fst] in N; [|exact N].
    destruct blk as [id|]; [|exact N].
    destruct (claims_loop_inv _ _ _ _ _ _ _ _ _ _ _ _ W1 Ec) as (new & lost & (_ & _ & _ & _ & _ & _ & Hlv) & _).
    unfold mbind at 1. rewrite free_id_eq by (apply Hlv; auto). exact N. }
  destruct (r <=? 64)%Z eqn:E64.
  - exact (G w None Hwf I).
  - unfold mbind at 1. unfold mbind at 1. rewrite alloc_eq. destruct (w_alloc w (w_next w)) eqn:Ea.
    + cbn [option_map]. apply (G (w_ok w) (Some (w_next w))); [eapply adds_wf; [apply adds_ok|exact Hwf]|].
      cbn [w_ok w_live]. apply upd_live_same.
    + cbn. discriminate.
Qed.

(** Objects whose last member is an array or object. *)
Lemma object_ends_container e w1 ms m t w2 post : json_ws w1 -> json_object (ms ++ [m]) t -> json_ws w2 ->
  Forall (num_known e) (ms ++ [m]) -> container (m_kind m) = true ->
  let js := w1 ++ t ++ w2 in let r := tokens_of js in
  exists vend t0 toks, (0 <= vend <= Z.of_nat (length js))%Z /\ (0 < r)%Z /\ jsmn_parse js (Some r) = (r, t0 :: toks) /\ t_type t0 = JObject
  /\ read_claims (S (Z.to_nat r)) e (js ++ post) (token_array e r (t0 :: toks)) r 1
     = if (64 <=? r)%Z || ((r =? 63)%Z && (t_end (e_tok_junk e r) <=? vend)%Z) then KO OOBRead
       else OK (L8W8JWT_SUCCESS, map (entry_of e) (ms ++ [m])).
Proof.
  intros H1 Ho H2 Hnum Hc js r. destruct (jsmn_object w1 (ms ++ [m]) t w2 H1 Ho H2) as (t0 & tl & T0 & P1 & P2 & Hl).
  fold js in P1, P2. unfold r, tokens_of. rewrite P1. cbn [fst].
  destruct (jsmn_tokens _ _ _ _ P2 ltac:(lia)) as [_ Htok].
  destruct (before_nul_prefix js) as (_ & _ & L).
  assert (Hle : (length (before_nul js) <= length (js ++ post))%nat) by (rewrite app_length; lia).
  destruct (read_laid_last e (js ++ post) _ (t0 :: tl)
    (if (Z.of_nat (S (length tl)) <=? 64)%Z then 64 else Z.of_nat (S (length tl)))%Z (e_tok_junk e) Htok Hle
    ltac:(cbn [length]; destruct (Z.leb_spec (Z.of_nat (S (length tl))) 64); lia)
    m ms [t0] tl (S (Z.to_nat (Z.of_nat (S (length tl))))) eq_refl ltac:(discriminate)
    ltac:(apply Hl) (object_ok _ _ Ho) Hnum ltac:(lia) Hc) as (vend & Hv & R).
  exists vend, t0, tl. split; [lia|]. split; [lia|]. split; [exact P2|]. split; [exact T0|].
  unfold token_array. cbn [length] in R. change (Z.of_nat 1) with 1%Z in R. rewrite R. set (k := Z.of_nat (S (length tl))).
  destruct (Z.leb_spec k 64) as [K|K].
  - destruct (Z.leb_spec 64 k) as [K1|K1]; [reflexivity|]. cbn [orb].
    destruct (Z.eqb_spec k 63) as [K2|K2].
    + cbn [andb]. destruct (Z.leb_spec 64 (k + 1)); [|lia]. rewrite andb_true_r. reflexivity.
    + cbn [andb]. destruct (Z.leb_spec 64 (k + 1)); [lia|]. rewrite andb_false_r. reflexivity.
  - rewrite Z.leb_refl. destruct (Z.leb_spec 64 k); [|lia]. reflexivity.
Qed.

(** ** l8w8jwt_decode up to the parsing of the claims *)
(** What decode does with the three decoded segments once the signature was checked. *)
Definition parse_rest (p : platform) (e : env) (dp : dec_params) (sg : segs) (claims : chillbuff claim) (res : N) : M dec_state :=
  '(r, claims) <- l8w8jwt_parse_claims p e claims (s_ptr (sg_header sg)) (s_len (sg_header sg)) ;;
  if negb (r =? L8W8JWT_SUCCESS)%Z
  then mret (DecState L8W8JWT_DECODE_FAILED_INVALID_TOKEN_FORMAT sg claims res)
  else
    '(r, claims) <- l8w8jwt_parse_claims p e claims (s_ptr (sg_payload sg)) (s_len (sg_payload sg)) ;;
    if negb (r =? L8W8JWT_SUCCESS)%Z
    then mret (DecState L8W8JWT_DECODE_FAILED_INVALID_TOKEN_FORMAT sg claims res)
    else
      res <- lift (l8w8jwt_validate_claims p e dp (CArr (Some (cb_id claims)) (cb_elems claims)) (cb_len claims) res) ;;
      mret (DecState L8W8JWT_SUCCESS sg claims res).

Lemma decode_body_start p e dp h pl s hj ht pj pt sig st jw k id w :
  wf w -> allocs w ->
  c_text p dp (h ++ lit "." ++ pl ++ lit "." ++ s) -> no_dot h -> no_dot pl ->
  b64_decodes h hj ht -> b64_decodes pl pj pt -> b64_decodes s sig st ->
  supported (dp_alg dp) jw -> caller_key (dp_verification_key dp) (dp_verification_key_length dp) k ->
  key_ok (dp_verification_key dp) (dp_verification_key_length dp) ->
  verifiable e jw k (sig ++ st) -> ~ key_unusable p e jw k (h ++ lit "." ++ pl) ->
  exists i1 i2 i3 res w2, wf w2 /\ allocs w2 /\ adds w w2 [i1; i2; i3]
    /\ decode_body p e dp (CB id []) w
       = parse_rest p e dp (Segs (Seg (Ptr (Some i1) (hj ++ ht)) (N.of_nat (length hj)))
                                 (Seg (Ptr (Some i2) (pj ++ pt)) (N.of_nat (length pj)))
                                 (Seg (Ptr (Some i3) (sig ++ st)) (N.of_nat (length sig)))) (CB id []) res w2.
Proof.
  intros Hwf Ha Ht N1 N2 D1 D2 D3 Hjw Hck Hk Hver Hun. unfold decode_body.
  destruct (decode_segments_ok p dp h pl s hj ht pj pt sig st w Hwf Ha Ht N1 N2 D1 D2 D3) as (i1 & i2 & i3 & w1 & H1 & W1 & A1 & Lt1).
  exists i1, i2, i3. mstep H1.
  change (negb (L8W8JWT_SUCCESS =? L8W8JWT_SUCCESS)%Z) with false. cbn [s_ptr s_len sg_signature sg_header sg_payload].
  pose proof Ht as ((b & rest & Ej) & Hz & _ & _).
  assert (T3 : three_parts ((h ++ lit "." ++ pl ++ lit "." ++ s) ++ x00 :: rest) h pl (s ++ x00 :: rest)).
  { split; [rewrite <- !app_assoc; reflexivity|].
    assert (Z1 : no_nul h) by (intros K; apply Hz; rewrite !in_app_iff; auto).
    assert (Z2 : no_nul pl) by (intros K; apply Hz; rewrite !in_app_iff; auto). auto. }
  destruct (verify_body_total p e dp jw b _ h pl _ k (sig ++ st) (N.of_nat (length sig)) Ej T3 Hjw Hck Hk) as (v & Hv & Hx);
    [rewrite app_length; lia|exact Hver|].
  destruct v as [rc|f]; [exfalso; apply Hun; eapply Hx; reflexivity|].
  destruct (verify_signature_total p e dp L8W8JWT_VALID (Some i3) (sig ++ st) (N.of_nat (length sig)) w1 W1 (or_intror A1)) as (rc & res & w2 & H2).
  { intros _ _. eauto. }
  pose proof H2 as H2'. pose proof (b64_decodes_len _ _ _ D3) as [Ls _].
  apply verify_signature_inv in H2 as [Q2 [([C|[C|C]] & _)|(b' & sg' & v & _ & E & _ & Hb & Er)]]; [| | | |exact W1].
  { destruct (supported_range _ _ Hjw). lia. }
  { discriminate. }
  { lia. }
  assert (Es : sg' = sig ++ st) by congruence. rewrite Es, Hv in Hb. assert (Ev : v = VFlag f) by congruence. rewrite Ev in Er.
  cbn [verdict_result] in Er. assert (Erc : rc = L8W8JWT_SUCCESS) by congruence.
  exists res, w2. split; [eapply wf_quiet; eauto|].
  split; [intros q; destruct (quiet_later _ _ Q2) as (E0 & _); rewrite E0; apply A1|].
  split. { destruct (decode_segments_inv _ _ _ _ _ _ Hwf H1) as (A & _). rewrite <- (app_nil_r [i1; i2; i3]).
    eapply adds_trans; [exact A|apply adds_quiet; exact Q2]. }
  mstep H2'. rewrite Erc.
  change (negb (L8W8JWT_SUCCESS =? L8W8JWT_SUCCESS)%Z) with false. reflexivity.
Qed.
