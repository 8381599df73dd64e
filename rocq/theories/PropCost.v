(** * Property C93: how long tokenizing takes *)
From Verif Require Import Base BaseProofs HeapProofs Util UtilProofs Claim Base64 SpecB64
  Base64EncApi Base64DecProofs Base64Api Jsmn Env Encode Decode SpecJson SpecJwa ClaimProofs UnescapeProofs
  SignProofs DecodeProofs DecodeInv JsmnProofs ParseProofs PropClaim ReadProofs JsmnJson JsmnSize PropJson JsmnCost.
From Coq Require Import ZifyBool ZifyNat ZifyN.
Ltac Zify.zify_post_hook ::= Z.div_mod_to_equations.

(** ** The counted tokenizer is the tokenizer *)
Lemma colon_blank c : Byte.eqb c x3a = true -> blank c = true.
Proof. destruct c; (reflexivity || discriminate). Qed.
Lemma comma_blank c : Byte.eqb c x2c = true -> blank c = true.
Proof. destruct c; (reflexivity || discriminate). Qed.
Lemma smain_erases cap f : forall rest pos toks super count,
  fst (smain f cap rest pos toks super count) = jmain f cap rest pos toks count.
Proof.
  induction f as [|f IH]; intros rest pos toks super count; [reflexivity|].
  destruct rest as [|c t]; [reflexivity|]. rewrite jmain_step. cbn [smain].
  destruct (is_nul c); [reflexivity|]. destruct (opens c); [destruct (push_tok _ _ _); [apply IH|reflexivity]|].
  destruct (closes c).
  { destruct cap; [destruct (close_last _ _ _); [apply IH|reflexivity]|apply IH]. }
  destruct (Byte.eqb c x22).
  { destruct (jstr 0 t 0) as [|n r]; [reflexivity|]. destruct (push_tok _ _ _); [apply IH|reflexivity]. }
  destruct (Byte.eqb c x3a) eqn:E1; [rewrite (colon_blank _ E1); apply IH|].
  destruct (Byte.eqb c x2c) eqn:E2; [rewrite (comma_blank _ E2); destruct (comma_searches _ _ _); apply IH|].
  destruct (blank c); [apply IH|]. destruct (jprim _ 0) as [|n r]; [reflexivity|]. destruct (push_tok _ _ _); [apply IH|reflexivity].
Qed.
Theorem C93_same_tokenizer : forall js cap, fst (jsmn_steps js cap) = jsmn_parse js cap.
Proof.
  intros js cap. unfold jsmn_steps, jsmn_parse.
  pose proof (smain_erases cap (S (length js)) js 0 [] (-1) 0) as E. destruct (smain _ _ _ _ _ _ _) as [[r toks] k]. cbn [fst] in E.
  rewrite <- E. destruct (r <? 0)%Z; [reflexivity|]. destruct cap; [|reflexivity]. destruct (existsb _ _); reflexivity.
Qed.
Print Assumptions C93_same_tokenizer.

(** ** At most quadratic *)
Lemma back_le f toks : (back f toks <= N.of_nat (length toks))%N.
Proof. induction toks as [|t r IH]; cbn [back length]; [lia|]. destruct (f t); lia. Qed.
Lemma close_cost_le toks : (close_cost toks <= N.of_nat (length toks) + 1)%N.
Proof.
  unfold close_cost. induction toks as [|t r IH]; [cbn; lia|]. cbn [back from_open length]. destruct (tok_open t).
  - pose proof (back_le tok_open r). lia.
  - lia.
Qed.
Lemma close_last_length ty e toks : forall toks', close_last ty e toks = Some toks' -> length toks' = length toks.
Proof.
  induction toks as [|t r IH]; intros toks' H; [discriminate|]. cbn [close_last] in H. destruct (tok_open t).
  - destruct (jtype_eqb _ _); [|discriminate]. injection H as <-. reflexivity.
  - destruct (close_last ty e r) as [r'|]; [|discriminate]. injection H as <-. cbn [length]. rewrite (IH r'); reflexivity.
Qed.
Lemma push_length cap toks t toks' : push_tok cap toks t = Some toks' -> (length toks' <= S (length toks))%nat.
Proof. unfold push_tok. destruct cap; [destruct (_ <? _)%Z; [|discriminate]|]; intros E; injection E as <-; cbn; lia. Qed.
Lemma snd_tick {A} k (x : A * N) : snd (tick k x) = (k + snd x)%N.
Proof. reflexivity. Qed.
Lemma smain_quadratic cap f : forall rest pos toks super count b, (length toks + length rest <= b)%nat ->
  (snd (smain f cap rest pos toks super count) <= N.of_nat (length rest) * (3 + N.of_nat b))%N
  /\ (length (snd (fst (smain f cap rest pos toks super count))) <= b)%nat.
Proof.
  induction f as [|f IH]; intros rest pos toks super count b H; [cbn [smain fst snd]; lia|].
  destruct rest as [|c t]; [cbn [smain fst snd length] in *; lia|]. cbn [length] in *. cbn [smain].
  destruct (is_nul c) eqn:Ec; [cbn [fst snd]; lia|].
  assert (S1 : forall k toks' super' count' t' pos', (length toks' + length t' <= b)%nat ->
     (N.of_nat (length t') + 1 <= N.of_nat (S (length t)))%N -> (k <= (N.of_nat (S (length t)) - N.of_nat (length t')) * (3 + N.of_nat b))%N ->
     (snd (tick k (smain f cap t' pos' toks' super' count')) <= N.of_nat (S (length t)) * (3 + N.of_nat b))%N
      /\ (length (snd (fst (tick k (smain f cap t' pos' toks' super' count')))) <= b)%nat).
  { intros k toks' super' count' t' pos' Hb Hl Hk. rewrite snd_tick. cbn [tick fst]. destruct (IH t' pos' toks' super' count' b Hb) as [A B].
    split; [|exact B]. nia. }
  destruct (opens c) eqn:Eo.
  { destruct (push_tok _ _ _) eqn:Ep; [|cbn [fst snd]; nia]. apply push_length in Ep. apply S1; lia. }
  destruct (closes c) eqn:Ek.
  { destruct cap; [|apply S1; lia]. destruct (close_last _ _ _) eqn:El.
    - apply close_last_length in El. pose proof (close_cost_le toks). apply S1; lia.
    - pose proof (back_le tok_open toks). cbn [fst snd]. nia. }
  destruct (Byte.eqb c x22) eqn:Eq.
  { destruct (jstr 0 t 0) as [e|n r] eqn:E; [cbn [fst snd]; nia|].
    apply jstr_found in E as (body & -> & -> & _). rewrite app_length in *. cbn [length] in *.
    destruct (push_tok _ _ _) eqn:Ep; [|cbn [fst snd]; nia]. apply push_length in Ep. apply S1; nia. }
  destruct (Byte.eqb c x3a); [apply S1; lia|].
  destruct (Byte.eqb c x2c).
  { pose proof (back_le open_container toks). destruct (comma_searches _ _ _); apply S1; lia. }
  destruct (blank c) eqn:Ebl; [apply S1; lia|].
  destruct (jprim (c :: t) 0) as [e|n r] eqn:E; [cbn [fst snd]; cbn [length]; nia|].
  pose proof (jprim_nonempty c t n r Ec (not_blank_prim c Ec Eo Ek Eq Ebl) E) as Hpos.
  apply jprim_found in E as (body & E & -> & _). apply (f_equal (@length byte)) in E. rewrite app_length in E. cbn [length] in E.
  destruct (push_tok _ _ _) eqn:Ep; [|cbn [fst snd]; nia]. apply push_length in Ep. apply S1; nia.
Qed.
Lemma smain_count f : forall rest pos super count,
  (snd (smain f None rest pos [] super count) <= 3 * N.of_nat (length rest))%N.
Proof.
  induction f as [|f IH]; intros rest pos super count; [cbn; lia|].
  destruct rest as [|c t]; [cbn; lia|]. cbn [length smain push_tok].
  destruct (is_nul c) eqn:Ec; [cbn [snd]; lia|].
  assert (S1 : forall k super' count' t' pos', (N.of_nat (length t') + 1 <= N.of_nat (S (length t)))%N ->
     (k <= 3 * (N.of_nat (S (length t)) - N.of_nat (length t')))%N ->
     (snd (tick k (smain f None t' pos' [] super' count')) <= 3 * N.of_nat (S (length t)))%N).
  { intros k super' count' t' pos' Hl Hk. rewrite snd_tick. pose proof (IH t' pos' super' count'). lia. }
  destruct (opens c) eqn:Eo; [apply S1; lia|]. destruct (closes c) eqn:Ek; [apply S1; lia|].
  destruct (Byte.eqb c x22) eqn:Eq.
  { destruct (jstr 0 t 0) as [e|n r] eqn:E; [cbn [snd]; lia|].
    apply jstr_found in E as (body & -> & -> & _). rewrite app_length in *. cbn [length] in *. apply S1; lia. }
  destruct (Byte.eqb c x3a); [apply S1; lia|].
  destruct (Byte.eqb c x2c); [cbn [comma_searches]; apply S1; lia|].
  destruct (blank c) eqn:Ebl; [apply S1; lia|].
  destruct (jprim (c :: t) 0) as [e|n r] eqn:E; [cbn [snd length]; lia|].
  pose proof (jprim_nonempty c t n r Ec (not_blank_prim c Ec Eo Ek Eq Ebl) E) as Hpos.
  apply jprim_found in E as (body & E & -> & _). apply (f_equal (@length byte)) in E. rewrite app_length in E. cbn [length] in E. apply S1; lia.
Qed.
(** Counting is linear, and the two passes together are at most quadratic. *)
Theorem C93_at_most_quadratic : forall js,
  (snd (jsmn_steps js None) <= 3 * N.of_nat (length js))%N
  /\ (forall cap, snd (jsmn_steps js cap) <= N.of_nat (length js) * (N.of_nat (length js) + 4))%N
  /\ (tokenizer_steps js <= N.of_nat (length js) * (N.of_nat (length js) + 7))%N.
Proof.
  intros js.
  assert (A : (snd (jsmn_steps js None) <= 3 * N.of_nat (length js))%N).
  { unfold jsmn_steps. pose proof (smain_count (S (length js)) js 0 (-1) 0) as L.
    destruct (smain _ _ _ _ _ _ _) as [[r toks] k]. cbn [snd] in L. destruct (r <? 0)%Z; exact L. }
  assert (B : (forall cap, snd (jsmn_steps js cap) <= N.of_nat (length js) * (N.of_nat (length js) + 4))%N).
  { intros cap. unfold jsmn_steps. destruct (smain_quadratic cap (S (length js)) js 0 [] (-1) 0 (length js)) as [L T]; [cbn; lia|].
    destruct (smain _ _ _ _ _ _ _) as [[r toks] k]. cbn [fst snd] in L, T. destruct (r <? 0)%Z; [cbn [snd]; lia|]. destruct cap; [|cbn [snd]; lia].
    pose proof (back_le tok_open toks). cbn [snd]. lia. }
  split; [exact A|]. split; [exact B|]. unfold tokenizer_steps. destruct (jsmn_steps js None) as [[r l] k]. cbn [snd] in A.
  specialize (B (Some r)). destruct (r <=? 0)%Z; lia.
Qed.
Print Assumptions C93_at_most_quadratic.

(** ** At least quadratic in the number of members *)
Lemma smain_fuel cap f : forall f' rest pos toks s count, (length rest < f)%nat -> (length rest < f')%nat ->
  smain f cap rest pos toks s count = smain f' cap rest pos toks s count.
Proof.
  induction f as [|f IH]; intros f' rest pos toks s count H H'; [lia|]. destruct f' as [|f']; [lia|].
  destruct rest as [|c t]; [reflexivity|]. cbn [length] in *. cbn [smain].
  destruct (is_nul c) eqn:Ec; [reflexivity|].
  destruct (opens c) eqn:Eo; [destruct (push_tok _ _ _); [f_equal; apply IH; lia|reflexivity]|].
  destruct (closes c) eqn:Ek.
  { destruct cap; [destruct (close_last _ _ _); [f_equal; apply IH; lia|reflexivity]|f_equal; apply IH; lia]. }
  destruct (Byte.eqb c x22) eqn:Eq.
  { destruct (jstr 0 t 0) as [|n r] eqn:E; [reflexivity|]. destruct (push_tok _ _ _); [|reflexivity].
    apply jstr_found in E as (body & -> & _ & _). rewrite app_length in *. cbn [length] in *. f_equal; apply IH; lia. }
  destruct (Byte.eqb c x3a); [f_equal; apply IH; lia|].
  destruct (Byte.eqb c x2c); [destruct (comma_searches _ _ _); f_equal; apply IH; lia|].
  destruct (blank c) eqn:Eb; [f_equal; apply IH; lia|].
  destruct (jprim (c :: t) 0) as [|n r] eqn:E; [reflexivity|]. destruct (push_tok _ _ _); [|reflexivity].
  pose proof (jprim_nonempty c t n r Ec (not_blank_prim c Ec Eo Ek Eq Eb) E) as Hp.
  apply jprim_found in E as (body & E & -> & _).
  apply (f_equal (@length byte)) in E. rewrite app_length in E. cbn [length] in E. f_equal; apply IH; lia.
Qed.
Definition srun cap rest pos toks s count := smain (S (length rest)) cap rest pos toks s count.
Lemma tick_tick {A} a b (x : A * N) : tick a (tick b x) = tick (a + b) x.
Proof. unfold tick. cbn [fst snd]. f_equal. lia. Qed.
Lemma tick_0 {A} (x : A * N) : tick 0 x = x.
Proof. destruct x. reflexivity. Qed.
Lemma srun_ws cap w : json_ws w -> forall rest pos toks s count,
  srun cap (w ++ rest) pos toks s count = tick (N.of_nat (length w)) (srun cap rest (pos + Z.of_nat (length w)) toks s count).
Proof.
  induction 1 as [|c w Hc Hw IH]; intros rest pos toks s count; [cbn [app length]; rewrite Z.add_0_r, tick_0; reflexivity|].
  cbn [app]. unfold srun at 1. cbn [smain].
  assert (E : is_nul c = false /\ opens c = false /\ closes c = false /\ Byte.eqb c x22 = false /\ Byte.eqb c x3a = false /\ Byte.eqb c x2c = false /\ blank c = true)
    by (cbn in Hc; decompose [or] Hc; subst; try (repeat split; reflexivity); contradiction).
  destruct E as (-> & -> & -> & -> & -> & -> & ->). change (length (c :: w ++ rest)) with (S (length (w ++ rest))).
  fold (srun cap (w ++ rest) (pos + 1) toks s count). rewrite IH, tick_tick. f_equal; [cbn [length]; lia|]. f_equal. cbn [length]. lia.
Qed.
Lemma srun_colon cap t pos toks s count :
  srun cap (x3a :: t) pos toks s count = tick 1 (srun cap t (pos + 1) toks (Z.of_nat (length toks) - 1) count).
Proof. reflexivity. Qed.
Lemma srun_comma cap t pos toks s count :
  exists s' k, srun cap (x2c :: t) pos toks s count = tick (1 + k) (srun cap t (pos + 1) toks s' count)
    /\ (comma_searches cap toks s = true -> k = back open_container toks).
Proof.
  assert (E : srun cap (x2c :: t) pos toks s count = if comma_searches cap toks s
      then tick (1 + back open_container toks) (srun cap t (pos + 1) toks (if (stops_at open_container toks =? -1)%Z then s else stops_at open_container toks) count)
      else tick 1 (srun cap t (pos + 1) toks s count)) by reflexivity.
  rewrite E. clear E. destruct (comma_searches cap toks s).
  - eexists _, _. split; [reflexivity|reflexivity].
  - exists s, 0%N. split; [reflexivity|discriminate].
Qed.
Lemma srun_string cap t d rest pos toks s count : json_body t d -> room cap toks 1 ->
  srun cap (quoted t ++ rest) pos toks s count =
  tick (2 + N.of_nat (length t)) (srun cap rest (pos + Z.of_nat (length (quoted t)))
       (padd cap toks [Tok JString (pos + 1) (pos + 1 + Z.of_nat (length t))]) s (count + 1)).
Proof.
  intros Ht Hr. unfold quoted. cbn [app]. rewrite <- app_assoc. cbn [app].
  unfold srun at 1. cbn [smain]. change (is_nul x22) with false. change (opens x22) with false.
  change (closes x22) with false. change (Byte.eqb x22 x22) with true. cbv iota.
  rewrite (jstr_body t d Ht), push_room by exact Hr. rewrite Z.add_0_l.
  replace (pos + Z.of_nat (length (x22 :: t ++ [x22])))%Z with (pos + Z.of_nat (length t) + 2)%Z
    by (cbn [length]; rewrite app_length; cbn [length]; lia).
  f_equal; [lia|]. unfold srun. apply smain_fuel; cbn [length]; rewrite ?app_length; cbn [length]; lia.
Qed.
Lemma srun_prim cap c t rest pos toks s count : prim_start c -> Forall prim_char t -> delim rest -> room cap toks 1 ->
  srun cap ((c :: t) ++ rest) pos toks s count =
  tick (2 + N.of_nat (length (c :: t))) (srun cap rest (pos + Z.of_nat (length (c :: t)))
       (padd cap toks [Tok JPrimitive pos (pos + Z.of_nat (length (c :: t)))]) s (count + 1)).
Proof.
  intros ([H1 H2] & H3 & H4) Ht Hd Hr. unfold srun at 1. cbn [app smain].
  assert (E1 : is_nul c = false) by (destruct c; (reflexivity || (cbn in H2; lia))).
  assert (E2 : closes c = false) by (destruct c; (reflexivity || discriminate)).
  assert (E3 : blank c = false) by (destruct c; (reflexivity || discriminate)).
  assert (E4 : Byte.eqb c x3a = false) by (destruct c; (reflexivity || discriminate)).
  assert (E5 : Byte.eqb c x2c = false) by (destruct c; (reflexivity || discriminate)).
  rewrite E1, H3, E2, H4, E4, E5, E3. change (c :: t ++ rest) with ((c :: t) ++ rest).
  rewrite jprim_body; [|constructor; [split; auto|exact Ht]|exact Hd].
  rewrite push_room by exact Hr. rewrite Z.add_0_l. rewrite <- (N2Z.id (N.of_nat _)), nat_N_Z. f_equal. apply smain_fuel; rewrite ?app_length; cbn [length]; lia.
Qed.
Lemma srun_open cap c t pos toks s count : opens c = true -> room cap toks 1 ->
  exists s', srun cap (c :: t) pos toks s count =
    tick 1 (srun cap t (pos + 1) (padd cap toks [Tok (if Byte.eqb c x7b then JObject else JArray) pos (-1)]) s' (count + 1)).
Proof.
  intros H Hr. eexists. unfold srun at 1. cbn [smain]. rewrite H, push_room by exact Hr.
  assert (E1 : is_nul c = false) by (destruct c; (discriminate || reflexivity)). rewrite E1.
  f_equal. apply smain_fuel; cbn [length]; lia.
Qed.
Lemma back_skip l toks : Forall closed l -> back tok_open (l ++ toks) = (N.of_nat (length l) + back tok_open toks)%N.
Proof. induction 1 as [|t l Ht _ IH]; [reflexivity|]. unfold closed in Ht. cbn [app back length]. rewrite Ht, IH. lia. Qed.
Lemma from_open_skip l toks : Forall closed l -> from_open (l ++ toks) = from_open toks.
Proof. induction 1 as [|t l Ht _ IH]; [reflexivity|]. unfold closed in Ht. cbn [app from_open]. rewrite Ht. exact IH. Qed.
(** Closing a container: all the tokens back to the next open one are passed. *)
Lemma srun_close cap c t pos start toks s count tl (ty := if Byte.eqb c x7d then JObject else JArray) :
  closes c = true -> (0 <= start)%Z -> Forall closed tl ->
  exists k s', srun cap (c :: t) pos (padd cap toks (Tok ty start (-1) :: tl)) s count =
    tick k (srun cap t (pos + 1) (padd cap toks (Tok ty start (pos + 1) :: tl)) s' count)
    /\ (cap <> None -> s' = stops_at tok_open toks /\ (back tok_open toks <= k)%N).
Proof.
  intros H Hs Hcl. unfold srun at 1. cbn [smain]. rewrite H.
  assert (E1 : is_nul c = false) by (destruct c; (discriminate || reflexivity)).
  assert (E2 : opens c = false) by (destruct c; (discriminate || reflexivity)). rewrite E1, E2.
  destruct cap as [n|]; cbn [padd]; [|exists 1%N, s; split; [reflexivity|congruence]].
  cbn [rev]. rewrite <- app_assoc, close_last_skip by (apply Forall_rev; exact Hcl).
  assert (O : tok_open (Tok ty start (-1)) = true) by (unfold tok_open; cbn [t_start t_end]; destruct (Z.eqb_spec start (-1)); [lia|reflexivity]).
  cbn [app close_last]. rewrite O. cbn [t_type t_start].
  fold ty. assert (E : jtype_eqb ty ty = true) by (subst ty; destruct (Byte.eqb c x7d); reflexivity).
  rewrite E. cbn [option_map]. rewrite <- app_assoc. eexists _, _. split; [reflexivity|]. intros _.
  unfold close_super, close_cost. rewrite from_open_skip by (apply Forall_rev; exact Hcl). cbn [from_open]. rewrite O. cbn [List.tl]. split; [reflexivity|lia].
Qed.

(** Reading [t] adds the tokens [tl]; [Q] relates the tokens and toksuper before, the cost and toksuper after. *)
Definition costs (Q : list tok -> Z -> N -> Z -> Prop) (t : bytes) (pos : Z) (tl : list tok) : Prop :=
  forall cap rest toks s count, delim rest -> room cap toks (length tl) ->
    exists k s', srun cap (t ++ rest) pos toks s count =
      tick k (srun cap rest (pos + Z.of_nat (length t)) (padd cap toks tl) s' (count + Z.of_nat (length tl)))
    /\ (cap <> None -> Q toks s k s').
Definition value_costs (k : kind) (t : bytes) : Prop := forall pos, (0 <= pos)%Z ->
  exists tl, Forall closed tl /\ (1 <= length tl)%nat
    /\ costs (fun toks s c s' => if container k then s' = stops_at tok_open toks /\ (back tok_open toks <= c)%N else s' = s) t pos tl.
Definition elements_cost (t : bytes) : Prop := forall pos, (0 <= pos)%Z ->
  exists tl, Forall closed tl /\ costs (fun _ _ _ _ => True) t pos tl.
Definition members_cost (ms : list member) (t : bytes) : Prop := forall pos, (0 <= pos)%Z ->
  exists tl, Forall closed tl /\ (2 * length ms <= length tl)%nat
    /\ costs (fun toks s c s' => forall pre o b, toks = pre ++ o :: b -> Forall closed pre -> open_container o = true ->
                 (N.of_nat (length ms - 1) * N.of_nat (length pre) + N.of_nat (length ms) * N.of_nat (length ms - 1) <= c)%N) t pos tl.
Lemma closed_tok ty a b : (b <> -1)%Z -> closed (Tok ty a b).
Proof. intros H. unfold closed, tok_open. cbn [t_end]. destruct (Z.eqb_spec b (-1)); [contradiction|]. apply andb_false_r. Qed.
Lemma costs_container ty o c body pos tl : (0 <= pos)%Z ->
  (ty = JObject /\ o = x7b /\ c = x7d \/ ty = JArray /\ o = x5b /\ c = x5d) ->
  costs (fun _ _ _ _ => True) body (pos + 1) tl -> Forall closed tl ->
  costs (fun toks s k s' => s' = stops_at tok_open toks /\ (back tok_open toks <= k)%N) ([o] ++ body ++ [c]) pos
    (Tok ty pos (pos + Z.of_nat (length ([o] ++ body ++ [c]))) :: tl).
Proof.
  intros Hp Hk Hb Hw cap rest toks s count D R. cbn [app]. rewrite <- app_assoc. cbn [app length] in *.
  assert (E : opens o = true /\ closes c = true /\ prim_end c = true /\ (if Byte.eqb o x7b then JObject else JArray) = ty
    /\ (if Byte.eqb c x7d then JObject else JArray) = ty).
  { decompose [and or] Hk; subst; repeat split; reflexivity. }
  destruct E as (E1 & E2 & E3 & E4 & E5).
  destruct (srun_open cap o (body ++ c :: rest) pos toks s count E1) as (s1 & ->); [eapply room_le; [exact R|lia]|]. rewrite E4.
  destruct (Hb cap (c :: rest) (padd cap toks [Tok ty pos (-1)]) s1 (count + 1)%Z) as (k1 & s2 & -> & _);
    [right; exact E3|apply room_padd; eapply room_le; [exact R|cbn [length]; lia]|].
  rewrite padd_app. cbn [app]. pose proof (srun_close cap c rest (pos + 1 + Z.of_nat (length body)) pos toks s2 (count + 1 + Z.of_nat (length tl)) tl E2 Hp Hw) as (k2 & s3 & E & Q).
  cbv zeta in E. rewrite E5 in E. rewrite E. rewrite !tick_tick. exists (1 + k1 + k2)%N, s3. split.
  - replace (pos + Z.of_nat (S (length (body ++ [c]))))%Z with (pos + 1 + Z.of_nat (length body) + 1)%Z by (rewrite app_length; cbn [length]; lia).
    replace (count + Z.of_nat (S (length tl)))%Z with (count + 1 + Z.of_nat (length tl))%Z by lia. reflexivity.
  - intros Hc. destruct (Q Hc) as [Q1 Q2]. split; [exact Q1|lia].
Qed.
Lemma costs_ws w pos : json_ws w -> costs (fun _ _ _ _ => True) w pos [].
Proof.
  intros Hw cap rest toks s count _ _. rewrite srun_ws by exact Hw. rewrite padd_nil. exists (N.of_nat (length w)), s. split; [|auto].
  do 2 f_equal. cbn [length]. lia.
Qed.
Lemma costs_weaken (Q Q' : list tok -> Z -> N -> Z -> Prop) t pos tl : (forall toks s k s', Q toks s k s' -> Q' toks s k s') ->
  costs Q t pos tl -> costs Q' t pos tl.
Proof. intros H C cap rest toks s count D R. destruct (C cap rest toks s count D R) as (k & s' & E & F). exists k, s'. auto. Qed.
Lemma prim_costs k t c r : t = c :: r -> prim_start c -> Forall prim_char r -> container k = false -> value_costs k t.
Proof.
  intros -> Hc Hr Hk pos Hp. exists [Tok JPrimitive pos (pos + Z.of_nat (length (c :: r)))].
  split; [constructor; [apply closed_tok; lia|constructor]|]. split; [cbn; lia|]. rewrite Hk.
  intros cap rest toks s count D R. rewrite srun_prim by assumption. eexists _, s. split; [reflexivity|auto].
Qed.
Lemma back_searched pre o b : Forall closed pre -> open_container o = true ->
  (back open_container (pre ++ o :: b) = N.of_nat (length pre) + 1)%N.
Proof.
  intros H Ho. induction H as [|t l Ht _ IH]; [cbn [app back length]; rewrite Ho; reflexivity|].
  cbn [app back length]. unfold open_container at 1. unfold closed in Ht. rewrite Ht, andb_false_r, IH. lia.
Qed.
Lemma token_of l x base : token (l ++ x :: base) (Z.of_nat (length (x :: base)) - 1) = x.
Proof.
  unfold token. rewrite app_length. cbn [length].
  replace (length l + S (length base) - 1 - Z.to_nat (Z.of_nat (S (length base)) - 1))%nat with (length l) by lia.
  rewrite app_nth2 by lia. rewrite Nat.sub_diag. reflexivity.
Qed.
(** A member up to its value: the tokens of its name and its value; what is due at the comma behind it. *)
Lemma member_start w1 kb kd w2 w3 k t w4 pos : json_ws w1 -> json_body kb kd -> json_ws w2 -> json_ws w3 -> json_value k t ->
  value_costs k t -> json_ws w4 -> (0 <= pos)%Z ->
  exists tl, Forall closed tl /\ (2 <= length tl)%nat
    /\ costs (fun toks s c s' => forall pre o b, toks = pre ++ o :: b -> Forall closed pre -> open_container o = true ->
          (N.of_nat (length pre) + 2 <= c)%N \/ (forall n, comma_searches (Some n) (rev tl ++ toks) s' = true))
        (w1 ++ quoted kb ++ w2 ++ lit ":" ++ w3 ++ t ++ w4) pos tl.
Proof.
  intros H1 Hb H2 H3 Hv IH H4 Hp.
  set (kp := (pos + Z.of_nat (length w1))%Z).
  set (vp := (pos + Z.of_nat (length (w1 ++ quoted kb ++ w2 ++ lit ":" ++ w3)))%Z).
  destruct (IH vp) as (tl & Hc & Hl & Ha); [subst vp; lia|].
  set (ktok := Tok JString (kp + 1) (kp + 1 + Z.of_nat (length kb))).
  exists (ktok :: tl). split; [constructor; [apply closed_tok; unfold kp; lia|exact Hc]|]. split; [cbn [length]; lia|].
  intros cap rest toks s count D R. rewrite <- !app_assoc, srun_ws by exact H1.
  rewrite (srun_string cap kb kd); [|exact Hb|eapply room_le; [exact R|cbn [length]; lia]].
  rewrite srun_ws by exact H2. change (lit ":" ++ w3 ++ t ++ w4 ++ rest) with (x3a :: w3 ++ t ++ w4 ++ rest).
  rewrite srun_colon. rewrite srun_ws by exact H3. fold kp. fold ktok.
  match goal with |- context [srun cap (t ++ w4 ++ rest) ?P _ _ _] => replace P with vp by (unfold vp, kp; lens; change (length (lit ":")) with 1%nat; lia) end.
  destruct (Ha cap (w4 ++ rest) (padd cap toks [ktok]) (Z.of_nat (length (padd cap toks [ktok])) - 1)%Z (count + 1)%Z) as (c & s' & -> & Q);
    [apply delim_ws; assumption|apply room_padd; exact R|].
  rewrite srun_ws by exact H4. rewrite padd_app, !tick_tick. eexists _, s'. split.
  - f_equal. cbn [app]. f_equal; unfold vp; lens; change (length (lit ":")) with 1%nat; lia.
  - intros Hcap. specialize (Q Hcap). intros pre o b E Hpre Ho. destruct cap as [n0|]; [clear Hcap|congruence]. cbn [padd rev app] in Q.
    destruct (container k).
    + left. destruct Q as [_ Q]. rewrite E in Q. change (ktok :: pre ++ o :: b) with ((ktok :: pre) ++ o :: b) in Q.
      rewrite back_skip in Q by (constructor; [apply closed_tok; unfold kp; lia|exact Hpre]). cbn [length] in Q.
      assert (1 <= back tok_open (o :: b))%N by (cbn [back]; destruct (tok_open o); lia). lia.
    + right. intros n. subst s'. cbn [comma_searches]. cbn [rev]. rewrite <- app_assoc. cbn [app].
      rewrite token_of. cbn [is_container ktok t_type jtype_eqb orb negb]. rewrite andb_true_r.
      apply negb_true_iff. apply Z.eqb_neq. cbn [length]. lia.
Qed.
Lemma all_cost :
  (forall k t, json_value k t -> value_costs k t)
  /\ (forall t, json_elements t -> elements_cost t)
  /\ (forall ms t, json_members ms t -> members_cost ms t).
Proof.
  enough (G : (forall k t, json_value k t -> json_value k t /\ value_costs k t)
    /\ (forall t, json_elements t -> elements_cost t) /\ (forall ms t, json_members ms t -> members_cost ms t)).
  { destruct G as (G1 & G2 & G3). split; [intros k t H; apply G1; exact H|auto]. }
  apply json_mutind.
  - intros t d H. split; [econstructor; eauto|]. intros pos Hp. exists [Tok JString (pos + 1) (pos + 1 + Z.of_nat (length t))].
    split; [constructor; [apply closed_tok; lia|constructor]|]. split; [cbn; lia|].
    intros cap rest toks s count D R. rewrite (srun_string cap t d) by assumption. eexists _, s. split; [reflexivity|reflexivity].
  - intros t H. split; [constructor; exact H|]. destruct (number_prim t H) as (c & r & E & H1 & _ & H2). eapply prim_costs; eauto.
  - split; [constructor|]. eapply prim_costs; [reflexivity| | |reflexivity]; [vm_compute; intuition congruence|].
    repeat constructor; vm_compute; intuition congruence.
  - split; [constructor|]. eapply prim_costs; [reflexivity| | |reflexivity]; [vm_compute; intuition congruence|].
    repeat constructor; vm_compute; intuition congruence.
  - split; [constructor|]. eapply prim_costs; [reflexivity| | |reflexivity]; [vm_compute; intuition congruence|].
    repeat constructor; vm_compute; intuition congruence.
  - intros ws H. split; [constructor; exact H|]. intros pos Hp. eexists. split; [|split; [|apply (costs_container JArray x5b x5d ws pos []); auto using costs_ws]].
    + constructor; [apply closed_tok; lia|constructor].
    + cbn; lia.
  - intros t H IH. split; [econstructor; exact H|]. intros pos Hp. destruct (IH (pos + 1)%Z) as (tl & Hc & Ha); [lia|].
    eexists. split; [|split; [|apply (costs_container JArray x5b x5d t pos tl); auto]].
    + constructor; [apply closed_tok; lia|exact Hc].
    + cbn; lia.
  - intros ws H. split; [constructor; exact H|]. intros pos Hp. eexists. split; [|split; [|apply (costs_container JObject x7b x7d ws pos []); auto using costs_ws]].
    + constructor; [apply closed_tok; lia|constructor].
    + cbn; lia.
  - intros ms t H IH. split; [econstructor; exact H|]. intros pos Hp. destruct (IH (pos + 1)%Z) as (tl & Hc & _ & Ha); [lia|].
    eexists. split; [|split; [|apply (costs_container JObject x7b x7d t pos tl); auto; eapply costs_weaken; [|exact Ha]; auto]].
    + constructor; [apply closed_tok; lia|exact Hc].
    + cbn; lia.
  - intros w1 k t w2 H1 _ [Hv IH] H2 pos Hp. destruct (IH (pos + Z.of_nat (length w1))%Z) as (tl & Hc & _ & Ha); [lia|].
    exists tl. split; [exact Hc|]. intros cap rest toks s count D R. rewrite <- !app_assoc, srun_ws by exact H1.
    destruct (Ha cap (w2 ++ rest) toks s count) as (c & s' & -> & _); [apply delim_ws; assumption|exact R|].
    rewrite srun_ws by exact H2. rewrite !tick_tick. eexists _, s'. split; [|auto]. f_equal. f_equal. lens. lia.
  - intros w1 k t w2 r H1 _ [Hv IH] H2 _ IHr pos Hp. destruct (IH (pos + Z.of_nat (length w1))%Z) as (tl1 & Hc1 & _ & Ha); [lia|].
    destruct (IHr (pos + Z.of_nat (length (w1 ++ t ++ w2 ++ lit ",")))%Z) as (tl & Hc & Ha'); [lia|].
    exists (tl1 ++ tl). split; [apply Forall_app; auto|]. intros cap rest toks s count D R. rewrite app_length in R.
    rewrite <- !app_assoc, srun_ws by exact H1.
    destruct (Ha cap (w2 ++ lit "," ++ r ++ rest) toks s count) as (c & s' & -> & _); [apply delim_wsc; auto|eapply room_le; [exact R|lia]|].
    rewrite srun_ws by exact H2. change (lit "," ++ r ++ rest) with (x2c :: r ++ rest).
    match goal with |- context [srun cap (x2c :: r ++ rest) ?P ?T ?S ?C] => destruct (srun_comma cap (r ++ rest) P T S C) as (s2 & c2 & -> & _) end.
    match goal with |- context [srun cap (r ++ rest) ?P _ _ _] =>
      replace P with (pos + Z.of_nat (length (w1 ++ t ++ w2 ++ lit ",")))%Z by (lens; change (length (lit ",")) with 1%nat; lia) end.
    match goal with |- context [srun cap (r ++ rest) ?P ?T ?S ?C] => destruct (Ha' cap rest T S C) as (c3 & s3 & -> & _); [exact D|apply room_padd; exact R|] end.
    rewrite !tick_tick, padd_app. eexists _, s3. split; [|auto]. f_equal.
    f_equal; lens; change (length (lit ",")) with 1%nat; lia.
  - intros w1 kb kd w2 w3 k t w4 H1 Hb H2 H3 _ [Hv IH] H4 pos Hp.
    destruct (member_start w1 kb kd w2 w3 k t w4 pos H1 Hb H2 H3 Hv IH H4 Hp) as (tl & Hc & Hl & Ha).
    exists tl. split; [exact Hc|]. split; [cbn [length]; lia|]. eapply costs_weaken; [|exact Ha]. intros toks s c s' _ pre o b _ _ _. cbn. lia.
  - intros w1 kb kd w2 w3 k t w4 ms r H1 Hb H2 H3 _ [Hv IH] H4 Hm IHr pos Hp.
    destruct (member_start w1 kb kd w2 w3 k t w4 pos H1 Hb H2 H3 Hv IH H4 Hp) as (tl1 & Hc1 & Hl1 & Ha).
    set (m := w1 ++ quoted kb ++ w2 ++ lit ":" ++ w3 ++ t ++ w4) in *.
    destruct (IHr (pos + Z.of_nat (length (m ++ lit ",")))%Z) as (tl & Hc & Hl & Ha'); [lia|].
    exists (tl1 ++ tl). split; [apply Forall_app; auto|]. split; [rewrite app_length; cbn [length]; lia|].
    replace (w1 ++ quoted kb ++ w2 ++ lit ":" ++ w3 ++ t ++ w4 ++ lit "," ++ r) with (m ++ lit "," ++ r) by (unfold m; repeat rewrite <- app_assoc; reflexivity).
    intros cap rest toks s count D R. rewrite app_length in R. rewrite <- !app_assoc.
    destruct (Ha cap (lit "," ++ r ++ rest) toks s count) as (c & s' & -> & Q); [right; reflexivity|eapply room_le; [exact R|lia]|].
    change (lit "," ++ r ++ rest) with (x2c :: r ++ rest).
    match goal with |- context [srun cap (x2c :: r ++ rest) ?P ?T ?S ?C] => destruct (srun_comma cap (r ++ rest) P T S C) as (s2 & c2 & -> & Q2) end.
    match goal with |- context [srun cap (r ++ rest) ?P _ _ _] =>
      replace P with (pos + Z.of_nat (length (m ++ lit ",")))%Z by (rewrite app_length; change (length (lit ",")) with 1%nat; lia) end.
    match goal with |- context [srun cap (r ++ rest) ?P ?T ?S ?C] => destruct (Ha' cap rest T S C) as (c3 & s3 & -> & Q3); [exact D|apply room_padd; exact R|] end.
    rewrite !tick_tick, padd_app. eexists _, s3. split; [f_equal; f_equal; [|rewrite app_length; lia]|].
    + rewrite !app_length. change (length (lit ",")) with 1%nat. lia.
    + intros Hcap pre o b E Hpre Ho. specialize (Q Hcap pre o b E Hpre Ho). destruct cap as [n|]; [|congruence]. cbn [padd] in Q2, Q3.
      specialize (Q3 ltac:(discriminate) (rev tl1 ++ pre) o b). rewrite E in Q3. rewrite <- app_assoc in Q3. specialize (Q3 eq_refl).
      specialize (Q3 ltac:(apply Forall_app; split; [apply Forall_rev; exact Hc1|exact Hpre]) Ho). rewrite app_length, rev_length in Q3.
      assert (L : (1 <= length ms)%nat) by (destruct Hm; cbn; lia).
      assert (K : (N.of_nat (length pre) + 2 <= c + c2)%N).
      { destruct Q as [Q|Q]; [lia|]. specialize (Q2 (Q n)). rewrite E, app_assoc in Q2. rewrite back_searched in Q2;
          [|apply Forall_app; split; [apply Forall_rev; exact Hc1|exact Hpre]|exact Ho]. rewrite app_length, rev_length in Q2. lia. }
      cbn [length]. replace (S (length ms) - 1)%nat with (length ms) by lia.
      clear - K Q3 L Hl1. remember (length ms) as x. remember (length pre) as y. remember (length tl1) as z.
      destruct x as [|x]; [lia|]. replace (S x - 1)%nat with x in Q3 by lia.
      assert (N.of_nat x * 2 <= N.of_nat x * N.of_nat z)%N by (apply N.mul_le_mono_l; lia). rewrite !Nat2N.inj_succ. nia.
Qed.
(** Every JSON object with [m] members takes at least [m * (m - 1)] steps, whatever the members are. *)
Theorem C93_at_least_quadratic_in_members : forall js ms, object_text js ms ->
  (N.of_nat (length ms) * N.of_nat (length ms - 1) <= tokenizer_steps js)%N.
Proof.
  intros js ms (w1 & t & w2 & H1 & Ho & H2 & ->). destruct Ho as [ws Hw|ms t Hm]; [cbn; lia|].
  destruct all_cost as (_ & _ & HM). destruct (HM _ _ Hm (Z.of_nat (length w1) + 1)%Z) as (tl & Hc & Hl & Ha); [lia|]. clear HM.
  set (js := w1 ++ (lit "{" ++ t ++ lit "}") ++ w2).
  assert (R : forall cap, room cap [] (S (length tl)) -> exists k toks,
     smain (S (length js)) cap js 0 [] (-1) 0 = ((Z.of_nat (S (length tl)), toks), k)
     /\ (cap <> None -> (N.of_nat (length ms) * N.of_nat (length ms - 1) <= k)%N)).
  { intros cap Rm. fold (srun cap js 0 [] (-1) 0). unfold js. rewrite srun_ws by exact H1. rewrite Z.add_0_l, <- !app_assoc.
    change (lit "{" ++ t ++ lit "}" ++ w2) with (x7b :: t ++ lit "}" ++ w2).
    destruct (srun_open cap x7b (t ++ lit "}" ++ w2) (Z.of_nat (length w1)) [] (-1) 0) as (s1 & ->); [reflexivity|eapply room_le; [exact Rm|lia]|].
    change (if Byte.eqb x7b x7b then JObject else JArray) with JObject. set (o := Tok JObject (Z.of_nat (length w1)) (-1)).
    destruct (Ha cap (lit "}" ++ w2) (padd cap [] [o]) s1 (0 + 1)%Z) as (k & s2 & -> & Q); [right; reflexivity|apply room_padd; exact Rm|].
    change (lit "}" ++ w2) with (x7d :: w2). rewrite padd_app. cbn [app].
    pose proof (srun_close cap x7d w2 (Z.of_nat (length w1) + 1 + Z.of_nat (length t)) (Z.of_nat (length w1)) [] s2 (0 + 1 + Z.of_nat (length tl)) tl eq_refl ltac:(lia) Hc)
      as (k2 & s3 & E & _). cbv zeta in E. change (if Byte.eqb x7d x7d then JObject else JArray) with JObject in E. fold o in E. rewrite E.
    rewrite <- (app_nil_r w2), srun_ws by exact H2. rewrite !tick_tick. cbn [srun smain length]. unfold tick. cbn [fst snd].
    eexists _, _. split; [f_equal; f_equal; lia|]. intros Hcap. specialize (Q Hcap). destruct cap as [n|]; [|congruence].
    specialize (Q [] o [] eq_refl ltac:(constructor)). cbn [length] in Q. rewrite N.mul_0_r, N.add_0_l in Q.
    assert (Oo : open_container o = true).
    { unfold o, open_container, tok_open. cbn [t_type t_start t_end is_container jtype_eqb]. unfold is_container. cbn [t_type jtype_eqb orb andb].
      destruct (Z.eqb_spec (Z.of_nat (length w1)) (-1)); [lia|reflexivity]. }
    specialize (Q Oo). lia. }
  unfold tokenizer_steps, jsmn_steps. destruct (R None I) as (k & toks & -> & _).
  destruct (Z.ltb_spec (Z.of_nat (S (length tl))) 0); [lia|]. cbn [fst snd]. destruct (Z.leb_spec (Z.of_nat (S (length tl))) 0); [lia|].
  destruct (R (Some (Z.of_nat (S (length tl))))) as (k2 & toks2 & -> & Q); [cbn [room length]; lia|].
  destruct (Z.ltb_spec (Z.of_nat (S (length tl))) 0); [lia|]. cbn [fst snd]. specialize (Q ltac:(discriminate)). lia.
Qed.
Print Assumptions C93_at_least_quadratic_in_members.

(** ** Not linear *)
(** [n + 1] members of an empty name and the value 0. *)
Fixpoint empties (n : nat) : bytes := match n with O => lit """"":0" | S k => lit """"":0," ++ empties k end.
Definition empty_member : member := Member [] KNumber (lit "0").
Lemma empties_members n : json_members (repeat empty_member (S n)) (empties n).
Proof.
  induction n as [|n IH].
  - change (empties 0) with ([] ++ quoted [] ++ [] ++ lit ":" ++ [] ++ lit "0" ++ []).
    eapply JM_one; try constructor. change (lit "0") with ([] ++ lit "0" ++ [] ++ []). repeat constructor.
  - change (empties (S n)) with ([] ++ quoted [] ++ [] ++ lit ":" ++ [] ++ lit "0" ++ [] ++ lit "," ++ empties n).
    change (repeat empty_member (S (S n))) with (empty_member :: repeat empty_member (S n)).
    eapply JM_cons; try constructor; [|exact IH]. change (lit "0") with ([] ++ lit "0" ++ [] ++ []). repeat constructor.
Qed.
Lemma empties_length n : length (empties n) = (5 * n + 4)%nat.
Proof. induction n as [|n IH]; [reflexivity|]. cbn [empties]. rewrite app_length, IH. change (length (lit """"":0,")) with 5%nat. lia. Qed.
Theorem C93_linear_refuted : forall c, exists js ms, object_text js ms /\ (c * N.of_nat (length js) < tokenizer_steps js)%N.
Proof.
  intros c. set (n := N.to_nat (6 * c + 1)%N). exists (lit "{" ++ empties n ++ lit "}"), (repeat empty_member (S n)).
  assert (O : object_text (lit "{" ++ empties n ++ lit "}") (repeat empty_member (S n))).
  { exists [], (lit "{" ++ empties n ++ lit "}"), []. split; [constructor|]. split; [apply JO_members, empties_members|].
    split; [constructor|]. cbn [app]. rewrite app_nil_r. reflexivity. }
  split; [exact O|]. apply C93_at_least_quadratic_in_members in O. rewrite repeat_length in O.
  rewrite !app_length, empties_length. change (length (lit "{")) with 1%nat. change (length (lit "}")) with 1%nat.
  replace (S n - 1)%nat with n in O by lia. assert (E : N.of_nat n = (6 * c + 1)%N) by (unfold n; apply N2Nat.id).
  rewrite Nat2N.inj_succ, E in O. replace (N.of_nat (1 + (5 * n + 4 + 1))) with (5 * N.of_nat n + 6)%N by lia. rewrite E. nia.
Qed.
Print Assumptions C93_linear_refuted.

(** 100 members in 501 characters: the bounds, and the count. *)
Example C93_case : object_text (lit "{" ++ empties 99 ++ lit "}") (repeat empty_member 100)
  /\ (100 * 99 <= tokenizer_steps (lit "{" ++ empties 99 ++ lit "}") <= 501 * 508)%N
  /\ snd (jsmn_steps (lit "{""sub"":""alice"",""exp"":[1,2],""x"":{}}") (Some 9%Z)) = 78%N.
Proof.
  split; [|split; [vm_compute; split; discriminate|vm_compute; reflexivity]].
  exists [], (lit "{" ++ empties 99 ++ lit "}"), []. split; [constructor|]. split; [apply JO_members, empties_members|]. split; [constructor|reflexivity].
Qed.
