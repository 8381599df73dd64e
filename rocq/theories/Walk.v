(** * Reading the claims out of the tokens of an arbitrary text *)
From Verif Require Import Base BaseProofs HeapProofs Util UtilProofs Claim Base64 SpecB64
  Base64EncApi Base64DecProofs Base64Api Jsmn Env Encode Decode SpecJson SpecJwa ClaimProofs UnescapeProofs
  SignProofs DecodeProofs DecodeInv JsmnProofs ParseProofs PropClaim ReadProofs ValidateProofs JsmnJson EncodeTotal
  DecodeTotal DecodeOk OverRead.
From Coq Require Import ZifyBool ZifyNat ZifyN.
Ltac Zify.zify_post_hook ::= Z.div_mod_to_equations.

(** ** What there is to read *)
Definition starts (a s : bytes) : Prop := exists r, s = a ++ r.
(** The type of the claim whose value is the token [v] of the text in [mem]. *)
Definition nested (v : tok) : Prop := t_type v = JObject \/ t_type v = JArray.
Definition says_bool (mem : bytes) (v : tok) : Prop :=
  let s := skipn (Z.to_nat (t_start v)) mem in
  (t_end v - t_start v <= 5)%Z /\ (starts (lit "true") s \/ starts (lit "false") s).
Definition says_null (mem : bytes) (v : tok) : Prop :=
  (t_end v - t_start v = 4)%Z /\ starts (lit "null") (skipn (Z.to_nat (t_start v)) mem).
Inductive has_kind (e : env) (mem : bytes) (v : tok) : Z -> Prop :=
| K_string : t_type v = JString -> has_kind e mem v 0
| K_object : t_type v = JObject -> has_kind e mem v 6
| K_array : t_type v = JArray -> has_kind e mem v 5
| K_bool : t_type v = JPrimitive -> says_bool mem v -> has_kind e mem v 3
| K_null : t_type v = JPrimitive -> ~ says_bool mem v -> says_null mem v -> has_kind e mem v 4
| K_integer : t_type v = JPrimitive -> ~ says_bool mem v -> ~ says_null mem v ->
    e_checknum e (span mem v) = 1%Z -> has_kind e mem v 1
| K_number : t_type v = JPrimitive -> ~ says_bool mem v -> ~ says_null mem v ->
    e_checknum e (span mem v) = 2%Z -> has_kind e mem v 2.

(** How reading names and values from a list of tokens ends: at its end; at a pair that is none; at a
    name without value at the very end; with a container [v] whose tokens are the last ones. [walk]
    also lists type, name and value (as written) of the claims met before. *)
Inductive ending := Done | Rejected | Lone | Last (v : tok).
Inductive walk (e : env) (mem : bytes) : list tok -> list entry -> ending -> Prop :=
| W_done : walk e mem [] [] Done
| W_lone k : walk e mem [k] [] Lone
| W_key k v l : t_type k <> JString -> walk e mem (k :: v :: l) [] Rejected
| W_value k v l : t_type k = JString -> (forall ty, ~ has_kind e mem v ty) -> walk e mem (k :: v :: l) [] Rejected
| W_flat k v l ty es o : t_type k = JString -> ~ nested v -> has_kind e mem v ty -> walk e mem l es o ->
    walk e mem (k :: v :: l) ((ty, span mem k, span mem v) :: es) o
| W_nested k v inside t l ty es o : t_type k = JString -> nested v -> has_kind e mem v ty ->
    Forall (fun x => t_end x <= t_end v)%Z inside -> (t_end v < t_end t)%Z -> walk e mem (t :: l) es o ->
    walk e mem (k :: v :: inside ++ t :: l) ((ty, span mem k, span mem v) :: es) o
| W_last k v inside ty : t_type k = JString -> nested v -> has_kind e mem v ty ->
    Forall (fun x => t_end x <= t_end v)%Z inside -> walk e mem (k :: v :: inside) [(ty, span mem k, span mem v)] (Last v).

(** ** The fate of a text *)
(** [js] is the text, [post] what lies behind it in memory. *)
Inductive fate := Read (es : list entry) | Refused | Over.
(** The claims are read up to the token behind the last one: whether that is harmless. The stack array
    has 64 elements, the allocated one as many as there are tokens. *)
Definition past_end (e : env) (r : Z) (o : ending) : Prop :=
  match o with
  | Lone => (64 <= r)%Z
  | Last v => (64 <= r)%Z \/ r = 63%Z /\ (t_end (e_tok_junk e 63) <= t_end v)%Z
  | _ => False
  end.
Inductive ending_fate (e : env) : Z -> list entry -> ending -> fate -> Prop :=
| EF_over r es o : past_end e r o -> ending_fate e r es o Over
| EF_done r es : ending_fate e r es Done (Read es)
| EF_last r es v : ~ past_end e r (Last v) -> ending_fate e r es (Last v) (Read es)
| EF_rejected r es : ending_fate e r es Rejected Refused
| EF_lone r es : ~ past_end e r Lone -> ending_fate e r es Lone Refused.
Inductive has_fate (e : env) (js post : bytes) : fate -> Prop :=
| HF_empty : fst (jsmn_parse js None) = 0%Z -> has_fate e js post (Read [])
| HF_bad : (fst (jsmn_parse js None) < 0)%Z -> has_fate e js post Refused
| HF_bad2 : (0 < fst (jsmn_parse js None))%Z -> (fst (jsmn_parse js (Some (fst (jsmn_parse js None)))) < 0)%Z ->
    has_fate e js post Refused
| HF_other r t0 l : (0 < r)%Z -> fst (jsmn_parse js None) = r -> jsmn_parse js (Some r) = (r, t0 :: l) -> t_type t0 <> JObject ->
    has_fate e js post Refused
| HF_walk r t0 l es o f : (0 < r)%Z -> fst (jsmn_parse js None) = r -> jsmn_parse js (Some r) = (r, t0 :: l) -> t_type t0 = JObject ->
    walk e (js ++ post) l es o -> ending_fate e r es o f -> has_fate e js post f.

(** ** Literals *)
Lemma strncmp_starts a : no_nul a -> forall s r, (length a <= length s)%nat ->
  exists z, strncmp s (a ++ r) (N.of_nat (length a)) = OK z /\ (z = 0%Z <-> starts a s).
Proof.
  induction a as [|c a IH]; intros Ha s r Hl.
  - exists 0%Z. split; [destruct s; reflexivity|]. split; [intros _; exists s; reflexivity|reflexivity].
  - apply no_nul_cons in Ha as [Hc Ha]. destruct s as [|d s]; [simpl in Hl; lia|]. cbn [length] in *.
    cbn [strncmp app]. destruct (N.eqb_spec (N.of_nat (S (length a))) 0); [lia|].
    destruct (Byte.eqb d c) eqn:E.
    + apply byte_eqb_eq in E. subst d. apply is_nul_false in Hc. rewrite Hc.
      replace (N.of_nat (S (length a)) - 1)%N with (N.of_nat (length a)) by lia.
      destruct (IH Ha s r) as (z & -> & K); [lia|]. exists z. split; [reflexivity|]. rewrite K.
      split; intros (q & Hq); exists q; [rewrite Hq; reflexivity|]. cbn [app] in Hq. congruence.
    + eexists. split; [reflexivity|]. apply byte_eqb_neq in E. split.
      * intros C. exfalso. apply E. unfold b2z in C. assert (E' : b2n d = b2n c) by lia.
        apply (f_equal n2b) in E'. rewrite !n2b_b2n in E'. exact E'.
      * intros (q & Hq). cbn [app] in Hq. congruence.
Qed.
Lemma strncmp_lit t k s : clit t = lit t ++ [x00] -> no_nul (lit t) -> length (lit t) = N.to_nat k -> (N.to_nat k <= length s)%nat ->
  exists z, strncmp s (clit t) k = OK z /\ (z = 0%Z <-> starts (lit t) s).
Proof.
  intros E Hn Hk Hs. rewrite E. replace k with (N.of_nat (length (lit t))) by lia. apply strncmp_starts; [exact Hn|lia].
Qed.

Lemma has_kind_fun e mem v a b : has_kind e mem v a -> has_kind e mem v b -> a = b.
Proof. intros H1 H2. inversion H1; subst; inversion H2; subst; try reflexivity; try congruence; try contradiction. Qed.
Lemma claim_type_prim e mem n a r i v : tok_in n v -> (n + 5 <= length mem)%nat -> t_type v = JPrimitive ->
  (exists ty, has_kind e mem v ty /\ claim_type e mem a r i v = OK (Some (ty, i)))
  \/ ((forall ty, ~ has_kind e mem v ty) /\ claim_type e mem a r i v = OK None).
Proof.
  intros (_ & V1 & V2 & V3) Hm Ht. rewrite Ht in V3. specialize (V3 ltac:(discriminate)). unfold claim_type. rewrite Ht.
  unfold at_off. destruct ((0 <=? t_start v) && (t_start v <=? Z.of_nat (length mem)))%Z eqn:E1; [|lia]. cbn [ubind].
  assert (Hb : says_bool mem v <-> says_bool mem v) by reflexivity. unfold says_bool in Hb at 2. cbv zeta in Hb.
  assert (Hnl : says_null mem v <-> says_null mem v) by reflexivity. unfold says_null in Hnl at 2.
  assert (Hi : e_checknum e (span mem v) = 1%Z -> ~ says_bool mem v -> ~ says_null mem v -> has_kind e mem v L8W8JWT_CLAIM_TYPE_INTEGER)
    by (intros; constructor; assumption).
  assert (Hnu : e_checknum e (span mem v) = 2%Z -> ~ says_bool mem v -> ~ says_null mem v -> has_kind e mem v L8W8JWT_CLAIM_TYPE_NUMBER)
    by (intros; constructor; assumption).
  assert (Hx : ~ says_bool mem v -> ~ says_null mem v -> e_checknum e (span mem v) <> 1%Z -> e_checknum e (span mem v) <> 2%Z ->
    forall ty, ~ has_kind e mem v ty) by (intros; intros C; inversion C; subst; congruence || contradiction).
  unfold span in Hi, Hnu, Hx.
  set (s := skipn (Z.to_nat (t_start v)) mem) in *. set (k := (t_end v - t_start v)%Z) in *.
  assert (Hs : (5 <= length s)%nat) by (unfold s; rewrite skipn_length; lia).
  assert (Hk : (0 < k)%Z /\ (Z.to_nat k <= length s)%nat) by (unfold s, k; rewrite skipn_length; lia).
  destruct (strncmp_lit "true"%string 4 s eq_refl) as (z1 & S1 & Z1); [intros C; cbn in C; intuition discriminate|reflexivity|cbn; lia|].
  destruct (strncmp_lit "false"%string 5 s eq_refl) as (z2 & S2 & Z2); [intros C; cbn in C; intuition discriminate|reflexivity|cbn; lia|].
  destruct (strncmp_lit "null"%string 4 s eq_refl) as (z3 & S3 & Z3); [intros C; cbn in C; intuition discriminate|reflexivity|cbn; lia|].
  rewrite S1, S2, S3. cbn [ubind]. destruct (Z.ltb_spec k 0); [lia|].
  rewrite take_ok by lia. cbn [ubind]. rewrite Z_N_nat.
  assert (Num : ~ says_bool mem v -> ~ says_null mem v ->
    (exists ty, has_kind e mem v ty /\ (if (e_checknum e (firstn (Z.to_nat k) s) =? 1)%Z then OK (Some (L8W8JWT_CLAIM_TYPE_INTEGER, i))
       else if (e_checknum e (firstn (Z.to_nat k) s) =? 2)%Z then OK (Some (L8W8JWT_CLAIM_TYPE_NUMBER, i)) else OK None) = OK (Some (ty, i)))
    \/ ((forall ty, ~ has_kind e mem v ty) /\ (if (e_checknum e (firstn (Z.to_nat k) s) =? 1)%Z then OK (Some (L8W8JWT_CLAIM_TYPE_INTEGER, i))
       else if (e_checknum e (firstn (Z.to_nat k) s) =? 2)%Z then OK (Some (L8W8JWT_CLAIM_TYPE_NUMBER, i)) else OK None) = OK None)).
  { intros B0 N0. destruct (Z.eqb_spec (e_checknum e (firstn (Z.to_nat k) s)) 1); [left; eexists; split; [apply Hi; assumption|reflexivity]|].
    destruct (Z.eqb_spec (e_checknum e (firstn (Z.to_nat k) s)) 2); [left; eexists; split; [apply Hnu; assumption|reflexivity]|].
    right. split; [|reflexivity]. apply Hx; assumption. }
  destruct (Z.leb_spec k 5) as [K5|K5].
  - destruct (Z.eqb_spec z1 0) as [B1|B1]; cbn [ubind];
      [left; eexists; split; [apply K_bool; [exact Ht|apply Hb; split; [exact K5|left; apply Z1, B1]]|reflexivity]|].
    destruct (Z.eqb_spec z2 0) as [B2|B2]; cbn [ubind];
      [left; eexists; split; [apply K_bool; [exact Ht|apply Hb; split; [exact K5|right; apply Z2, B2]]|reflexivity]|].
    assert (B0 : ~ says_bool mem v) by (intros C; apply Hb in C as [_ [C|C]]; [apply Z1 in C|apply Z2 in C]; contradiction).
    destruct (Z.eqb_spec k 4) as [K4|K4].
    + destruct (Z.eqb_spec z3 0) as [B3|B3]; cbn [ubind];
        [left; eexists; split; [apply K_null; [exact Ht|exact B0|apply Hnl; split; [exact K4|apply Z3, B3]]|reflexivity]|].
      apply Num; [exact B0|]. intros C. apply Hnl in C as [_ C]. apply Z3 in C. contradiction.
    + cbn [ubind]. apply Num; [exact B0|]. intros C. apply Hnl in C as [C _]. lia.
  - cbn [ubind]. destruct (Z.eqb_spec k 4); [lia|]. cbn [ubind]. apply Num.
    + intros C. apply Hb in C as [C _]. lia.
    + intros C. apply Hnl in C as [C _]. lia.
Qed.

(** ** Skipping *)
Lemma split_inside vend l : exists inside rest, l = inside ++ rest /\ Forall (fun x => t_end x <= vend)%Z inside
  /\ (rest = [] \/ exists t l', rest = t :: l' /\ (vend < t_end t)%Z).
Proof.
  induction l as [|x l IH]; [exists [], []; auto|].
  destruct (Z_le_dec (t_end x) vend).
  - destruct IH as (i & r & -> & H1 & H2). exists (x :: i), r. repeat split; auto.
  - exists [], (x :: l). split; [reflexivity|]. split; [constructor|right]. exists x, l. split; [reflexivity|lia].
Qed.
Lemma split_unique vend i : forall i' t l t' l', i ++ t :: l = i' ++ t' :: l' ->
  Forall (fun x => t_end x <= vend)%Z i -> Forall (fun x => t_end x <= vend)%Z i' -> (vend < t_end t)%Z -> (vend < t_end t')%Z ->
  t :: l = t' :: l'.
Proof.
  induction i as [|x i IH]; intros [|x' i'] t l t' l' E H1 H2 H3 H4; cbn [app] in E.
  - exact E.
  - injection E as -> _. apply Forall_inv in H2. cbv beta in H2. lia.
  - injection E as -> _. apply Forall_inv in H1. cbv beta in H1. lia.
  - injection E as -> E. apply Forall_inv_tail in H1, H2. eapply IH; eauto.
Qed.
Lemma split_never vend i t l : (vend < t_end t)%Z -> ~ Forall (fun x => t_end x <= vend)%Z (i ++ t :: l).
Proof. intros H C. apply Forall_app in C as [_ C]. apply Forall_inv in C. cbv beta in C. lia. Qed.

Lemma skip_stop toks cap junk vend : forall inner pre t rest fuel,
  toks = pre ++ inner ++ t :: rest -> pre <> [] -> (Z.of_nat (length toks) <= cap)%Z ->
  Forall (fun x => (t_end x <= vend)%Z) inner -> (vend < t_end t)%Z -> (length inner + 2 <= fuel)%nat ->
  skip_nested fuel (TokArr toks cap junk) (Z.of_nat (length toks)) vend (Z.of_nat (length pre) - 1)
  = OK (Z.of_nat (length (pre ++ inner)) - 1)%Z.
Proof.
  induction inner as [|x inner IH]; intros pre t rest fuel E Hp Hcap Hi Ht Hf; (destruct fuel as [|f]; [simpl in Hf; lia|]);
    cbn [skip_nested]; replace (Z.of_nat (length pre) - 1 + 1)%Z with (Z.of_nat (length pre)) by lia; cbn [app length] in *;
    (assert (L : (Z.of_nat (length pre) < Z.of_nat (length toks))%Z) by (rewrite E, !app_length; cbn [length]; lia));
    unfold tok_at at 1; cbn [ta_cap ta_toks ta_junk];
    (destruct ((_ <? 0) || (cap <=? _))%Z eqn:Eb; [lia|]); cbn [ubind]; rewrite Nat2Z.id.
  - replace (nth (length pre) toks (junk (Z.of_nat (length pre)))) with t
      by (rewrite E, app_nth2, Nat.sub_diag; [reflexivity|lia]).
    destruct (Z.leb_spec (t_end t) vend); [lia|]. cbn [andb]. rewrite app_nil_r. reflexivity.
  - replace (nth (length pre) toks (junk (Z.of_nat (length pre)))) with x
      by (rewrite E, app_nth2, Nat.sub_diag; [reflexivity|lia]).
    pose proof (Forall_inv Hi) as Hx. cbv beta in Hx. destruct (Z.leb_spec (t_end x) vend); [|lia].
    replace (Z.of_nat (length pre) - 1 <? Z.of_nat (length toks))%Z with true by lia. cbn [andb].
    replace (Z.of_nat (length pre)) with (Z.of_nat (length (pre ++ [x])) - 1)%Z by (rewrite app_length; cbn [length]; lia).
    rewrite (IH (pre ++ [x]) t rest f); auto.
    + rewrite <- app_assoc. reflexivity.
    + rewrite <- app_assoc. exact E.
    + destruct pre; discriminate.
    + apply (Forall_inv_tail Hi).
    + lia.
Qed.

Section Walk.
Variables (e : env) (mem : bytes) (n : nat) (toks : list tok) (cap : Z) (junk : Z -> tok).
Let a := TokArr toks cap junk.
Let r := Z.of_nat (length toks).
Hypothesis Ht : Forall (tok_in n) toks.
Hypothesis Hn : (n + 5 <= length mem)%nat.
Hypothesis Hcap : (r <= cap)%Z.

Definition stops (es : list entry) (o : ending) (x : U (Z * list entry)) : Prop :=
  match o with
  | Done => x = OK (L8W8JWT_SUCCESS, es)
  | Rejected => x = OK (L8W8JWT_DECODE_FAILED_INVALID_TOKEN_FORMAT, es)
  | Lone => x = if (cap <=? r)%Z then KO OOBRead else OK (L8W8JWT_DECODE_FAILED_INVALID_TOKEN_FORMAT, es)
  | Last v => x = if (cap <=? r)%Z || ((t_end (junk r) <=? t_end v) && (cap <=? r + 1))%Z then KO OOBRead
              else OK (L8W8JWT_SUCCESS, es)
  end.
Lemma stops_cons es o x ent : stops es o x -> stops (ent :: es) o (y <-u x ;; OK (fst y, ent :: snd y)).
Proof.
  destruct o as [| | |v]; cbn [stops]; intros ->; try reflexivity.
  - destruct (cap <=? r)%Z; reflexivity.
  - destruct (_ || _); reflexivity.
Qed.

Lemma read_walk m : forall tl pre fuel, (length tl <= m)%nat -> toks = pre ++ tl -> pre <> [] -> (length tl < fuel)%nat ->
  exists es o, walk e mem tl es o /\ (forall es' o', walk e mem tl es' o' -> es' = es /\ o' = o)
    /\ stops es o (read_claims fuel e mem a r (Z.of_nat (length pre))).
Proof.
  induction m as [|m IH]; intros tl pre fuel Hm E Hp Hf; (destruct fuel as [|f]; [lia|]); cbn [read_claims].
  { destruct tl; [|simpl in Hm; lia]. exists [], Done. split; [constructor|]. split; [intros es' o' H; inversion H; auto|].
    rewrite app_nil_r in E. replace (Z.of_nat (length pre) <? r)%Z with false by (unfold r; rewrite E; lia). reflexivity. }
  assert (Hn' : (n <= length mem)%nat) by lia.
  destruct tl as [|k [|v l]].
  - exists [], Done. split; [constructor|]. split; [intros es' o' H; inversion H; auto|].
    rewrite app_nil_r in E. replace (Z.of_nat (length pre) <? r)%Z with false by (unfold r; rewrite E; lia). reflexivity.
  - exists [], Lone. split; [constructor|]. split; [intros es' o' H; inversion H; auto|].
    assert (Er : r = (Z.of_nat (length pre) + 1)%Z) by (unfold r; rewrite E, app_length; cbn [length]; lia).
    replace (Z.of_nat (length pre) <? r)%Z with true by lia. cbn [negb].
    unfold a; rewrite (tok_at_app mem n toks cap junk Hn' Hcap pre k _ E); cbn [ubind].
    rewrite <- Er. unfold tok_at. cbn [ta_cap ta_toks ta_junk]. replace (r <? 0)%Z with false by lia. cbn [orb stops].
    destruct (cap <=? r)%Z; [reflexivity|]. cbn [ubind]. rewrite Z.leb_refl. cbn [orb]. reflexivity.
  - cbn [length] in Hm, Hf.
    assert (Lr : r = Z.of_nat (length pre + 2 + length l)) by (unfold r; rewrite E, app_length; cbn [length]; lia).
    replace (Z.of_nat (length pre) <? r)%Z with true by lia. cbn [negb].
    assert (E2 : toks = (pre ++ [k]) ++ v :: l) by (rewrite E, <- app_assoc; reflexivity).
    unfold a; rewrite (tok_at_app mem n toks cap junk Hn' Hcap pre k _ E); cbn [ubind].
    replace (Z.of_nat (length pre) + 1)%Z with (Z.of_nat (length (pre ++ [k]))) by (rewrite app_length; cbn [length]; lia).
    rewrite (tok_at_app mem n toks cap junk Hn' Hcap _ v _ E2). cbn [ubind].
    replace (r <=? Z.of_nat (length (pre ++ [k])))%Z with false by (rewrite app_length; cbn [length]; lia). cbn [orb].
    assert (Hv : tok_in n v) by (rewrite Forall_forall in Ht; apply Ht; rewrite E2; apply in_app_iff; right; left; reflexivity).
    destruct (jtype_eqb (t_type k) JString) eqn:Ek.
    2:{ assert (Nk : t_type k <> JString) by (intros C; rewrite C in Ek; discriminate).
        exists [], Rejected. split; [constructor; exact Nk|]. split; [|reflexivity].
        intros es' o' H; inversion H; subst; auto; congruence. }
    assert (Sk : t_type k = JString) by (destruct (t_type k); (discriminate || reflexivity)). cbn [negb]. clear Ek.
    assert (Step : forall ty l2 pre2, toks = pre2 ++ l2 -> pre2 <> [] -> (length l2 <= m)%nat -> (length l2 < f)%nat ->
      claim_type e mem (TokArr toks cap junk) r (Z.of_nat (length (pre ++ [k]))) v = OK (Some (ty, (Z.of_nat (length pre2) - 1)%Z)) ->
      exists es o, walk e mem l2 es o /\ (forall es' o', walk e mem l2 es' o' -> es' = es /\ o' = o)
        /\ stops ((ty, span mem k, span mem v) :: es) o (ct <-u claim_type e mem (TokArr toks cap junk) r (Z.of_nat (length (pre ++ [k]))) v ;;
             match ct with
             | Some (type, i') => x <-u read_claims f e mem (TokArr toks cap junk) r (i' + 1) ;;
                 OK (fst x, (type, span mem k, span mem v) :: snd x)
             | None => OK (L8W8JWT_DECODE_FAILED_INVALID_TOKEN_FORMAT, []) end)).
    { intros ty l2 pre2 F1 F2 F3 F4 CT. rewrite CT. cbn [ubind].
      replace (Z.of_nat (length pre2) - 1 + 1)%Z with (Z.of_nat (length pre2)) by lia.
      destruct (IH l2 pre2 f F3 F1 F2 F4) as (es & o & O1 & O2 & O3). exists es, o. split; [exact O1|]. split; [exact O2|].
      apply stops_cons. exact O3. }
    assert (Flat : forall ty, ~ nested v -> has_kind e mem v ty -> claim_type e mem (TokArr toks cap junk) r (Z.of_nat (length (pre ++ [k]))) v
      = OK (Some (ty, Z.of_nat (length (pre ++ [k])))) ->
      exists es o, walk e mem (k :: v :: l) es o /\ (forall es' o', walk e mem (k :: v :: l) es' o' -> es' = es /\ o' = o)
        /\ stops es o (ct <-u claim_type e mem (TokArr toks cap junk) r (Z.of_nat (length (pre ++ [k]))) v ;;
             match ct with
             | Some (type, i') => x <-u read_claims f e mem (TokArr toks cap junk) r (i' + 1) ;;
                 OK (fst x, (type, span mem k, span mem v) :: snd x)
             | None => OK (L8W8JWT_DECODE_FAILED_INVALID_TOKEN_FORMAT, []) end)).
    { intros ty Nn Hkd CT. destruct (Step ty l (pre ++ [k; v])) as (es & o & O1 & O2 & O3).
      - rewrite E, <- app_assoc. reflexivity.
      - destruct pre; discriminate.
      - lia.
      - lia.
      - rewrite CT. do 3 f_equal. rewrite !app_length. cbn [length]. lia.
      - exists ((ty, span mem k, span mem v) :: es), o. split; [apply W_flat; assumption|]. split; [|exact O3].
        intros es' o' H.
        inversion H; subst; try contradiction; try congruence; auto.
        + exfalso. match goal with X : forall ty, ~ has_kind _ _ _ ty |- _ => apply (X _ Hkd) end.
        + match goal with X : walk _ _ l _ _ |- _ => apply O2 in X as [-> ->] end.
          match goal with X : has_kind _ _ _ ?t |- (?t, _, _) :: _ = _ /\ _ => rewrite (has_kind_fun _ _ _ _ _ X Hkd) end. auto. }
    assert (Deep : forall ty, nested v -> has_kind e mem v ty -> (forall i, claim_type e mem (TokArr toks cap junk) r i v
      = (i' <-u skip_nested (S (S (Z.to_nat r))) (TokArr toks cap junk) r (t_end v) i ;; OK (Some (ty, i')))) ->
      exists es o, walk e mem (k :: v :: l) es o /\ (forall es' o', walk e mem (k :: v :: l) es' o' -> es' = es /\ o' = o)
        /\ stops es o (ct <-u claim_type e mem (TokArr toks cap junk) r (Z.of_nat (length (pre ++ [k]))) v ;;
             match ct with
             | Some (type, i') => x <-u read_claims f e mem (TokArr toks cap junk) r (i' + 1) ;;
                 OK (fst x, (type, span mem k, span mem v) :: snd x)
             | None => OK (L8W8JWT_DECODE_FAILED_INVALID_TOKEN_FORMAT, []) end)).
    { intros ty Hnv Hkd CT.
      destruct (split_inside (t_end v) l) as (inside & rest & El & Hi & [Er|(t & l' & Er & Htl)]).
      - rewrite Er, app_nil_r in El. subst inside. exists [(ty, span mem k, span mem v)], (Last v). split; [constructor; assumption|]. split.
        { intros es' o' H; inversion H; subst; try contradiction; try congruence.
          3: match goal with X : has_kind _ _ _ ?t |- [(?t, _, _)] = _ /\ _ => rewrite (has_kind_fun _ _ _ _ _ X Hkd); auto end.
          1: exfalso; match goal with X : forall ty, ~ has_kind _ _ _ ty |- _ => apply (X _ Hkd) end.
          match goal with X : Forall _ (_ ++ _) |- _ => exfalso; eapply split_never; [|exact X]; assumption end. }
        rewrite CT.
        assert (S1 := skip_last toks cap junk (t_end v) l (pre ++ [k; v]) (S (S (Z.to_nat r)))).
        specialize (S1 ltac:(rewrite E, <- app_assoc; reflexivity) ltac:(destruct pre; discriminate) Hcap Hi ltac:(lia)). cbv zeta in S1.
        replace (Z.of_nat (length (pre ++ [k; v])) - 1)%Z with (Z.of_nat (length (pre ++ [k]))) in S1
          by (rewrite !app_length; cbn [length]; lia).
        fold r in S1. rewrite S1. cbn [stops].
        assert (Fin : forall i, (r <= i + 1)%Z -> (0 < f)%nat -> read_claims f e mem (TokArr toks cap junk) r (i + 1) = OK (L8W8JWT_SUCCESS, [])).
        { intros i Hi' Hf'. destruct f as [|f']; [lia|]. cbn [read_claims]. destruct (Z.ltb_spec (i + 1) r); [lia|]. reflexivity. }
        destruct (cap <=? r)%Z; cbn [orb]; [reflexivity|].
        destruct (t_end (junk r) <=? t_end v)%Z; cbn [andb].
        + destruct (cap <=? r + 1)%Z; [reflexivity|]. cbn [ubind]. rewrite Fin by lia. reflexivity.
        + cbn [ubind]. rewrite Fin by lia. reflexivity.
      - subst rest.
        assert (S1 := skip_stop toks cap junk (t_end v) inside (pre ++ [k; v]) t l' (S (S (Z.to_nat r)))).
        specialize (S1 ltac:(rewrite E, El, <- app_assoc; reflexivity) ltac:(destruct pre; discriminate) Hcap Hi Htl
          ltac:(rewrite El, app_length in Lr; lia)).
        replace (Z.of_nat (length (pre ++ [k; v])) - 1)%Z with (Z.of_nat (length (pre ++ [k]))) in S1
          by (rewrite !app_length; cbn [length]; lia).
        fold r in S1.
        destruct (Step ty (t :: l') ((pre ++ [k; v]) ++ inside)) as (es & o & O1 & O2 & O3).
        + rewrite E, El, <- !app_assoc. reflexivity.
        + destruct pre; discriminate.
        + rewrite El, app_length in Hm. lia.
        + rewrite El, app_length in Hf. lia.
        + rewrite CT, S1. reflexivity.
        + exists ((ty, span mem k, span mem v) :: es), o. rewrite El. split; [apply W_nested; assumption|]. split; [|exact O3].
          intros es' o' H. revert H. generalize (eq_refl (inside ++ t :: l')). generalize (inside ++ t :: l') at 1 3.
          intros l0 E0 H. inversion H; subst; try contradiction; try congruence.
          * exfalso; match goal with X : forall ty, ~ has_kind _ _ _ ty |- _ => apply (X _ Hkd) end.
          * match goal with X : walk _ _ (?t2 :: ?l2) _ o', Y : _ ++ ?t2 :: ?l2 = _ |- _ =>
              rewrite (split_unique (t_end v) _ _ _ _ _ _ Y) in X by assumption; apply O2 in X as [-> ->] end.
            match goal with X : has_kind _ _ _ ?t |- (?t, _, _) :: _ = _ /\ _ => rewrite (has_kind_fun _ _ _ _ _ X Hkd); auto end.
          * match goal with X : Forall _ (_ ++ _) |- _ => exfalso; eapply split_never; [|exact X]; assumption end. }
    destruct (t_type v) eqn:Tv.
    + exfalso. destruct Hv as (Hv & _). congruence.
    + apply (Deep L8W8JWT_CLAIM_TYPE_OBJECT); [left; exact Tv|constructor; exact Tv|]. intros i. unfold claim_type. rewrite Tv. reflexivity.
    + apply (Deep L8W8JWT_CLAIM_TYPE_ARRAY); [right; exact Tv|constructor; exact Tv|]. intros i. unfold claim_type. rewrite Tv. reflexivity.
    + apply (Flat L8W8JWT_CLAIM_TYPE_STRING); [intros [C|C]; congruence|constructor; exact Tv|]. unfold claim_type. rewrite Tv. reflexivity.
    + destruct (claim_type_prim e mem n (TokArr toks cap junk) r (Z.of_nat (length (pre ++ [k]))) v Hv Hn Tv) as [(ty & U1 & CT)|(U1 & CT)].
      * apply (Flat ty); [intros [C|C]; congruence|exact U1|exact CT].
      * exists [], Rejected. split; [apply W_value; assumption|]. split; [|rewrite CT; reflexivity].
        intros es' o' H. inversion H; subst; auto; exfalso;
          match goal with X : has_kind _ _ _ ?t |- _ => apply (U1 _ X) end.
Qed.
End Walk.

(** ** l8w8jwt_parse_claims *)
Lemma jsmn_nonempty js r toks : jsmn_parse js (Some r) = (r, toks) -> (0 < r)%Z -> exists t0 l, toks = t0 :: l.
Proof. intros H Hr. apply jsmn_tokens in H as [H _]; [|lia]. destruct toks as [|t0 l]; [simpl in H; lia|eauto]. Qed.

Lemma parse_claims_of_read p e c b mem len w t0 toks fin es :
  uses_jsmn e -> (32 <= p_size_bits p)%N -> (Z.of_N len <= INT_MAX)%Z -> (N.to_nat len <= length mem)%nat -> wf w ->
  let js := firstn (N.to_nat len) mem in let r := fst (jsmn_parse js None) in
  (0 < r)%Z -> jsmn_parse js (Some r) = (r, t0 :: toks) -> t_type t0 = JObject ->
  read_claims (S (Z.to_nat r)) e mem (token_array e r (t0 :: toks)) r 1 = OK (fin, es) ->
  exists rc c' w', l8w8jwt_parse_claims p e c (Ptr b mem) len w = Ret (rc, c') w' /\ (allocs w -> rc = fin).
Proof.
  intros Hj Hp Hm Ht Hwf js r Hpos P T0 R. unfold l8w8jwt_parse_claims. unfold mbind at 1. cbn [deref lift].
  unfold mbind at 1. rewrite take_ok by lia. cbn [lift].
  destruct (Z.ltb_spec INT_MAX (Z.of_N len)); [lia|]. cbv zeta. rewrite !Hj. fold js. fold r.
  destruct (Z.eqb_spec r 0); [lia|]. destruct (Z.ltb_spec r 0); [lia|].
  destruct (jsmn_tokens _ _ _ _ P ltac:(lia)) as [Hlen Htok].
  destruct (before_nul_firstn (N.to_nat len) mem) as (B1 & B2 & B3). fold js in B1, B2, B3.
  assert (Hint : (Z.of_nat (length (before_nul js)) <= INT_MAX)%Z) by lia.
  assert (G : forall w1 blk, wf w1 -> (match blk with Some id => w_live w1 id = true | None => True end) ->
    exists rc c' w', (let '(r2, toks0) := jsmn_parse js (Some r) in
       if (r2 <? 0)%Z then mret (L8W8JWT_DECODE_FAILED_INVALID_TOKEN_FORMAT, c)
       else t1 <- lift (tok_at (TokArr toks0 (if (r <=? 64)%Z then 64 else r)%Z (e_tok_junk e)) 0) ;;
         '(rc, buffer) <- (if negb (jtype_eqb (t_type t1) JObject)
             then mret (L8W8JWT_DECODE_FAILED_INVALID_TOKEN_FORMAT, c)
             else claims_loop (S (Z.to_nat r2)) p e mem (TokArr toks0 (if (r <=? 64)%Z then 64 else r)%Z (e_tok_junk e)) r2 1 c) ;;
          _ <- (match blk with Some id => free_id id | None => mret tt end) ;;
          mret (rc, buffer)) w1 = Ret (rc, c') w' /\ (allocs w1 -> rc = fin)).
  { intros w1 blk W1 L1. rewrite P. destruct (Z.ltb_spec r 0); [lia|].
    unfold tok_at. cbn [ta_cap ta_toks ta_junk].
    replace ((0 <? 0)%Z || ((if (r <=? 64)%Z then 64 else r) <=? 0)%Z) with false
      by (destruct (Z.leb_spec r 64); lia).
    unfold mbind at 1. cbn [lift nth Z.to_nat]. rewrite T0. cbn [jtype_eqb negb].
    pose proof (claims_loop_eq p e mem _ (t0 :: toks) (if (r <=? 64)%Z then 64 else r)%Z r (e_tok_junk e) Hp ltac:(lia) Htok B3 Hint
      (S (Z.to_nat r)) 1 c w1 _ _ ltac:(lia) R) as Ec.
    destruct (push_all_total p es fin c w1) as (rc & c' & w2 & Ep). rewrite Ep in Ec.
    assert (Hfin : allocs w1 -> rc = fin).
    { intros A. destruct (push_all_ok p es fin c w1 A) as (c2 & w3 & E). congruence. }
    unfold mbind at 1. rewrite Ec. destruct blk as [id|]; [|eexists _, _, _; split; [reflexivity|exact Hfin]].
    destruct (claims_loop_inv _ _ _ _ _ _ _ _ _ _ _ _ W1 Ec) as (new & lost & (_ & _ & _ & _ & _ & _ & Hlv) & _).
    unfold mbind at 1. rewrite free_id_eq by (apply Hlv; auto). eexists _, _, _. split; [reflexivity|exact Hfin]. }
  destruct (r <=? 64)%Z eqn:E64.
  - unfold mbind at 1. unfold mret at 1. apply (G w None); auto.
  - unfold mbind at 1. unfold mbind at 1. rewrite alloc_eq. destruct (w_alloc w (w_next w)) eqn:Ea.
    + cbn [option_map]. unfold mret at 1. destruct (G (w_ok w) (Some (w_next w))) as (rc & c' & w' & E1 & E2).
      * eapply adds_wf; [apply adds_ok|exact Hwf].
      * cbn [w_ok w_live]. apply upd_live_same.
      * exists rc, c', w'. split; [exact E1|]. intros A. apply E2. apply allocs_ok, A.
    + eexists _, _, _. split; [reflexivity|]. intros A. rewrite A in Ea. discriminate.
Qed.

(** What becomes of a text is determined, and it is what l8w8jwt_parse_claims does. *)
Theorem parse_claims_fate p e c b js post w :
  uses_jsmn e -> (32 <= p_size_bits p)%N -> (Z.of_nat (length js) <= INT_MAX)%Z -> (5 <= length post)%nat -> wf w ->
  let call := l8w8jwt_parse_claims p e c (Ptr b (js ++ post)) (N.of_nat (length js)) w in
  exists f, has_fate e js post f /\ (forall f', has_fate e js post f' -> f' = f)
  /\ match f with
     | Read es => exists rc c' w', call = Ret (rc, c') w' /\ (allocs w -> rc = L8W8JWT_SUCCESS)
         /\ (rc = L8W8JWT_SUCCESS -> exists new sub, cb_elems c' = cb_elems c ++ new /\ subseq sub es /\ Forall2 holds new sub
              /\ Forall entry_plain es /\ (grows w -> sub = es))
     | Refused => exists rc c' w', call = Ret (rc, c') w' /\ rc <> L8W8JWT_SUCCESS
                  /\ (allocs w -> rc = L8W8JWT_DECODE_FAILED_INVALID_TOKEN_FORMAT)
     | Over => (allocs w -> call = Undef OOBRead) /\ or_code OOBRead call
     end.
Proof.
  intros Hj Hp Hl Hpost Hwf call.
  assert (Hlen : (Z.of_N (N.of_nat (length js)) <= INT_MAX)%Z) by lia.
  assert (Hmem : (N.to_nat (N.of_nat (length js)) <= length (js ++ post))%nat) by (rewrite app_length; lia).
  assert (Ejs : firstn (N.to_nat (N.of_nat (length js))) (js ++ post) = js) by (rewrite Nat2N.id; apply firstn_app_exact).
  set (r := fst (jsmn_parse js None)).
  assert (Head : call = (if (r =? 0)%Z then mret (L8W8JWT_SUCCESS, c) else if (r <? 0)%Z then mret (L8W8JWT_DECODE_FAILED_INVALID_TOKEN_FORMAT, c)
    else o <- (if (r <=? 64)%Z then mret (Some None) else (o <- alloc ;; mret (option_map Some o))) ;;
      match o with
      | None => mret (L8W8JWT_OUT_OF_MEM, c)
      | Some blk =>
          let '(r2, toks) := jsmn_parse js (Some r) in
          if (r2 <? 0)%Z then mret (L8W8JWT_DECODE_FAILED_INVALID_TOKEN_FORMAT, c)
          else
            t0 <- lift (tok_at (TokArr toks (if (r <=? 64)%Z then 64 else r) (e_tok_junk e)) 0) ;;
            '(rc, buffer) <-
              (if negb (jtype_eqb (t_type t0) JObject)
               then mret (L8W8JWT_DECODE_FAILED_INVALID_TOKEN_FORMAT, c)
               else claims_loop (S (Z.to_nat r2)) p e (js ++ post) (TokArr toks (if (r <=? 64)%Z then 64 else r) (e_tok_junk e)) r2 1 c) ;;
            _ <- (match blk with Some id => free_id id | None => mret tt end) ;;
            mret (rc, buffer)
      end) w).
  { unfold call, l8w8jwt_parse_claims. unfold mbind at 1. cbn [deref lift]. unfold mbind at 1. rewrite take_ok by lia. cbn [lift].
    destruct (Z.ltb_spec INT_MAX (Z.of_N (N.of_nat (length js)))); [lia|]. cbv zeta. rewrite Ejs, !Hj. reflexivity. }
  destruct (Z.eqb_spec r 0) as [R0|R0].
  { exists (Read []). split; [apply HF_empty; exact R0|]. split.
    - intros f' H. inversion H; subst; unfold r in R0; try reflexivity; lia.
    - rewrite Head. eexists _, _, _. split; [reflexivity|]. split; [auto|]. intros _. exists [], []. rewrite app_nil_r.
      split; [reflexivity|]. split; [constructor|]. split; [constructor|]. split; [constructor|auto]. }
  destruct (Z.ltb_spec r 0) as [R1|R1].
  { exists Refused. split; [apply HF_bad; exact R1|]. split.
    - intros f' H. inversion H; subst; unfold r in R0, R1; try reflexivity; lia.
    - rewrite Head. eexists _, _, _. split; [reflexivity|]. split; [discriminate|auto]. }
  destruct (jsmn_parse js None) as [r' l0] eqn:Ej. assert (Er : r' = r) by reflexivity. rewrite Er in Ej. clear Er.
  destruct (jsmn_two_passes _ _ _ Ej R1) as (r2 & toks & Ej2 & Hr2). clearbody r. clear r'.
  destruct (Z.ltb_spec r2 0) as [R2|R2].
  { exists Refused. split; [apply HF_bad2; rewrite Ej; cbn [fst]; [lia|rewrite Ej2; exact R2]|]. split.
    - intros f' H. inversion H; subst; rewrite Ej in *; cbn [fst] in *; try reflexivity; try lia.
      match goal with X : jsmn_parse js (Some _) = (_, _) |- _ => rewrite Ej2 in X; inversion X; subst; lia end.
    - rewrite Head. unfold mbind at 1. destruct (r <=? 64)%Z.
      + cbn [mret]. rewrite Ej2. replace (r2 <? 0)%Z with true by lia. eexists _, _, _. split; [reflexivity|]. split; [discriminate|auto].
      + unfold mbind at 1. rewrite alloc_eq. destruct (w_alloc w (w_next w)) eqn:Ea; cbn [mret option_map].
        * rewrite Ej2. replace (r2 <? 0)%Z with true by lia. eexists _, _, _. split; [reflexivity|]. split; [discriminate|auto].
        * eexists _, _, _. split; [reflexivity|]. split; [discriminate|]. intros A. rewrite A in Ea. discriminate. }
  assert (Er2 : r2 = r) by (destruct Hr2; [assumption|lia]). subst r2.
  destruct (jsmn_nonempty _ _ _ Ej2 ltac:(lia)) as (t0 & l & ->).
  destruct (jtype_eqb (t_type t0) JObject) eqn:Et.
  2:{ assert (Nt : t_type t0 <> JObject) by (intros C; rewrite C in Et; discriminate).
      exists Refused. split; [apply (HF_other e js post r t0 l); rewrite ?Ej; auto; lia|]. split.
      - intros f' H. inversion H; subst; rewrite Ej in *; cbn [fst] in *; try reflexivity; try lia.
        match goal with X : jsmn_parse js (Some _) = (_, _) |- _ => rewrite Ej2 in X; inversion X; subst; contradiction end.
      - rewrite Head. unfold mbind at 1.
        assert (G : forall w1 blk, match blk with Some id => w_live w1 id = true | None => True end ->
          exists w', (let '(r2, toks0) := jsmn_parse js (Some r) in
            if (r2 <? 0)%Z then mret (L8W8JWT_DECODE_FAILED_INVALID_TOKEN_FORMAT, c)
            else t1 <- lift (tok_at (TokArr toks0 (if (r <=? 64)%Z then 64 else r)%Z (e_tok_junk e)) 0) ;;
              '(rc, buffer) <- (if negb (jtype_eqb (t_type t1) JObject)
                then mret (L8W8JWT_DECODE_FAILED_INVALID_TOKEN_FORMAT, c)
                else claims_loop (S (Z.to_nat r2)) p e (js ++ post) (TokArr toks0 (if (r <=? 64)%Z then 64 else r)%Z (e_tok_junk e)) r2 1 c) ;;
              _ <- (match blk with Some id => free_id id | None => mret tt end) ;;
              mret (rc, buffer)) w1 = Ret (L8W8JWT_DECODE_FAILED_INVALID_TOKEN_FORMAT, c) w').
        { intros w1 blk L1. rewrite Ej2. destruct (Z.ltb_spec r 0); [lia|]. unfold tok_at. cbn [ta_cap ta_toks ta_junk].
          replace ((0 <? 0)%Z || ((if (r <=? 64)%Z then 64 else r) <=? 0)%Z) with false by (destruct (Z.leb_spec r 64); lia).
          unfold mbind at 1. cbn [lift nth Z.to_nat]. rewrite Et. cbn [negb]. unfold mbind at 1. unfold mret at 1.
          destruct blk as [id|]; [|eexists; reflexivity]. unfold mbind at 1. rewrite free_id_eq by exact L1. eexists. reflexivity. }
        destruct (r <=? 64)%Z eqn:E64.
        + unfold mret at 1. destruct (G w None I) as (w' & E). rewrite E. eexists _, _, _. split; [reflexivity|]. split; [discriminate|auto].
        + unfold mbind at 1. rewrite alloc_eq. destruct (w_alloc w (w_next w)) eqn:Ea.
          * cbn [option_map]. unfold mret at 1. destruct (G (w_ok w) (Some (w_next w))) as (w' & E); [cbn [w_ok w_live]; apply upd_live_same|].
            rewrite E. eexists _, _, _. split; [reflexivity|]. split; [discriminate|auto].
          * eexists _, _, _. split; [reflexivity|]. split; [discriminate|]. intros A. rewrite A in Ea. discriminate. }
  assert (T0 : t_type t0 = JObject) by (destruct (t_type t0); (discriminate || reflexivity)). clear Et.
  destruct (jsmn_tokens _ _ _ _ Ej2 ltac:(lia)) as [Hn Htok].
  destruct (before_nul_prefix js) as (_ & _ & Lb).
  destruct (read_walk e (js ++ post) (length (before_nul js)) (t0 :: l) (if (r <=? 64)%Z then 64 else r)%Z (e_tok_junk e) Htok)
    with (m := length l) (tl := l) (pre := [t0]) (fuel := S (Z.to_nat r)) as (es & o & O1 & O2 & O3).
  { rewrite app_length. lia. }
  { destruct (Z.leb_spec r 64); lia. }
  { lia. } { reflexivity. } { discriminate. } { cbn [length] in Hn. lia. }
  cbn [length] in O3. change (Z.of_nat 1) with 1%Z in O3. cbn [length] in Hn. rewrite Hn in O3.
  assert (Uniq : forall f, ending_fate e r es o f -> forall f', has_fate e js post f' -> f' = f).
  { intros f Hf f' H. inversion H; subst; rewrite Ej in *; cbn [fst] in *; try lia.
    - rewrite Ej2 in *. cbn [fst] in *. lia.
    - match goal with X : jsmn_parse js (Some _) = (_, _) |- _ => rewrite Ej2 in X; inversion X; subst; contradiction end.
    - match goal with X : jsmn_parse js (Some _) = (_, _) |- _ => rewrite Ej2 in X; inversion X; subst end.
      match goal with X : walk _ _ _ _ _ |- _ => apply O2 in X as [? ?]; subst end.
      match goal with X : ending_fate e _ _ o f' |- _ => inversion Hf; subst; inversion X; subst; try reflexivity; try contradiction end. }
  assert (Start : forall f, ending_fate e r es o f -> has_fate e js post f).
  { intros f Hf. apply (HF_walk e js post r t0 l es o f); auto; [lia|rewrite Ej; reflexivity]. }
  assert (Good : forall fin, read_claims (S (Z.to_nat r)) e (js ++ post)
      {| ta_toks := t0 :: l; ta_cap := if (r <=? 64)%Z then 64 else r; ta_junk := e_tok_junk e |} r 1 = OK (fin, es) ->
    exists rc c' w', call = Ret (rc, c') w' /\ (allocs w -> rc = fin)
      /\ (rc = L8W8JWT_SUCCESS -> fin = L8W8JWT_SUCCESS /\ exists new sub, cb_elems c' = cb_elems c ++ new /\ subseq sub es
           /\ Forall2 holds new sub /\ Forall entry_plain es /\ (grows w -> sub = es))).
  { intros fin Hr. destruct (parse_claims_of_read p e c b (js ++ post) (N.of_nat (length js)) w t0 l fin es) as (rc & c' & w' & E1 & E2);
      auto; rewrite ?Ejs, ?Ej; cbn [fst]; auto; [lia|]. exists rc, c', w'. split; [exact E1|]. split; [exact E2|].
    intros ->. apply parse_claims_reads in E1 as (es' & [(C & _)|(_ & t0' & l' & P & _ & R)] & Hpl & _ & new & sub & E3 & E4 & E5 & E6); auto.
    - rewrite Ejs, Ej in C. cbn [fst] in C. lia.
    - rewrite Ejs, Ej in P, R. cbn [fst] in P, R. rewrite Ej2 in P. injection P as <- <-. unfold token_array in R.
      rewrite Hr in R. injection R as -> ->. split; [reflexivity|]. exists new, sub. auto 6. }
  assert (Bad : read_claims (S (Z.to_nat r)) e (js ++ post)
      {| ta_toks := t0 :: l; ta_cap := if (r <=? 64)%Z then 64 else r; ta_junk := e_tok_junk e |} r 1 = KO OOBRead ->
    (allocs w -> call = Undef OOBRead) /\ or_code OOBRead call).
  { intros Hr. split; [intros A; apply (parse_claims_ko p e c b (js ++ post) (N.of_nat (length js)) w t0 l)|apply (parse_claims_ko_any p e c b (js ++ post) (N.of_nat (length js)) w t0 l)];
      auto; rewrite ?Ejs, ?Ej; cbn [fst]; auto; lia. }
  assert (Cap : forall z, (0 < z)%Z -> ((if (r <=? 64)%Z then 64 else r) <=? z)%Z = (64 <=? z)%Z && (r <=? z)%Z).
  { intros z Hz. destruct (Z.leb_spec r 64); lia. }
  destruct o as [| | |v]; cbn [stops] in O3.
  - exists (Read es). split; [apply Start; constructor|]. split; [apply Uniq; constructor|].
    destruct (Good _ O3) as (rc & c' & w' & E1 & E2 & E3). exists rc, c', w'. split; [exact E1|]. split; [exact E2|apply E3].
  - exists Refused. split; [apply Start; constructor|]. split; [apply Uniq; constructor|].
    destruct (Good _ O3) as (rc & c' & w' & E1 & E2 & E3). exists rc, c', w'. split; [exact E1|]. split; [|exact E2].
    intros C. destruct (E3 C). discriminate.
  - cbn [length] in O3. rewrite Hn in O3. rewrite Cap, Z.leb_refl, andb_true_r in O3 by lia. destruct (Z.leb_spec 64 r) as [C|C].
    + exists Over. assert (EF : ending_fate e r es Lone Over) by (constructor; exact C).
      split; [apply Start, EF|]. split; [apply Uniq, EF|]. apply Bad, O3.
    + assert (EF : ending_fate e r es Lone Refused) by (constructor; cbn [past_end]; lia).
      exists Refused. split; [apply Start, EF|]. split; [apply Uniq, EF|].
      destruct (Good _ O3) as (rc & c' & w' & E1 & E2 & E3). exists rc, c', w'. split; [exact E1|]. split; [|exact E2].
      intros C'. destruct (E3 C'). discriminate.
  - cbn [length] in O3. rewrite Hn in O3. rewrite !Cap in O3 by lia. rewrite Z.leb_refl, andb_true_r in O3.
    destruct ((64 <=? r) || ((t_end (e_tok_junk e r) <=? t_end v) && ((64 <=? r + 1) && (r <=? r + 1))))%Z eqn:C.
    + exists Over. assert (EF : ending_fate e r es (Last v) Over).
      { constructor. cbn [past_end]. destruct (Z.leb_spec 64 r); [auto|right]. assert (E63 : r = 63%Z) by lia. split; [exact E63|]. rewrite E63 in C. lia. }
      split; [apply Start, EF|]. split; [apply Uniq, EF|]. apply Bad, O3.
    + assert (EF : ending_fate e r es (Last v) (Read es)).
      { constructor. cbn [past_end]. intros [D|[D1 D2]]; [lia|]. rewrite D1 in C. lia. }
      exists (Read es). split; [apply Start, EF|]. split; [apply Uniq, EF|].
      destruct (Good _ O3) as (rc & c' & w' & E1 & E2 & E3). exists rc, c', w'. split; [exact E1|]. split; [exact E2|apply E3].
Qed.
