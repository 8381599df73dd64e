(** * Lemmas about claim parsing: which claims are read, and that reading them is defined *)
From Verif Require Import Base BaseProofs HeapProofs Util UtilProofs Claim Base64 SpecB64
  Base64EncApi Base64DecProofs Base64Api Jsmn Env Encode Decode SpecJson SpecJwa ClaimProofs UnescapeProofs
  SignProofs DecodeProofs DecodeInv JsmnProofs ParseProofs PropClaim.
From Coq Require Import ZifyBool ZifyNat ZifyN Permutation.
Ltac Zify.zify_post_hook ::= Z.div_mod_to_equations.
Local Opaque L8W8JWT_MAX_KEY_SIZE.

Lemma firstn_In_sub {A} k (l : list A) x : In x (firstn k l) -> In x l.
Proof. intros H. rewrite <- (firstn_skipn k l). apply in_app_iff. auto. Qed.
Lemma skipn_In_sub {A} k (l : list A) x : In x (skipn k l) -> In x l.
Proof. intros H. rewrite <- (firstn_skipn k l). apply in_app_iff. auto. Qed.

(** One claim as read from the text: its type, the texts of key and value. *)
Definition entry := (Z * bytes * bytes)%type.
(** The text of a token. *)
Definition span (mem : bytes) (t : tok) : bytes :=
  firstn (Z.to_nat (t_end t - t_start t)) (skipn (Z.to_nat (t_start t)) mem).

(** The pairs of tokens the loop visits from [i] on, and how it ends. *)
Fixpoint read_claims (fuel : nat) (e : env) (mem : bytes) (a : tokarr) (r i : Z) : U (Z * list entry) :=
  match fuel with
  | O => KO OutOfFuel
  | S f =>
      if negb (i <? r)%Z then OK (L8W8JWT_SUCCESS, [])
      else
        key <-u tok_at a i ;;
        value <-u tok_at a (i + 1) ;;
        if (r <=? i + 1)%Z || negb (jtype_eqb (t_type key) JString)
        then OK (L8W8JWT_DECODE_FAILED_INVALID_TOKEN_FORMAT, [])
        else
          ct <-u claim_type e mem a r (i + 1) value ;;
          match ct with
          | None => OK (L8W8JWT_DECODE_FAILED_INVALID_TOKEN_FORMAT, [])
          | Some (type, i') =>
              x <-u read_claims f e mem a r (i' + 1) ;;
              OK (fst x, (type, span mem key, span mem value) :: snd x)
          end
  end.

(** Allocating and pushing the claims read. *)
Fixpoint push_all (p : platform) (es : list entry) (fin : Z) (c : chillbuff claim) (w : world)
  : res (Z * chillbuff claim) :=
  match es with
  | [] => Ret (fin, c) w
  | (ty, ks, vs) :: es =>
      match unescape_fun p ty ks vs w with
      | Ret (rc, None) w1 => Ret (rc, c) w1
      | Ret (_, Some x) w1 =>
          match cb_push c [x] w1 with Ret c1 w2 => push_all p es fin c1 w2 | Undef u => Undef u end
      | Undef u => Undef u
      end
  end.

Section Loop.
Variables (p : platform) (e : env) (mem : bytes) (n : nat) (toks : list tok) (cap r : Z) (junk : Z -> tok).
Let a := TokArr toks cap junk.
Hypothesis Hp : (32 <= p_size_bits p)%N.
Hypothesis Hr : (r <= Z.of_nat (length toks))%Z.
Hypothesis Ht : Forall (tok_in n) toks.
Hypothesis Hn : (n <= length mem)%nat.
Hypothesis Hi : (Z.of_nat n <= INT_MAX)%Z.
Hypothesis Hnul : no_nul (firstn n mem).

Lemma size_mod_big : (4294967296 <= size_mod p)%N.
Proof. unfold size_mod. change 4294967296%N with (2 ^ 32)%N. apply N.pow_le_mono_r; [discriminate|exact Hp]. Qed.

Lemma tok_at_real i t : (0 <= i < r)%Z -> tok_at a i = OK t -> tok_in n t.
Proof.
  intros H E. unfold tok_at in E. destruct (_ || _); [discriminate|]. inversion E; subst t.
  rewrite Forall_forall in Ht. apply Ht. apply nth_In. unfold a. cbn [ta_toks]. lia.
Qed.

Lemma span_len t : tok_in n t -> length (span mem t) = Z.to_nat (t_end t - t_start t).
Proof. intros (_ & H1 & H2 & _). unfold span. rewrite firstn_length, skipn_length. lia. Qed.
Lemma span_nul t : tok_in n t -> no_nul (span mem t).
Proof.
  intros (_ & H1 & H2 & _). unfold span. intros H. apply Hnul.
  rewrite <- (firstn_skipn n mem) in H. rewrite skipn_app, firstn_app in H.
  apply in_app_iff in H as [H|H].
  - apply firstn_In_sub in H. apply skipn_In_sub in H. exact H.
  - exfalso. assert (L : length (firstn n mem) = n) by (rewrite firstn_length; lia).
    rewrite skipn_length, L in H.
    replace (Z.to_nat (t_end t - t_start t) - (n - Z.to_nat (t_start t)))%nat with 0%nat in H by lia.
    rewrite firstn_O in H. exact H.
Qed.

Lemma unescape_tok type key value w : tok_in n key -> tok_in n value ->
  exists km vm, at_off mem (t_start key) = OK km /\ at_off mem (t_start value) = OK vm
  /\ l8w8jwt_unescape_claim p type km (to_size p (t_end key - t_start key))
       vm (to_size p (t_end value - t_start value)) w
     = unescape_fun p type (span mem key) (span mem value) w.
Proof.
  intros (_ & K1 & K2 & _) (_ & V1 & V2 & _). pose proof size_mod_big as Hm. unfold INT_MAX in Hi.
  assert (S : forall t, (0 <= t_start t <= t_end t)%Z -> (t_end t <= Z.of_nat n)%Z ->
    to_size p (t_end t - t_start t) = Z.to_N (t_end t - t_start t)).
  { intros t T1 T2. unfold to_size. rewrite Z.mod_small; lia. }
  unfold at_off. exists (skipn (Z.to_nat (t_start key)) mem), (skipn (Z.to_nat (t_start value)) mem).
  destruct ((0 <=? t_start key) && (t_start key <=? Z.of_nat (length mem)))%Z eqn:E1; [|lia].
  destruct ((0 <=? t_start value) && (t_start value <=? Z.of_nat (length mem)))%Z eqn:E2; [|lia].
  split; [reflexivity|]. split; [reflexivity|]. rewrite !S by auto.
  rewrite unescape_claim_eq by (rewrite ?skipn_length; lia).
  unfold span. rewrite !Z_N_nat. reflexivity.
Qed.

Lemma unescape_fun_ret type ks vs w : exists rc oc w', unescape_fun p type ks vs w = Ret (rc, oc) w'
  /\ (oc = None -> rc = L8W8JWT_OUT_OF_MEM).
Proof.
  unfold unescape_fun. destruct (w_alloc w (w_next w)), (w_alloc w (S (w_next w)));
    do 3 eexists; (split; [reflexivity|]); intros E; congruence.
Qed.

Lemma claim_type_next i v ty i' : claim_type e mem a r i v = OK (Some (ty, i')) -> (i <= i')%Z.
Proof.
  assert (G : forall f vend k k', skip_nested f a r vend k = OK k' -> (k <= k')%Z).
  { induction f as [|f IH]; intros vend k k' H; [discriminate|]. cbn [skip_nested] in H.
    apply ubind_inv in H as (t & _ & H). destruct (_ && _); [apply IH in H; lia|inversion H; lia]. }
  unfold claim_type. destruct (t_type v).
  - intros H; inversion H; lia.
  - intros H. apply ubind_inv in H as (k & H1 & H). apply G in H1. inversion H; subst. exact H1.
  - intros H. apply ubind_inv in H as (k & H1 & H). apply G in H1. inversion H; subst. exact H1.
  - intros H; inversion H; lia.
  - intros H. apply ubind_inv in H as (m & _ & H). apply ubind_inv in H as (b & _ & H).
    destruct b; [inversion H; lia|]. apply ubind_inv in H as (b & _ & H). destruct b; [inversion H; lia|].
    apply ubind_inv in H as (s & _ & H). destruct (_ =? 1)%Z; [inversion H; lia|].
    destruct (_ =? 2)%Z; [inversion H; lia|discriminate].
Qed.

Lemma claims_loop_eq fuel : forall i c w fin es, (0 <= i)%Z ->
  read_claims fuel e mem a r i = OK (fin, es) ->
  claims_loop fuel p e mem a r i c w = push_all p es fin c w.
Proof.
  induction fuel as [|f IH]; intros i c w fin es H0 H; [discriminate|]. cbn [read_claims] in H.
  cbn [claims_loop]. destruct (negb (i <? r)%Z) eqn:Ei; [inversion H; subst; reflexivity|].
  apply ubind_inv in H as (key & H1 & H). apply ubind_inv in H as (value & H2 & H).
  unfold mbind at 1. rewrite H1. cbn [lift]. unfold mbind at 1. rewrite H2. cbn [lift].
  destruct (_ || _) eqn:Eb; [inversion H; subst; reflexivity|].
  apply ubind_inv in H as (ct & H3 & H). unfold mbind at 1. rewrite H3. cbn [lift].
  destruct ct as [[type i']|]; [|inversion H; subst; reflexivity].
  pose proof (claim_type_next _ _ _ _ H3) as Hnx.
  apply ubind_inv in H as ([fin' es'] & H4 & H). inversion H; subst. clear H. cbn [fst snd push_all].
  destruct (unescape_tok type key value w) as (km & vm & E1 & E2 & E3);
    [apply (tok_at_real i); [lia|exact H1]|apply (tok_at_real (i + 1)); [lia|exact H2]|].
  unfold mbind at 1. rewrite E1. cbn [lift]. unfold mbind at 1. rewrite E2. cbn [lift].
  unfold mbind at 1. rewrite E3.
  destruct (unescape_fun_ret type (span mem key) (span mem value) w) as (rc & oc & w1 & -> & _).
  destruct oc as [x|]; [|reflexivity]. unfold mbind.
  destruct (cb_push c [x] w1) as [c1 w2|]; [|reflexivity]. apply IH; [lia|exact H4].
Qed.

Lemma claims_loop_reads fuel : forall i c w c' w', (0 <= i)%Z ->
  claims_loop fuel p e mem a r i c w = Ret (L8W8JWT_SUCCESS, c') w' ->
  exists es, read_claims fuel e mem a r i = OK (L8W8JWT_SUCCESS, es).
Proof.
  induction fuel as [|f IH]; intros i c w c' w' H0 H; [discriminate|]. cbn [read_claims].
  cbn [claims_loop] in H. destruct (negb (i <? r)%Z) eqn:Ei; [eauto|].
  minvas H as key w1 H1. apply lift_inv in H1 as [H1 ->].
  minvas H as value w1 H2. apply lift_inv in H2 as [H2 ->]. rewrite H1, H2. cbn [ubind].
  destruct (_ || _) eqn:Eb; [inversion H|].
  minvas H as ct w1 H3. apply lift_inv in H3 as [H3 ->]. rewrite H3. cbn [ubind].
  destruct ct as [[type i']|]; [|inversion H].
  pose proof (claim_type_next _ _ _ _ H3) as Hnx.
  destruct (unescape_tok type key value w) as (km & vm & E1 & E2 & E3);
    [apply (tok_at_real i); [lia|exact H1]|apply (tok_at_real (i + 1)); [lia|exact H2]|].
  unfold mbind at 1 in H. rewrite E1 in H. cbn [lift] in H. unfold mbind at 1 in H. rewrite E2 in H. cbn [lift] in H.
  unfold mbind at 1 in H. rewrite E3 in H.
  destruct (unescape_fun_ret type (span mem key) (span mem value) w) as (rc & oc & w1 & E & N). rewrite E in H.
  destruct oc as [x|]; [|rewrite N in H by reflexivity; inversion H].
  minvas H as c1 w2 H4. apply IH in H as (es & ->); [|lia]. cbn [ubind fst]. eauto.
Qed.

(** Every entry read is text without NUL bytes. *)
Definition entry_plain (x : entry) : Prop := no_nul (snd (fst x)) /\ no_nul (snd x).
Lemma read_plain fuel : forall i fin es, (0 <= i)%Z -> read_claims fuel e mem a r i = OK (fin, es) ->
  Forall entry_plain es.
Proof.
  induction fuel as [|f IH]; intros i fin es H0 H; [discriminate|]. cbn [read_claims] in H.
  destruct (negb (i <? r)%Z) eqn:Ei; [inversion H; constructor|].
  apply ubind_inv in H as (key & H1 & H). apply ubind_inv in H as (value & H2 & H).
  destruct (_ || _) eqn:Eb; [inversion H; constructor|].
  apply ubind_inv in H as (ct & H3 & H). destruct ct as [[type i']|]; [|inversion H; constructor].
  pose proof (claim_type_next _ _ _ _ H3) as Hnx.
  apply ubind_inv in H as ([fin' es'] & H4 & H). inversion H; subst. cbn [snd].
  constructor; [split; cbn [fst snd]; apply span_nul; [eapply tok_at_real; [|exact H1]|eapply tok_at_real; [|exact H2]]; lia|].
  eapply IH; [|exact H4]. lia.
Qed.

(** With room for two more elements behind the tokens, and five bytes behind the text, reading
    never leaves the arrays. *)
Hypothesis Hcap : (r + 2 <= cap)%Z.
Hypothesis Htail : (n + 5 <= length mem)%nat.

Lemma tok_at_ok i : (0 <= i <= r + 1)%Z -> exists t, tok_at a i = OK t.
Proof.
  intros H. unfold tok_at, a. cbn [ta_cap ta_toks ta_junk].
  destruct ((i <? 0) || (cap <=? i))%Z eqn:E; [lia|]. eauto.
Qed.
Lemma skip_nested_ok fuel : forall vend i, (0 <= i)%Z -> (i <= r)%Z -> (Z.to_nat (r - i) < fuel)%nat ->
  exists i', skip_nested fuel a r vend i = OK i' /\ (i <= i' <= r)%Z.
Proof.
  induction fuel as [|f IH]; intros vend i H0 H1 H2; [lia|]. cbn [skip_nested].
  destruct (tok_at_ok (i + 1) ltac:(lia)) as (t & ->). cbn [ubind].
  destruct ((t_end t <=? vend)%Z && (i <? r)%Z) eqn:E.
  - destruct (IH vend (i + 1)%Z) as (i' & -> & H3); [lia|lia|lia|]. exists i'. split; [reflexivity|lia].
  - exists i. split; [reflexivity|lia].
Qed.
Lemma strncmp_ok m1 : forall m2 k, (N.to_nat k <= length m1)%nat -> (N.to_nat k <= length m2)%nat ->
  exists z, strncmp m1 m2 k = OK z.
Proof.
  induction m1 as [|x m1 IH]; intros m2 k H1 H2; cbn [strncmp].
  - destruct (N.eqb_spec k 0); [eauto|simpl in H1; lia].
  - destruct (N.eqb_spec k 0); [eauto|]. destruct m2 as [|y m2]; [simpl in H2; lia|]. cbn [length] in *.
    destruct (Byte.eqb x y); [|eauto]. destruct (is_nul x); [eauto|]. apply IH; lia.
Qed.
Lemma claim_type_ok i v : (0 <= i <= r)%Z -> tok_in n v -> exists o, claim_type e mem a r i v = OK o.
Proof.
  intros H0 (V0 & V1 & V2 & V3). unfold claim_type.
  destruct (t_type v) eqn:Ev; try (eexists; reflexivity).
  - destruct (skip_nested_ok (S (S (Z.to_nat r))) (t_end v) i) as (i' & -> & _); [lia|lia|lia|]. eexists. reflexivity.
  - destruct (skip_nested_ok (S (S (Z.to_nat r))) (t_end v) i) as (i' & -> & _); [lia|lia|lia|]. eexists. reflexivity.
  - specialize (V3 ltac:(discriminate)). unfold at_off.
    destruct ((0 <=? t_start v) && (t_start v <=? Z.of_nat (length mem)))%Z eqn:E1; [|lia]. cbn [ubind].
    set (m := skipn (Z.to_nat (t_start v)) mem).
    assert (Hm : (5 <= length m)%nat) by (unfold m; rewrite skipn_length; lia).
    assert (B : exists b, (if (t_end v - t_start v <=? 5)%Z then
           c <-u strncmp m (clit "true") 4 ;;
           if (c =? 0)%Z then OK true
           else (c <-u strncmp m (clit "false") 5 ;; OK (c =? 0)%Z)
         else OK false) = OK b).
    { destruct (_ <=? 5)%Z; [|eauto].
      destruct (strncmp_ok m (clit "true") 4) as (z & ->); [change (N.to_nat 4) with 4%nat; lia|vm_compute; lia|]. cbn [ubind].
      destruct (z =? 0)%Z; [eauto|].
      destruct (strncmp_ok m (clit "false") 5) as (z' & ->); [change (N.to_nat 5) with 5%nat; lia|vm_compute; lia|]. cbn [ubind]. eauto. }
    destruct B as (b & ->). cbn [ubind]. destruct b; [eauto|].
    assert (B : exists b, (if (t_end v - t_start v =? 4)%Z then (c <-u strncmp m (clit "null") 4 ;; OK (c =? 0)%Z)
           else OK false) = OK b).
    { destruct (_ =? 4)%Z; [|eauto].
      destruct (strncmp_ok m (clit "null") 4) as (z' & ->); [change (N.to_nat 4) with 4%nat; lia|vm_compute; lia|]. cbn [ubind]. eauto. }
    destruct B as (b & ->). cbn [ubind]. destruct b; [eauto|].
    destruct (Z.ltb_spec (t_end v - t_start v) 0); [lia|].
    rewrite take_ok by (unfold m; rewrite skipn_length; lia). cbn [ubind].
    destruct (_ =? 1)%Z; [eauto|]. destruct (_ =? 2)%Z; eauto.
Qed.

Lemma read_claims_ok fuel : forall i, (0 <= i)%Z -> (Z.to_nat (r - i) < fuel)%nat ->
  exists x, read_claims fuel e mem a r i = OK x.
Proof.
  induction fuel as [|f IH]; intros i H0 H1; [lia|]. cbn [read_claims].
  destruct (negb (i <? r)%Z) eqn:Ei; [eauto|].
  destruct (tok_at_ok i ltac:(lia)) as (key & E1). rewrite E1. cbn [ubind].
  destruct (tok_at_ok (i + 1) ltac:(lia)) as (value & E2). rewrite E2. cbn [ubind].
  destruct (_ || _) eqn:Eb; [eauto|].
  destruct (claim_type_ok (i + 1) value) as (o & E3); [lia|apply (tok_at_real (i + 1)); [lia|exact E2]|].
  rewrite E3. cbn [ubind].
  destruct o as [[ty i']|]; [|eauto]. apply claim_type_next in E3.
  destruct (IH (i' + 1)%Z) as (x & ->); [lia|lia|]. cbn [ubind]. eauto.
Qed.
End Loop.

(** ** Pushing *)
Lemma push_all_total p es : forall fin c w, exists rc c' w', push_all p es fin c w = Ret (rc, c') w'.
Proof.
  induction es as [|[[ty ks] vs] es IH]; intros fin c w; cbn [push_all]; [eauto|].
  destruct (unescape_fun_ret p ty ks vs w) as (rc & oc & w1 & -> & _). destruct oc as [x|]; [|eauto].
  destruct (cb_push_total _ c [x] w1) as (c1 & ->). apply IH.
Qed.

(** The claim holds what was read. *)
Definition holds (c : claim) (x : entry) : Prop :=
  let '(ty, ks, vs) := x in decoded c (unesc ks) (claim_value_of ty vs) /\ c_type c = ty.
Lemma ncpy_len s : length (ncpy s) = length s.
Proof. apply ncpy_length. Qed.
Lemma unescape_fun_holds p ty ks vs w rc x w' :
  unescape_fun p ty ks vs w = Ret (rc, Some x) w' -> holds x (ty, ks, vs) /\ later w w'.
Proof.
  unfold unescape_fun. destruct (w_alloc w (w_next w)), (w_alloc w (S (w_next w))); intros H; inversion H; subst.
  split; [|eapply later_trans; apply later_ok]. split; [|reflexivity].
  unfold decoded. cbn [c_key c_key_length c_value c_value_length].
  split; [|split; [reflexivity|split; [|reflexivity]]].
  - destruct (padded_terminated (unesc ks) (N.of_nat (length ks))) as (r & ->); [pose proof (unesc_length ks); lia|eauto].
  - destruct (padded_terminated (claim_value_of ty vs) (N.of_nat (length vs))) as (r & ->); [|eauto].
    unfold claim_value_of. destruct (_ =? _)%Z; [pose proof (unesc_length vs)|rewrite ncpy_len]; lia.
Qed.

(** Subsequences: entries whose push failed are missing. *)
Inductive subseq {A} : list A -> list A -> Prop :=
| SS_nil : subseq [] []
| SS_keep x a b : subseq a b -> subseq (x :: a) (x :: b)
| SS_drop x a b : subseq a b -> subseq a (x :: b).
Lemma subseq_refl {A} (l : list A) : subseq l l.
Proof. induction l; constructor; auto. Qed.
Lemma subseq_app {A} (a b c d : list A) : subseq a b -> subseq c d -> subseq (a ++ c) (b ++ d).
Proof. induction 1; intros H'; cbn [app]; [exact H'|constructor; auto|constructor; auto]. Qed.
Lemma subseq_In {A} (a b : list A) x : subseq a b -> In x a -> In x b.
Proof. induction 1; intros Hi; [exact Hi|destruct Hi; [left|right]; auto|right; auto]. Qed.

Lemma push_all_inv p es : forall fin c w c' w',
  push_all p es fin c w = Ret (L8W8JWT_SUCCESS, c') w' ->
  fin = L8W8JWT_SUCCESS /\ cb_id c' = cb_id c
  /\ exists new sub, cb_elems c' = cb_elems c ++ new /\ subseq sub es /\ Forall2 holds new sub
     /\ (grows w -> sub = es).
Proof.
  induction es as [|[[ty ks] vs] es IH]; intros fin c w c' w' H; cbn [push_all] in H.
  - inversion H; subst. split; [reflexivity|]. split; [reflexivity|]. exists [], []. rewrite app_nil_r.
    split; [reflexivity|]. split; [constructor|]. split; [constructor|reflexivity].
  - destruct (unescape_fun_ret p ty ks vs w) as (rc & oc & w1 & E & N). rewrite E in H.
    destruct oc as [x|]; [|rewrite N in H by reflexivity; inversion H].
    apply unescape_fun_holds in E as [Hx Hl].
    destruct (cb_push c [x] w1) as [c1 w2|] eqn:Ep; [|discriminate].
    apply cb_push_inv in Ep as (-> & Hid & Hel & Hg).
    apply IH in H as (-> & Hid' & new & sub & E1 & E2 & E3 & E4). split; [reflexivity|]. split; [congruence|].
    destruct Hel as [->|Hel].
    + exists new, sub. split; [exact E1|]. split; [constructor; exact E2|]. split; [exact E3|].
      intros G. exfalso. assert (E : c = CB (cb_id c) (cb_elems c ++ [x])) by (apply Hg; eapply grows_later; eauto).
      apply (f_equal (fun b => length (cb_elems b))) in E. cbn [cb_elems] in E. rewrite app_length in E.
      cbn [length] in E. lia.
    + exists (x :: new), ((ty, ks, vs) :: sub). split; [rewrite E1, Hel, <- app_assoc; reflexivity|].
      split; [constructor; exact E2|]. split; [constructor; assumption|].
      intros G. rewrite E4; [reflexivity|]. eapply grows_later; [|exact G].
      eapply later_trans; [exact Hl|apply quiet_later, quiet_push].
Qed.

(** If every allocation succeeds, so does pushing. *)
Lemma push_all_ok p es : forall fin c w, allocs w -> exists c' w', push_all p es fin c w = Ret (fin, c') w'.
Proof.
  induction es as [|[[ty ks] vs] es IH]; intros fin c w Ha; cbn [push_all]; [eauto|].
  unfold unescape_fun. rewrite !Ha.
  destruct (cb_push_total _ c [Claim (Ptr (Some (w_next w)) (padded (unesc ks) (N.of_nat (length ks))))
                       (N.of_nat (length (unesc ks)))
                       (Ptr (Some (S (w_next w))) (padded (claim_value_of ty vs) (N.of_nat (length vs))))
                       (N.of_nat (length (claim_value_of ty vs))) ty] (w_ok (w_ok w))) as (c1 & ->).
  apply IH. intros k. cbn [w_push w_ok w_alloc]. apply Ha.
Qed.

(** ** l8w8jwt_parse_claims *)
Lemma before_nul_prefix js : no_nul (before_nul js) /\ firstn (length (before_nul js)) js = before_nul js
  /\ (length (before_nul js) <= length js)%nat.
Proof.
  induction js as [|c js (IH1 & IH2 & IH3)]; [split; [intros []|]; split; [reflexivity|apply Nat.le_refl]|]. cbn [before_nul].
  destruct (is_nul c) eqn:E; [split; [intros []|]; split; [reflexivity|simpl; lia]|].
  split; [apply no_nul_cons; split; [apply is_nul_false; exact E|exact IH1]|].
  cbn [length firstn]. rewrite IH2. split; [reflexivity|lia].
Qed.
Lemma before_nul_firstn n mem :
  no_nul (firstn (length (before_nul (firstn n mem))) mem) /\ (length (before_nul (firstn n mem)) <= n)%nat
  /\ (length (before_nul (firstn n mem)) <= length mem)%nat.
Proof.
  destruct (before_nul_prefix (firstn n mem)) as (H1 & H2 & H3). rewrite firstn_length in H3.
  split; [|lia]. rewrite firstn_firstn in H2.
  replace (Nat.min (length (before_nul (firstn n mem))) n) with (length (before_nul (firstn n mem))) in H2 by lia.
  rewrite H2. exact H1.
Qed.

(** The entries l8w8jwt_parse_claims reads from the [len] bytes at [mem]. *)
Definition token_array (e : env) (r : Z) (toks : list tok) : tokarr :=
  TokArr toks (if (r <=? 64)%Z then 64 else r) (e_tok_junk e).
Definition reads (e : env) (mem : bytes) (len : N) (es : list entry) : Prop :=
  let js := firstn (N.to_nat len) mem in
  let r := fst (jsmn_parse js None) in
  (r = 0%Z /\ es = [])
  \/ ((0 < r)%Z /\ exists t0 toks, jsmn_parse js (Some r) = (r, t0 :: toks) /\ t_type t0 = JObject
      /\ read_claims (S (Z.to_nat r)) e mem (token_array e r (t0 :: toks)) r 1 = OK (L8W8JWT_SUCCESS, es)).
Lemma reads_fun e mem len es es' : reads e mem len es -> reads e mem len es' -> es = es'.
Proof.
  unfold reads. intros [[H ->]|(H & t0 & toks & H1 & _ & H2)] [[H' ->]|(H' & t0' & toks' & H1' & _ & H2')];
    try reflexivity; try lia.
  rewrite H1 in H1'. inversion H1'; subst. congruence.
Qed.

Lemma parse_claims_reads p e c b mem len w c' w' :
  uses_jsmn e -> (32 <= p_size_bits p)%N ->
  l8w8jwt_parse_claims p e c (Ptr b mem) len w = Ret (L8W8JWT_SUCCESS, c') w' ->
  exists es, reads e mem len es /\ Forall entry_plain es /\ cb_id c' = cb_id c
    /\ exists new sub, cb_elems c' = cb_elems c ++ new /\ subseq sub es /\ Forall2 holds new sub
       /\ (grows w -> sub = es).
Proof.
  intros Hj Hp H. unfold l8w8jwt_parse_claims in H.
  minvas H as mem' w1 H1. apply lift_inv in H1 as [H1 ->]. inversion H1; subst mem'. clear H1.
  minvas H as js w1 H1. apply lift_inv in H1 as [H1 ->]. apply take_inv in H1 as [Hn Ejs].
  destruct (Z.ltb_spec INT_MAX (Z.of_N len)) as [Hm|Hm]; [discriminate|]. cbv zeta in H. rewrite !Hj in H.
  unfold reads. rewrite <- Ejs.
  destruct (Z.eqb_spec (fst (jsmn_parse js None)) 0) as [E0|E0].
  { inversion H; subst c' w'. exists []. split; [left; auto|]. split; [constructor|]. split; [reflexivity|].
    exists [], []. rewrite app_nil_r. split; [reflexivity|]. split; [constructor|]. split; [constructor|reflexivity]. }
  destruct (Z.ltb_spec (fst (jsmn_parse js None)) 0) as [E1|E1]; [inversion H|].
  destruct (jsmn_parse js None) as [r tn] eqn:Ej. cbn [fst] in *.
  minvas H as o w1 H1.
  assert (Hl : later w w1 /\ (o = None -> False)).
  { destruct (r <=? 64)%Z; [inversion H1; subst; split; [apply later_refl|discriminate]|].
    minvas H1 as o' w2 H2. rewrite alloc_eq in H2. destruct (w_alloc w (w_next w)); inversion H2; subst; inversion H1; subst.
    - split; [apply later_ok|discriminate].
    - inversion H. }
  destruct Hl as [Hl Ho]. clear H1. destruct o as [blk|]; [|contradiction]. clear Ho.
  destruct (jsmn_two_passes _ _ _ Ej E1) as (r2 & toks & Ej2 & Hr2). rewrite Ej2 in H.
  destruct (Z.ltb_spec r2 0) as [E2|E2]; [inversion H|]. destruct Hr2 as [->|Hr2]; [|lia].
  destruct (jsmn_tokens _ _ _ _ Ej2 E2) as [Hlen Htok].

  minvas H as t0 w2 H1. apply lift_inv in H1 as [H1 ->].
  minvas H as [rc1 c1] w2 H3. minvas H as u w3 H4.
  assert (Erc : rc1 = L8W8JWT_SUCCESS) by (inversion H; reflexivity).
  assert (Ec : c1 = c') by (inversion H; reflexivity). subst rc1 c1. clear H.
  destruct toks as [|t1 toks]; [simpl in Hlen; lia|].
  assert (t0 = t1).
  { unfold tok_at in H1. destruct (_ || _); [discriminate|]. inversion H1. reflexivity. } subst t1.
  destruct (t_type t0) eqn:Et; cbn [jtype_eqb negb] in H3; try (inversion H3; fail).
  rewrite Ejs in Htok.
  destruct (before_nul_firstn (N.to_nat len) mem) as (B1 & B2 & B3).
  assert (Hint : (Z.of_nat (length (before_nul (firstn (N.to_nat len) mem))) <= INT_MAX)%Z) by lia.
  destruct (claims_loop_reads p e mem _ (t0 :: toks) (if (r <=? 64)%Z then 64 else r)%Z r (e_tok_junk e) Hp ltac:(lia) Htok B3 Hint
    (S (Z.to_nat r)) 1 c w1 c' w2 ltac:(lia) H3) as (es & Hes).
  rewrite (claims_loop_eq p e mem _ (t0 :: toks) (if (r <=? 64)%Z then 64 else r)%Z r (e_tok_junk e) Hp ltac:(lia) Htok B3 Hint
    (S (Z.to_nat r)) 1 c w1 _ _ ltac:(lia) Hes) in H3.
  apply push_all_inv in H3 as (_ & Hid & new & sub & N1 & N2 & N3 & N4).
  exists es. split; [right; split; [lia|]; exists t0, toks; auto|].
  split; [exact (read_plain p e mem _ (t0 :: toks) _ r (e_tok_junk e) Hp ltac:(lia) Htok B3 B1 _ 1 _ _ ltac:(lia) Hes)|].
  split; [exact Hid|]. exists new, sub. split; [exact N1|]. split; [exact N2|]. split; [exact N3|].
  intros G. apply N4. eapply grows_later; eauto.
Qed.

(** Parsing is defined when there are at most 62 tokens. *)
Lemma parse_claims_total p e c b mem len w :
  uses_jsmn e -> (32 <= p_size_bits p)%N -> (Z.of_N len <= INT_MAX)%Z -> (N.to_nat len + 5 <= length mem)%nat ->
  (fst (jsmn_parse (firstn (N.to_nat len) mem) None) <= 62)%Z ->
  exists rc c' w', l8w8jwt_parse_claims p e c (Ptr b mem) len w = Ret (rc, c') w'.
Proof.
  intros Hj Hp Hm Ht Hr. unfold l8w8jwt_parse_claims. unfold mbind at 1. cbn [deref lift].
  unfold mbind at 1. rewrite take_ok by lia. cbn [lift].
  destruct (Z.ltb_spec INT_MAX (Z.of_N len)); [lia|]. cbv zeta. rewrite !Hj.
  set (js := firstn (N.to_nat len) mem) in *.
  destruct (Z.eqb_spec (fst (jsmn_parse js None)) 0) as [E0|E0]; [eexists _, _, _; reflexivity|].
  destruct (Z.ltb_spec (fst (jsmn_parse js None)) 0) as [E1|E1]; [eexists _, _, _; reflexivity|].
  destruct (jsmn_parse js None) as [r tn] eqn:Ej. cbn [fst] in *.
  destruct (Z.leb_spec r 64); [|lia]. unfold mbind at 1. unfold mret at 1.
  destruct (jsmn_two_passes _ _ _ Ej E1) as (r2 & toks & Ej2 & Hr2). rewrite Ej2.
  destruct (Z.ltb_spec r2 0) as [E2|E2]; [eexists _, _, _; reflexivity|]. destruct Hr2 as [->|Hr2]; [|lia].
  destruct (jsmn_tokens _ _ _ _ Ej2 E2) as [Hlen Htok].
  destruct (before_nul_firstn (N.to_nat len) mem) as (B1 & B2 & B3). fold js in B1, B2, B3.
  assert (Hint : (Z.of_nat (length (before_nul js)) <= INT_MAX)%Z) by lia.
  destruct (tok_at_ok p mem (length (before_nul js)) toks 64 r (e_tok_junk e) Hp B3 ltac:(lia) ltac:(lia) 0) as (t0 & E3); [lia|].
  unfold mbind at 1. rewrite E3. cbn [lift]. unfold mbind at 1.
  destruct (negb _).
  - unfold mret at 1. unfold mbind. cbn [mret]. eexists _, _, _. reflexivity.
  - destruct (read_claims_ok p e mem (length (before_nul js)) toks 64 r (e_tok_junk e) Hp ltac:(lia) Htok B3 ltac:(lia) ltac:(lia)
      (S (Z.to_nat r)) 1) as ([fin es] & Hes); [lia|lia|].
    rewrite (claims_loop_eq p e mem _ toks 64 r (e_tok_junk e) Hp ltac:(lia) Htok B3 Hint
    (S (Z.to_nat r)) 1 c w _ _ ltac:(lia) Hes).
    destruct (push_all_total p es fin c w) as (rc & c' & w' & ->). unfold mbind. cbn [mret]. eexists _, _, _. reflexivity.
Qed.
