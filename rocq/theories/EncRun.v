(** * Lemmas: encoding does what its specification (EncComplete) says *)
From Verif Require Import Base BaseProofs HeapProofs Util UtilProofs Claim Base64 SpecB64
  Base64EncProofs Base64EncApi Base64DecProofs Base64Api Jsmn Env Encode Decode SpecJson SpecJwa ClaimProofs UnescapeProofs
  EncodeProofs SignProofs EncodeTotal SpecEnc JsonProofs PropEncode DecodeProofs DecodeInv JsmnProofs ParseProofs
  PropClaim ReadProofs ValidateProofs JsmnJson JsmnSize PropVerify PropValidate PropLeak PropJson DecodeTotal DecodeOk
  OverRead PropSafe PropRoundTrip CodeProofs EncCodeProofs Walk Exact PropExact Complete EncComplete.
From Coq Require Import ZifyBool ZifyNat ZifyN.
Ltac Zify.zify_post_hook ::= Z.div_mod_to_equations.
Local Opaque L8W8JWT_MAX_KEY_SIZE.

Definition grown {A} (b : chillbuff A) (e : list A) : chillbuff A := CB (cb_id b) (cb_elems b ++ e).
Lemma push_does A (b : chillbuff A) e w : grows w -> cb_push b e w = Ret (grown b e) (w_push w).
Proof.
  intros G. destruct (cb_push_total _ b e w) as (b' & H). rewrite H. apply cb_push_inv in H as (_ & I & _ & Hg).
  specialize (Hg G). destruct b' as [i l]. cbn [cb_id cb_elems] in *. subst. unfold grown.
  try (injection Hg as ->); try (rewrite Hg); reflexivity.
Qed.

(** ** Characters with the sign bit *)
Lemma plain_foreign p s : Forall (plain p) s <-> ~ foreign p s.
Proof.
  split.
  - intros F (Hs & x & Hx & L). rewrite Forall_forall in F. specialize (F x Hx Hs). lia.
  - intros N. apply Forall_forall. intros x Hx Hs. destruct (N.ltb_spec (b2n x) 128); [assumption|]. destruct N. split; [exact Hs|eauto].
Qed.
Lemma foreign_dec p s : Forall (plain p) s \/ foreign p s.
Proof.
  destruct (p_char_signed p) eqn:Es; [|left; apply Forall_forall; intros x _ H; congruence].
  destruct (existsb (fun x => 128 <=? b2n x)%N s) eqn:E.
  - right. apply existsb_exists in E as (x & Hx & L). split; [exact Es|]. exists x. split; [exact Hx|lia].
  - left. apply Forall_forall. intros x Hx _. destruct (N.ltb_spec (b2n x) 128) as [L|L]; [exact L|].
    assert (existsb (fun x => 128 <=? b2n x)%N s = true) by (apply existsb_exists; exists x; split; [exact Hx|lia]). congruence.
Qed.
Lemma escape_each_breaks p s : foreign p s -> forall sb w, escape_each p sb s w = Undef BadIndex.
Proof.
  intros (Hs & x & Hx & L). induction s as [|c s IH]; [contradiction|]. intros sb w. cbn [escape_each].
  destruct (N.ltb_spec (b2n c) 128) as [Lc|Lc].
  - unfold mbind at 1. rewrite escape_lookup_plain by (intros _; exact Lc). cbn [lift].
    match goal with |- context [cb_push ?b ?e] => destruct (cb_push_total _ b e w) as (b' & Hb) end.
    unfold mbind. rewrite Hb. apply IH. destruct Hx as [->|Hx]; [lia|exact Hx].
  - unfold mbind. unfold escape_lookup, char_val. rewrite Hs. cbn [andb].
    destruct (N.ltb_spec 127 (b2n c)); [|lia]. unfold b2z. pose proof (b2n_lt c).
    destruct (Z.ltb_spec (Z.of_N (b2n c) - 256) 0); [reflexivity|lia].
Qed.
Lemma escape_string_breaks p sb q n s w : given q n s -> foreign p s ->
  l8w8jwt_escape_claim_string p sb q (N.of_nat (length s)) w = Undef BadIndex.
Proof.
  intros Hg F. unfold l8w8jwt_escape_claim_string.
  destruct (N.eqb_spec (N.of_nat (length s)) 0) as [E|E].
  { destruct F as (_ & x & Hx & _). destruct s; [contradiction|cbn in E; lia]. }
  destruct (given_read _ _ _ Hg) as (b' & m' & -> & Ht'). unfold mbind. cbn [deref lift]. rewrite Ht'. cbn [lift].
  apply escape_each_breaks, F.
Qed.

(** ** Writing claims *)
Lemma given_key c k : given (c_key c) (c_key_length c) k -> is_null (c_key c) = false.
Proof. destruct (c_key c); [contradiction|reflexivity]. Qed.
Lemma claim_cases p c : claim_given c ->
  ClaimProofs.readable p c \/ (has_key c = true /\ foreign_claim p c).
Proof.
  intros [N|(k & v & Hk & Hv)]; [left; left; exact N|].
  assert (Hc : has_key c = true) by (unfold has_key; rewrite (given_key _ _ Hk); reflexivity).
  destruct (foreign_dec p k) as [Pk|Fk]; [|right; split; [exact Hc|left; eauto]].
  destruct (foreign_dec p v) as [Pv|Fv]; [left; right; exists k, v; auto|].
  destruct (Z.eq_dec (c_type c) 0) as [E|E]; [right; split; [exact Hc|right; eauto]|].
  left. right. exists k, v. repeat split; auto. intros S. destruct E. unfold is_str in S. apply Z.eqb_eq in S. exact S.
Qed.
Lemma readable_not p c : ClaimProofs.readable p c -> has_key c = true -> ~ foreign_claim p c.
Proof.
  intros [N|(k & v & Hk & Hv & Pk & Pv)] H; [unfold has_key in H; rewrite N in H; discriminate|].
  intros [(k' & Hk' & F)|(T & v' & Hv' & F)].
  - rewrite (given_det _ _ _ _ Hk' Hk) in F. exact (proj1 (plain_foreign p k) Pk F).
  - rewrite (given_det _ _ _ _ Hv' Hv) in F. apply (proj1 (plain_foreign p v)); [|exact F]. apply Pv. unfold is_str. rewrite T. reflexivity.
Qed.
Lemma write_each_breaks p : forall cs sb eb n first w,
  (n <= N.of_nat (length cs))%N -> Forall claim_given (firstn (N.to_nat n) cs) ->
  Exists (foreign_claim p) (filter has_key (firstn (N.to_nat n) cs)) ->
  write_each p sb eb cs n first w = Undef BadIndex.
Proof.
  induction cs as [|c cs IH]; intros sb eb n first w Hn Hr Hx.
  - rewrite firstn_nil in Hx. inversion Hx.
  - cbn [write_each]. destruct (N.eqb_spec n 0) as [->|Hn0]; [inversion Hx|].
    replace (N.to_nat n) with (S (N.to_nat (n - 1))) in Hr, Hx by lia. cbn [firstn filter] in Hr, Hx.
    inversion Hr as [|? ? Hc Hr']; subst. cbn [length] in Hn.
    destruct Hc as [Hnull|(k & v & Hk & Hv)].
    { unfold has_key in Hx at 1. rewrite Hnull in Hx |- *. cbn [is_null negb] in Hx |- *. apply IH; auto. lia. }
    pose proof (given_key _ _ Hk) as Hnn. unfold has_key in Hx at 1. rewrite Hnn in Hx |- *. cbn [negb] in Hx.
    set (m := if first then mret sb else cb_push sb (lit ",")).
    assert (Hm1 : exists sb1 w1, m w = Ret sb1 w1).
    { unfold m. destruct first; [do 2 eexists; reflexivity|].
      destruct (cb_push_total _ sb (lit ",") w) as (b & Hb). eauto. }
    clearbody m. destruct Hm1 as (sb1 & w1 & Hm1). unfold mbind at 1. rewrite Hm1.
    unfold mbind at 1. rewrite (given_len _ _ _ Hk). cbn [lift].
    unfold mbind at 1. rewrite (given_len _ _ _ Hv). cbn [lift].
    destruct (foreign_dec p k) as [Hpk|Fk].
    2:{ unfold mbind at 1. rewrite (escape_string_breaks p (cb_clear eb) _ _ _ w1 Hk Fk). reflexivity. }
    destruct (escape_string_total p (cb_clear eb) _ _ _ w1 Hk Hpk) as (eb1 & w2 & He).
    unfold mbind at 1. rewrite He.
    assert (Hpush : forall A (b : chillbuff A) e w, exists b', cb_push b e w = Ret b' (w_push w))
      by (intros; apply cb_push_total).
    destruct (Hpush _ sb1 (lit """") w2) as (sb2 & Hs). unfold mbind at 1. rewrite Hs. clear Hs.
    destruct (Hpush _ sb2 (cb_elems eb1) (w_push w2)) as (sb3 & Hs).
    unfold mbind at 1. rewrite Hs. clear Hs.
    destruct (Hpush _ sb3 (lit """:") (w_push (w_push w2))) as (sb4 & Hs).
    unfold mbind at 1. rewrite Hs. clear Hs. set (w3 := w_push (w_push (w_push w2))). clearbody w3.
    assert (Hrest : (c_type c = 0%Z -> Forall (plain p) v) -> Exists (foreign_claim p) (filter has_key (firstn (N.to_nat (n - 1)) cs))).
    { intros Pv. inversion Hx as [? ? F|? ? X]; subst; [|exact X]. exfalso. revert F. apply readable_not.
      - right. exists k, v. repeat split; auto. intros S. apply Pv. unfold is_str in S. apply Z.eqb_eq in S. exact S.
      - unfold has_key. rewrite Hnn. reflexivity. }
    assert (IH' : Exists (foreign_claim p) (filter has_key (firstn (N.to_nat (n - 1)) cs)) ->
      forall sb eb f w, write_each p sb eb cs (n - 1) f w = Undef BadIndex) by (intros X; intros; apply IH; auto; lia).
    destruct (Z.eqb_spec (c_type c) L8W8JWT_CLAIM_TYPE_STRING) as [T|T].
    + unfold mbind at 1.
      destruct (Hpush _ sb4 (lit """") w3) as (sb5 & Hs). unfold mbind at 1. rewrite Hs. clear Hs.
      destruct (foreign_dec p v) as [Hpv|Fv].
      2:{ unfold mbind at 1. rewrite (escape_string_breaks p (cb_clear eb1) _ _ _ (w_push w3) Hv Fv). reflexivity. }
      destruct (escape_string_total p (cb_clear eb1) _ _ _ (w_push w3) Hv Hpv) as (eb2 & w4 & He2).
      unfold mbind at 1. rewrite He2.
      destruct (Hpush _ sb5 (cb_elems eb2) w4) as (sb6 & Hs). unfold mbind at 1. rewrite Hs. clear Hs.
      destruct (Hpush _ sb6 (lit """") (w_push w4)) as (sb7 & Hs).
      unfold mbind at 1. rewrite Hs. cbn [mret]. apply IH', Hrest. auto.
    + unfold mbind at 1. destruct (N.of_nat (length v) =? 0)%N.
      { cbn [mret]. apply IH', Hrest. intros E. destruct T. exact E. }
      destruct (given_read _ _ _ Hv) as (b' & m' & Eq & Ht'). rewrite Eq.
      unfold mbind at 1. cbn [deref lift]. unfold mbind at 1. rewrite Ht'. cbn [lift].
      destruct (Hpush _ sb4 v w3) as (sb5 & Hs). unfold mbind at 1. rewrite Hs. cbn [mret].
      apply IH', Hrest. intros E. destruct T. exact E.
Qed.
Lemma claim_text_of c t : text_of c t <-> claim_text c t.
Proof.
  unfold text_of, claim_text, member_bytes. split; intros (k & v & Hk & Hv & ->); exists k, v; repeat split; auto;
    rewrite !spelling_escape; unfold is_str; reflexivity.
Qed.
Lemma texts_of cs ts : Forall2 text_of cs ts -> Forall2 claim_text cs ts.
Proof. induction 1; constructor; auto. apply claim_text_of. assumption. Qed.
Lemma claims_cases p cs : Forall claim_given cs ->
  Forall (ClaimProofs.readable p) cs \/ Exists (foreign_claim p) (filter has_key cs).
Proof.
  induction 1 as [|c cs Hc Hcs IH]; [left; constructor|]. destruct (claim_cases p c Hc) as [R|(K & F)].
  - destruct IH as [IH|IH]; [left; constructor; auto|right]. cbn [filter]. destruct (has_key c); [right; exact IH|exact IH].
  - right. cbn [filter]. rewrite K. left. exact F.
Qed.
Lemma readables_not p cs : Forall (ClaimProofs.readable p) cs -> Forall (fun c => ~ foreign_claim p c) (filter has_key cs).
Proof.
  intros R. apply Forall_forall. intros c Hc. apply filter_In in Hc as [Hc K]. rewrite Forall_forall in R. eapply readable_not; eauto.
Qed.

(** What a product says about a call that appends to the string builder. *)
Definition appends {R} (call : res R) (ok : bytes -> world -> R -> Prop) (bad : Z -> world -> R -> Prop) (o : product) : Prop :=
  match o with
  | Made t => exists r w', call = Ret r w' /\ ok t w' r
  | Fails rc => exists r w', call = Ret r w' /\ bad rc w' r
  | Breaks u => call = Undef u
  end.
Lemma claims_does p sb claims n w :
  wf w -> allocs w -> grows w -> (0 < n)%N -> claims_given claims n ->
  exists o, members p (keyed_claims claims n) o
    /\ appends (l8w8jwt_write_claims p sb claims n w) (fun t w' r => snd r = grown sb t /\ quiet w w') (fun _ _ _ => False) o.
Proof.
  intros W A G Hn Hg. destruct claims as [|b cs].
  - exists (Made (join [])). split; [constructor; constructor|]. cbn [appends]. do 2 eexists. split; [reflexivity|].
    split; [|apply quiet_refl]. unfold grown. cbn [join snd]. rewrite app_nil_r. destruct sb; reflexivity.
  - destruct Hg as (Hl & Hg). cbn [keyed_claims].
    change (filter (fun c => negb (is_null (c_key c))) (firstn (N.to_nat n) cs)) with (filter has_key (firstn (N.to_nat n) cs)).
    destruct (claims_cases p _ Hg) as [R|X].
    + destruct (write_claims_total p sb b cs n w Hl R W) as ((rc & sb') & w' & H).
      pose proof H as H'. apply write_claims_inv in H' as (Q & I & C); [|exact W].
      destruct C as [(_ & E & _)|[(_ & E & _)|[(_ & E & _)|(_ & _ & _ & b' & cs' & E & _ & _ & ts & Hts & Hgr)]]].
      * discriminate.
      * lia.
      * rewrite A in E. discriminate.
      * injection E as <- <-. exists (Made (join ts)). split.
        -- constructor; [apply readables_not, R|]. apply texts_of, Hts.
        -- cbn [appends]. do 2 eexists. split; [exact H|]. split; [|exact Q]. cbn [snd]. unfold grown.
           rewrite <- (Hgr G), <- I. destruct sb'; reflexivity.
    + exists (Breaks BadIndex). split; [apply M_foreign, X|]. cbn [appends]. unfold l8w8jwt_write_claims.
      destruct (N.eqb_spec n 0); [lia|]. unfold mbind at 1. rewrite cb_init_eq, A.
      unfold mbind at 1. rewrite write_each_breaks; auto.
Qed.

(** ** The registered claims *)
Lemma name_plain p s : forallb (fun c => (b2n c <? 128)%N) s = true -> ~ foreign p s.
Proof. intros H. apply plain_foreign, plain_name, H. Qed.
Lemma time_part c name t cs ts :
  time_fact c name t -> spelling name = name -> Forall2 claim_text (filter has_key (c :: cs)) ts ->
  exists a b, ts = a ++ b /\ timed name t a /\ Forall2 claim_text (filter has_key cs) b.
Proof.
  intros (Ht & [(-> & Hk)|(Hn & Hk & Hv)]) En H; cbn [filter] in H; unfold has_key in H at 1.
  - rewrite Hk in H. exists [], ts. split; [reflexivity|]. split; [constructor; reflexivity|exact H].
  - rewrite (given_key _ _ Hk) in H. cbn [negb] in H. inversion H as [|? x ? r (k & v & Gk & Gv & E) T]; subst.
    exists [quoted name ++ lit ":" ++ print_u64 (to_u64 t)], r. split; [|split; [|exact T]].
    + rewrite (given_det _ _ _ _ Gk Hk), (given_det _ _ _ _ Gv Hv), En, Ht. reflexivity.
    + constructor; [exact Hn|]. pose proof (print_u64_digits (to_u64 t)) as [D L].
      destruct (print_u64_value _ (to_u64_lt t)) as (V & Z & Z0). unfold decimal. fold (to_u64 t).
      split; [intros E; rewrite E in L; cbn in L; lia|]. split; [exact D|]. split; [|exact V].
      intros r0 E. destruct (N.eq_dec (to_u64 t) 0) as [E0|N0]; [rewrite (Z0 E0) in E; congruence|destruct (Z N0 _ _ E eq_refl)].
Qed.
Lemma str_part c name q n cs ts :
  str_fact c name q n -> spelling name = name -> Forall2 claim_text (filter has_key (c :: cs)) ts ->
  exists a b, ts = a ++ b /\ stringed name q n a /\ Forall2 claim_text (filter has_key cs) b.
Proof.
  intros (Ht & [(-> & Hk)|(Hn & Hk & Hv & Hl)]) En H; cbn [filter] in H; unfold has_key in H at 1.
  - rewrite Hk in H. exists [], ts. split; [reflexivity|]. split; [constructor; reflexivity|exact H].
  - rewrite (given_key _ _ Hk) in H. cbn [negb] in H. inversion H as [|? x ? r (k & v & Gk & Gv & E) T]; subst.
    exists [quoted name ++ lit ":" ++ quoted (spelling v)], r. split; [|split; [|exact T]].
    + rewrite (given_det _ _ _ _ Gk Hk), En, Ht. reflexivity.
    + constructor. exact Gv.
Qed.
Lemma time_foreign p c name t cs :
  time_fact c name t -> ~ foreign p name ->
  (Exists (foreign_claim p) (filter has_key (c :: cs)) <-> Exists (foreign_claim p) (filter has_key cs)).
Proof.
  intros (Ht & [(_ & Hk)|(Hn & Hk & Hv)]) Np; cbn [filter]; unfold has_key at 1; [rewrite Hk; reflexivity|].
  rewrite (given_key _ _ Hk). cbn [negb]. split; [|intros X; right; exact X].
  intros X. inversion X as [? ? [(k & Gk & F)|(T & _)]|? ? X']; subst; [|rewrite Ht in T; discriminate|exact X'].
  rewrite (given_det _ _ _ _ Gk Hk) in F. contradiction.
Qed.
Lemma str_foreign p c name q n cs :
  str_fact c name q n -> ~ foreign p name ->
  (Exists (foreign_claim p) (filter has_key (c :: cs)) <-> foreign_string p q n \/ Exists (foreign_claim p) (filter has_key cs)).
Proof.
  intros (Ht & [(-> & Hk)|(Hn & Hk & Hv & Hl)]) Np; cbn [filter]; unfold has_key at 1.
  - rewrite Hk. cbn [is_null negb]. split; [auto|]. intros [(v & G & _)|X]; [contradiction|exact X].
  - rewrite (given_key _ _ Hk). cbn [negb]. subst q n. split.
    + intros X. inversion X as [? ? [(k & Gk & F)|(T & F)]|? ? X']; subst; [|left; exact F|right; exact X'].
      rewrite (given_det _ _ _ _ Gk Hk) in F. contradiction.
    + intros [F|X]; [left; right; split; [exact Ht|exact F]|right; exact X].
Qed.
Lemma none_foreign p cs : Forall (fun c => ~ foreign_claim p c) cs -> ~ Exists (foreign_claim p) cs.
Proof. intros F X. apply Exists_exists in X as (c & Hc & X). rewrite Forall_forall in F. exact (F c Hc X). Qed.
Lemma registered_of p ep tbuf o :
  iatnbfexp ep = OK tbuf -> members p (keyed_claims (CArr None (registered_claims ep tbuf)) 7) o -> registered p ep o.
Proof.
  intros H M. destruct (registered_facts _ _ H) as (c1 & c2 & c3 & c4 & c5 & c6 & c7 & E & F1 & F2 & F3 & F4 & F5 & F6 & F7).
  unfold keyed_claims in M. rewrite E in M. change (firstn (N.to_nat 7) [c1; c2; c3; c4; c5; c6; c7]) with [c1; c2; c3; c4; c5; c6; c7] in M.
  change (fun c => negb (is_null (c_key c))) with has_key in M.
  assert (X : Exists (foreign_claim p) (filter has_key [c1; c2; c3; c4; c5; c6; c7]) <-> foreign_registered p ep).
  { rewrite (time_foreign p _ _ _ _ F1), (time_foreign p _ _ _ _ F2), (time_foreign p _ _ _ _ F3), (str_foreign p _ _ _ _ _ F4),
      (str_foreign p _ _ _ _ _ F5), (str_foreign p _ _ _ _ _ F6), (str_foreign p _ _ _ _ _ F7) by (apply name_plain; reflexivity).
    cbn [filter]. rewrite Exists_nil. unfold foreign_registered. tauto. }
  inversion M as [ts N T|Y]; subst; [|apply R_foreign, X, Y].
  apply none_foreign in N.
  apply (time_part _ _ _ _ _ F1 eq_refl) in T as (a1 & b1 & -> & A1 & T). apply (time_part _ _ _ _ _ F2 eq_refl) in T as (a2 & b2 & -> & A2 & T).
  apply (time_part _ _ _ _ _ F3 eq_refl) in T as (a3 & b3 & -> & A3 & T). apply (str_part _ _ _ _ _ _ F4 eq_refl) in T as (a4 & b4 & -> & A4 & T).
  apply (str_part _ _ _ _ _ _ F5 eq_refl) in T as (a5 & b5 & -> & A5 & T). apply (str_part _ _ _ _ _ _ F6 eq_refl) in T as (a6 & b6 & -> & A6 & T).
  apply (str_part _ _ _ _ _ _ F7 eq_refl) in T as (a7 & b7 & -> & A7 & T). inversion T; subst. rewrite app_nil_r.
  constructor; auto. intros Y. apply N, X, Y.
Qed.
Lemma registered_given ep tbuf : iatnbfexp ep = OK tbuf -> enc_given ep -> claims_given (CArr None (registered_claims ep tbuf)) 7.
Proof.
  intros H (_ & _ & G4 & G5 & G6 & G7 & _).
  destruct (registered_facts _ _ H) as (c1 & c2 & c3 & c4 & c5 & c6 & c7 & E & F1 & F2 & F3 & F4 & F5 & F6 & F7).
  assert (T : forall c name t, time_fact c name t -> claim_given c).
  { intros c name t (_ & [(_ & K)|(_ & K & V)]); [left; exact K|right; eauto]. }
  assert (S : forall c name q n, str_fact c name q n -> string_given q n -> claim_given c).
  { intros c name q n (_ & [(_ & K)|(N & K & V & L)]) [G|(s & G)]; [left; exact K|left; exact K|contradiction|].
    right. exists name, s. rewrite V, L. auto. }
  cbn [claims_given]. rewrite E. change (firstn (N.to_nat 7) [c1; c2; c3; c4; c5; c6; c7]) with [c1; c2; c3; c4; c5; c6; c7].
  split; [cbn; lia|]. repeat (constructor; [eauto|]). constructor.
Qed.

(** ** A segment *)
Lemma segment_does p b t w : (6 <= p_size_bits p)%N -> allocs w -> t <> [] ->
  exists o, based p t o
    /\ match o with
       | Made s => s = b64url t /\ exists m, encode_segment p (Ptr b t) (N.of_nat (length t)) w = Ret (L8W8JWT_SUCCESS, Ptr (Some (w_next w)) m, s) (w_ok w)
       | Fails rc => rc <> L8W8JWT_SUCCESS /\ encode_segment p (Ptr b t) (N.of_nat (length t)) w = Ret (rc, Null, []) w
       | Breaks u => encode_segment p (Ptr b t) (N.of_nat (length t)) w = Undef u
       end.
Proof.
  intros Hp A Nt. assert (L : (0 < N.of_nat (length t))%N) by (destruct t; [contradiction|cbn; lia]).
  destruct (N.leb_spec (size_mod p) (4 * N.of_nat (length t))) as [O|O].
  - exists (Fails 310). split; [apply B_size; exact O|]. split; [discriminate|].
    unfold encode_segment, mbind at 1.
    assert (E : l8w8jwt_base64_encode p true (Ptr b t) (N.of_nat (length t)) true true w = Ret (B64 L8W8JWT_OVERFLOW None None) w).
    { destruct (N.ltb_spec (N.of_nat (length t)) (size_mod p)) as [Hs|Hs].
      - apply encode_size_overflow; auto. lia.
      - unfold l8w8jwt_base64_encode. cbn [negb is_null orb]. destruct (N.eqb_spec (N.of_nat (length t)) 0); [lia|].
        assert (H0 : (0 < size_mod p)%N) by (unfold size_mod; apply N.neq_0_lt_0, N.pow_nonzero; lia).
        assert (Ho : (b64_olen p (N.of_nat (length t)) <? N.of_nat (length t))%N = true).
        { apply N.ltb_lt. eapply N.lt_le_trans; [|exact Hs]. unfold b64_olen. apply N.mod_lt. lia. }
        rewrite Ho. reflexivity. }
    rewrite E. reflexivity.
  - destruct (Z.leb_spec (4 * ((Z.of_nat (length t) + 2) / 3)) INT_MAX) as [I|I].
    + exists (Made (b64url t)). split; [apply B_text; [exact O|exact I]|]. split; [reflexivity|].
      destruct (encode_seg_ok p b t (N.of_nat (length t)) w) as (m & H); auto; try lia; try (rewrite nat_N_Z; exact I).
      exists m. rewrite H. rewrite Nat2N.id, firstn_all. reflexivity.
    + exists (Breaks SignedOverflow). split; [apply B_int; [exact O|exact I]|].
      unfold encode_segment, mbind at 1.
      destruct (encode_cases p true b t (N.of_nat (length t)) w Hp ltac:(lia) ltac:(lia))
        as [(? & E)|[(_ & ? & E)|[(_ & _ & Hx & E)|[(_ & _ & _ & _ & Hx & E)|(_ & _ & _ & Hx & _)]]]]; try lia;
        try (rewrite A in Hx; discriminate).
      rewrite E. reflexivity.
Qed.

(** ** Header and payload *)
Lemma header_start alg h j : header_prefix alg = Some h -> supported alg j -> h = lit "{" ++ join (map plain_member (fixed_members j)).
Proof.
  intros H Hj. pose proof (supported_range _ _ Hj) as R. destruct Hj as [Hin E]. subst alg. simpl in Hin.
  decompose [or] Hin; try contradiction; subst j; cbn [j_id] in H;
    match type of H with ?v = Some h => assert (X : Some h = v) by (symmetry; exact H) end; vm_compute in X; injection X as ->; vm_compute; reflexivity.
Qed.
Lemma separator_comma ep : separator ep (comma ep).
Proof.
  destruct (comma_cases ep) as [(E & H)|(E & H)]; rewrite E; constructor; tauto.
Qed.
Definition extra (p : platform) (claims : cptr) (n : N) : product -> Prop :=
  if (n =? 0)%N then eq (Made []) else members p (keyed_claims claims n).
Definition then_text (f : bytes -> bytes) (o : product) : product := match o with Made t => Made (f t) | _ => o end.
Lemma opt_does p buff claims n (sep : bool) w :
  wf w -> allocs w -> grows w -> claims_given claims n ->
  exists o, extra p claims n o
    /\ appends ((if (0 <? n)%N
                 then (buff <- (if sep then cb_push buff (lit ",") else mret buff) ;;
                       r <- l8w8jwt_write_claims p buff claims n ;; mret (snd r))
                 else mret buff) w)
         (fun t w' b => b = grown buff (opt_claims n (if sep then lit "," else []) t) /\ quiet w w') (fun _ _ _ => False) o.
Proof.
  intros W A G Hg. unfold extra, opt_claims. destruct (N.eqb_spec n 0) as [->|Hn].
  - exists (Made []). split; [reflexivity|]. cbn. do 2 eexists. split; [reflexivity|]. split; [|apply quiet_refl].
    unfold grown. rewrite app_nil_r. destruct buff; reflexivity.
  - destruct (N.ltb_spec 0 n) as [_|L]; [|lia].
    assert (H : exists w1, (if sep then cb_push buff (lit ",") else mret buff) w = Ret (grown buff (if sep then lit "," else [])) w1 /\ quiet w w1).
    { destruct sep; [exists (w_push w); split; [apply push_does, G|apply quiet_push]|].
      exists w. split; [|apply quiet_refl]. unfold grown. rewrite app_nil_r. destruct buff; reflexivity. }
    destruct H as (w1 & H & Q1).
    destruct (claims_does p (grown buff (if sep then lit "," else [])) claims n w1) as (o & M & D);
      [eapply wf_quiet; eauto|eapply allocs_later; [apply quiet_later, Q1|exact A]|eapply grows_later; [apply quiet_later, Q1|exact G]|lia|exact Hg|].
    exists o. split; [exact M|]. destruct o as [t|rc|u]; cbn [appends] in D |- *.
    + destruct D as (r & w2 & D & E & Q2). mstep H. mstep D. do 2 eexists. split; [reflexivity|].
      split; [|eapply quiet_trans; eauto]. rewrite E. unfold grown. cbn [cb_id cb_elems]. rewrite <- app_assoc. reflexivity.
    + destruct D as (r & w2 & _ & F). contradiction.
    + mstep H. unfold mbind. rewrite D. reflexivity.
Qed.
Lemma header_of p ep j o h : header_prefix (ep_alg ep) = Some h -> supported (ep_alg ep) j ->
  extra p (ep_header_claims ep) (ep_header_claims_count ep) o ->
  header p ep j (then_text (fun t => h ++ opt_claims (ep_header_claims_count ep) (lit ",") t ++ lit "}") o).
Proof.
  intros Hh Hj H. rewrite (header_start _ _ _ Hh Hj). unfold extra in H. unfold header, opt_claims.
  destruct (N.eqb_spec (ep_header_claims_count ep) 0) as [E|E].
  - subst o. rewrite E. cbn [then_text N.ltb]. rewrite <- app_assoc. reflexivity.
  - destruct (N.ltb_spec 0 (ep_header_claims_count ep)) as [_|L]; [|lia].
    destruct o as [t|rc|u]; cbn [then_text].
    + eapply At_go; [exact H|]. rewrite <- !app_assoc. reflexivity.
    + apply At_stop; [exact H|discriminate].
    + apply At_stop; [exact H|discriminate].
Qed.
Lemma payload_of p ep r o : registered p ep (Made r) -> extra p (ep_payload_claims ep) (ep_payload_claims_count ep) o ->
  payload p ep (then_text (fun t => lit "{" ++ r ++ opt_claims (ep_payload_claims_count ep) (comma ep) t ++ lit "}") o).
Proof.
  intros R H. unfold extra in H. unfold payload, opt_claims. eapply At_go; [exact R|]. cbv beta.
  destruct (N.eqb_spec (ep_payload_claims_count ep) 0) as [E|E].
  - subst o. rewrite E. reflexivity.
  - destruct (N.ltb_spec 0 (ep_payload_claims_count ep)) as [_|L]; [|lia].
    destruct o as [t|rc|u]; cbn [then_text].
    + eapply At_go; [exact H|]. exists (comma ep). split; [apply separator_comma|]. rewrite <- !app_assoc. reflexivity.
    + apply At_stop; [exact H|discriminate].
    + apply At_stop; [exact H|discriminate].
Qed.
Lemma comma_if ep : comma ep = if negb (ep_iat ep =? 0)%Z || negb (ep_exp ep =? 0)%Z || negb (ep_nbf ep =? 0)%Z || negb (ep_iss_length ep =? 0)%N
  || negb (ep_sub_length ep =? 0)%N || negb (ep_jti_length ep =? 0)%N || negb (ep_aud_length ep =? 0)%N then lit "," else [].
Proof. reflexivity. Qed.

Lemma whp_does p sb ep j w :
  (6 <= p_size_bits p)%N -> wf w -> allocs w -> grows w -> supported (ep_alg ep) j -> enc_given ep ->
  exists o, to_be_signed p ep j o
    /\ appends (write_header_and_payload p sb ep w)
         (fun t _ r => r = (L8W8JWT_SUCCESS, grown sb t)) (fun rc _ r => rc <> L8W8JWT_SUCCESS /\ fst r = rc) o.
Proof.
  intros Hp Hwf A0 G0 Hj Hr. pose proof Hr as (Hh & Hpl & _).
  unfold write_header_and_payload. unfold mbind at 1. rewrite cb_init_eq, A0.
  set (w0 := w_ok w). assert (W0 : wf w0) by (apply wf_ok; auto).
  assert (A : forall w', quiet w0 w' -> allocs w').
  { intros w' Q. eapply allocs_later; [|exact A0]. eapply later_trans; [apply later_ok|apply quiet_later, Q]. }
  assert (G : forall w', quiet w0 w' -> grows w').
  { intros w' Q. eapply grows_later; [|exact G0]. eapply later_trans; [apply later_ok|apply quiet_later, Q]. }
  assert (Hlive : w_live w0 (w_next w) = true) by (unfold w0; cbn; apply upd_live_same).
  assert (Hfree : forall w1 B (a : B), quiet w0 w1 ->
            exists w', (_ <- free_id (w_next w) ;; mret a) w1 = Ret a w').
  { intros w1 B a Q. unfold mbind. rewrite free_id_eq by (eapply quiet_live; eauto). eexists. reflexivity. }
  destruct (header_prefix (ep_alg ep)) as [h|] eqn:Eh.
  2:{ exfalso. pose proof (supported_range _ _ Hj) as R. destruct Hj as [Hin E]. revert Eh. rewrite <- E. simpl in Hin.
      decompose [or] Hin; try contradiction; subst j; discriminate. }
  rewrite <- comma_if || idtac.
  mstep (push_does _ (CB (w_next w) []) h w0 (G w0 (quiet_refl _))).
  set (b1 := grown (CB (w_next w) []) h).
  assert (Q1 : quiet w0 (w_push w0)) by apply quiet_push.
  destruct (opt_does p b1 (ep_header_claims ep) (ep_header_claims_count ep) true (w_push w0)) as (oh & Mh & Dh);
    [eapply wf_quiet; eauto|auto|auto|auto|].
  pose proof (header_of p ep j oh h Eh Hj Mh) as HH. cbn iota in Dh.
  destruct oh as [th|rc|u]; cbn [appends then_text] in Dh, HH.
  2:{ destruct Dh as (r & w2 & _ & F). contradiction. }
  2:{ exists (Breaks u). split; [apply At_stop; [exact HH|discriminate]|]. cbn [appends]. unfold mbind at 1. rewrite Dh. reflexivity. }
  destruct Dh as (b2 & w2 & Dh & -> & Q2). mstep Dh. clear Dh.
  assert (Q2' : quiet w0 w2) by (eapply quiet_trans; eauto).
  mstep (push_does _ (grown b1 (opt_claims (ep_header_claims_count ep) (lit ",") th)) (lit "}") w2 (G _ Q2')).
  set (ht := h ++ opt_claims (ep_header_claims_count ep) (lit ",") th ++ lit "}") in *.
  assert (E3 : grown (grown b1 (opt_claims (ep_header_claims_count ep) (lit ",") th)) (lit "}") = CB (w_next w) ht).
  { unfold grown, b1, grown. cbn [cb_id cb_elems app]. unfold ht. rewrite <- app_assoc. reflexivity. }
  rewrite E3. clear E3. assert (Q3 : quiet w0 (w_push w2)) by (eapply quiet_trans; [exact Q2'|apply quiet_push]).
  assert (W3 : wf (w_push w2)) by (eapply wf_quiet; eauto).
  set (w3 := w_push w2) in *. clearbody w3.
  assert (Nh : ht <> []) by (unfold ht; destruct h; destruct (opt_claims _ _ th); discriminate).
  clearbody ht. clear b1.
  destruct (segment_does p (Some (w_next w)) ht w3 Hp (A _ Q3) Nh) as (o1 & B1 & S1).
  unfold cb_ptr at 1, cb_len at 1. cbn [cb_id cb_elems].
  destruct o1 as [s1|rc|u].
  2:{ destruct S1 as (Nz & S1). exists (Fails rc). split; [eapply At_go; [exact HH|]; apply At_stop; [exact B1|discriminate]|].
     mstep S1. destruct (Z.eqb_spec rc L8W8JWT_SUCCESS) as [E|_]; [contradiction|]. cbn [negb]. unfold cb_free. cbn [cb_id].
      destruct (Hfree w3 _ (rc, sb) Q3) as (w' & K). exists (rc, sb), w'. split; [exact K|auto]. }
  2:{ exists (Breaks u). split; [eapply At_go; [exact HH|]; apply At_stop; [exact B1|discriminate]|]. unfold mbind at 1. rewrite S1. reflexivity. }
  destruct S1 as (_ & m1 & S1). mstep S1. cbn [negb Z.eqb L8W8JWT_SUCCESS]. clear S1.
  assert (G4 : grows (w_ok w3)) by (eapply grows_later; [apply later_ok|exact (G _ Q3)]).
  mstep (push_does _ sb s1 (w_ok w3) G4).
  cbn [free]. unfold mbind at 1. rewrite free_id_eq by (cbn; apply upd_live_same).
  set (w5 := w_free (w_push (w_ok w3)) (w_next w3)).
  assert (Q5 : quiet w0 w5).
  { eapply quiet_trans; [exact Q3|]. apply quiet_alloc_free; [exact W3|apply quiet_push]. }
  clearbody w5.
  pose proof (iatnbfexp_eq ep) as Htb.
  set (tbuf := field (dec_time (ep_iat ep)) 21 ++ field (dec_time (ep_nbf ep)) 21
                     ++ field (dec_time (ep_exp ep)) 21 ++ [x00]) in Htb.
  clearbody tbuf. unfold mbind at 1. rewrite Htb. cbn [lift].
  mstep (push_does _ (cb_clear (CB (w_next w) ht)) (lit "{") w5 (G _ Q5)).
  assert (E4 : grown (cb_clear (CB (w_next w) ht)) (lit "{") = CB (w_next w) (lit "{")) by reflexivity.
  rewrite E4. clear E4.
  assert (Q6 : quiet w0 (w_push w5)) by (eapply quiet_trans; [exact Q5|apply quiet_push]).
  assert (W6 : wf (w_push w5)) by (eapply wf_quiet; eauto).
  set (w6 := w_push w5) in *. clearbody w6.
  destruct (claims_does p (CB (w_next w) (lit "{")) (CArr None (registered_claims ep tbuf)) 7 w6 W6 (A _ Q6) (G _ Q6))
    as (o2 & M2 & D2); [lia|apply registered_given; auto|].
  apply (registered_of p ep tbuf o2 Htb) in M2.
  assert (Front : forall o, payload p ep o -> (forall t, o <> Made t) -> to_be_signed p ep j o).
  { intros o P N. eapply At_go; [exact HH|]. eapply At_go; [exact B1|]. apply At_stop; [exact P|exact N]. }
  destruct o2 as [r|rc|u]; cbn [appends] in D2.
  2:{ destruct D2 as (r & w2' & _ & F). contradiction. }
  2:{ exists (Breaks u). split; [apply Front; [apply At_stop; [exact M2|discriminate]|discriminate]|]. unfold mbind at 1. rewrite D2. reflexivity. }
  destruct D2 as (r2 & w7 & D2 & E2 & Q7). mstep D2. clear D2. rewrite E2. clear E2 r2.
  assert (Q7' : quiet w0 w7) by (eapply quiet_trans; eauto).
  match goal with |- context [if ?c then cb_push ?b (lit ",") else mret ?b] =>
    destruct (opt_does p b (ep_payload_claims ep) (ep_payload_claims_count ep) c w7) as (op & Mp & Dp);
      [eapply wf_quiet; eauto|auto|auto|auto|] end.
  rewrite <- comma_if in Dp.
  pose proof (payload_of p ep r op M2 Mp) as HP.
  destruct op as [tp|rc|u]; cbn [appends then_text] in Dp, HP.
  2:{ destruct Dp as (r' & w2' & _ & F). contradiction. }
  2:{ exists (Breaks u). split; [apply Front; [exact HP|discriminate]|]. unfold mbind at 1. rewrite Dp. reflexivity. }
  destruct Dp as (b6 & w8 & Dp & -> & Q8). mstep Dp. clear Dp.
  assert (Q8' : quiet w0 w8) by (eapply quiet_trans; eauto).
  match goal with |- context [cb_push ?b (lit "}")] => mstep (push_does _ b (lit "}") w8 (G _ Q8')) end.
  set (pt := lit "{" ++ r ++ opt_claims (ep_payload_claims_count ep) (comma ep) tp ++ lit "}") in *.
  match goal with |- context [cb_ptr ?b] => assert (E7 : b = CB (w_next w) pt) end.
  { unfold grown. cbn [cb_id cb_elems]. unfold pt. rewrite <- !app_assoc. reflexivity. }
  rewrite E7. clear E7.
  assert (Q9 : quiet w0 (w_push w8)) by (eapply quiet_trans; [exact Q8'|apply quiet_push]).
  assert (W9 : wf (w_push w8)) by (eapply wf_quiet; eauto).
  set (w9 := w_push w8) in *. clearbody w9.
  assert (Np : pt <> []) by (unfold pt; discriminate). clearbody pt.
  destruct (segment_does p (Some (w_next w)) pt w9 Hp (A _ Q9) Np) as (o3 & B3 & S3).
  unfold cb_ptr, cb_len. cbn [cb_id cb_elems].
  assert (Front2 : forall o, based p pt o -> (forall t, o <> Made t) -> to_be_signed p ep j o).
  { intros o P N. eapply At_go; [exact HH|]. eapply At_go; [exact B1|]. eapply At_go; [exact HP|]. apply At_stop; [exact P|exact N]. }
  destruct o3 as [s3|rc|u].
  2:{ destruct S3 as (Nz & S3). exists (Fails rc). split; [apply Front2; [exact B3|discriminate]|].
     mstep S3. destruct (Z.eqb_spec rc L8W8JWT_SUCCESS) as [E|_]; [contradiction|]. cbn [negb]. unfold cb_free. cbn [cb_id].
      match goal with |- context [mret (rc, ?b)] => destruct (Hfree w9 _ (rc, b) Q9) as (w' & K); exists (rc, b), w' end. split; [exact K|auto]. }
  2:{ exists (Breaks u). split; [apply Front2; [exact B3|discriminate]|]. unfold mbind at 1. rewrite S3. reflexivity. }
  destruct S3 as (_ & m3 & S3). mstep S3. cbn [negb Z.eqb L8W8JWT_SUCCESS]. clear S3.
  exists (Made (s1 ++ lit "." ++ s3)). split.
  { eapply At_go; [exact HH|]. eapply At_go; [exact B1|]. eapply At_go; [exact HP|]. eapply At_go; [exact B3|]. reflexivity. }
  assert (G9 : grows (w_ok w9)) by (eapply grows_later; [apply later_ok|exact (G _ Q9)]).
  match goal with |- context [cb_push ?b (lit ".")] => mstep (push_does _ b (lit ".") (w_ok w9) G9) end.
  assert (G10 : grows (w_push (w_ok w9))) by (eapply grows_later; [apply later_push|exact G9]).
  match goal with |- context [cb_push ?b s3] => mstep (push_does _ b s3 (w_push (w_ok w9)) G10) end.
  cbn [free]. unfold mbind at 1. rewrite free_id_eq by (cbn; apply upd_live_same).
  unfold cb_free. cbn [cb_id].
  match goal with |- context [mret (?z, ?b)] => destruct (Hfree (w_free (w_push (w_push (w_ok w9))) (w_next w9)) _ (z, b)) as (w' & K) end.
  { eapply quiet_trans; [exact Q9|]. apply quiet_alloc_free; [exact W9|]. eapply quiet_trans; apply quiet_push. }
  do 2 eexists. split; [exact K|]. unfold grown. cbn [cb_id cb_elems]. rewrite <- !app_assoc. reflexivity.
Qed.
