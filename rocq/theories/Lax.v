(** * Lemmas: the tokenizer on object texts with commas missing or too many *)
From Verif Require Import Base BaseProofs HeapProofs Util UtilProofs Claim Base64 SpecB64
  Base64EncProofs Base64EncApi Base64Api UnescapeProofs Jsmn Env Encode SpecJson SpecJwa ClaimProofs EncodeProofs
  SignProofs SpecEnc JsonProofs JsmnProofs ParseProofs ReadProofs JsmnJson JsmnSize.
From Coq Require Import ZifyBool ZifyNat ZifyN.
Ltac Zify.zify_post_hook ::= Z.div_mod_to_equations.

(** Reading the text [t] at [pos] adds exactly the tokens [tl], whatever follows. *)
Definition adds_any (t : bytes) (pos : Z) (tl : list tok) : Prop :=
  forall cap rest toks count, room cap toks (length tl) ->
    jrun cap (t ++ rest) pos toks count =
    jrun cap rest (pos + Z.of_nat (length t)) (padd cap toks tl) (count + Z.of_nat (length tl)).
(** A stretch of an object's text: the members [ms] are read from it, in [n] tokens. [any]: whatever
    follows, and not only what ends a number. *)
Definition piece (any : bool) (ms : list member) (t : bytes) (n : N) : Prop := forall pos, (0 <= pos)%Z ->
  exists tl, Forall (within pos (pos + Z.of_nat (length t))) tl /\ N.of_nat (length tl) = n
    /\ (if any then adds_any t pos tl else adds_tokens t pos tl)
    /\ (forall pre post, Z.of_nat (length pre) = pos -> laid (pre ++ t ++ post) ms tl).

Lemma piece_weaken q ms t n : piece q ms t n -> piece false ms t n.
Proof.
  intros H pos Hp. destruct (H pos Hp) as (tl & H1 & H2 & H3 & H4). exists tl. do 2 (split; [assumption|]). split; [|exact H4].
  destruct q; [|exact H3]. intros cap rest toks count _ R. apply H3. exact R.
Qed.
Lemma laid_app mem a ta : laid mem a ta -> forall b tb, laid mem b tb ->
  (forall x y, In x ta -> In y tb -> (t_end x < t_end y)%Z) -> laid mem (a ++ b) (ta ++ tb).
Proof.
  induction 1 as [|m ms kt vt inner tl H1 H2 H3 H4 H5 H6 H7 Hl IH]; intros b tb Hb Ho; [exact Hb|].
  cbn [app]. rewrite <- app_assoc. apply laid_cons; auto.
  - apply Forall_app. split; [exact H7|]. apply Forall_forall. intros y Hy. apply Ho; [right; left; reflexivity|exact Hy].
  - apply IH; [exact Hb|]. intros x y Hx Hy. apply Ho; [|exact Hy]. right. right. apply in_app_iff. right. exact Hx.
Qed.
Lemma piece_app q a s n b t m : piece true a s n -> piece q b t m -> piece q (a ++ b) (s ++ t) (n + m).
Proof.
  intros Ha Hb pos Hp. destruct (Ha pos Hp) as (ta & A1 & A2 & A3 & A4).
  destruct (Hb (pos + Z.of_nat (length s))%Z ltac:(lia)) as (tb & B1 & B2 & B3 & B4).
  exists (ta ++ tb). split; [|split; [|split]].
  - apply Forall_app. split; (eapply within_le; [eassumption|lia|rewrite app_length; lia]).
  - rewrite app_length. lia.
  - assert (G : forall cap rest toks count, (q = false -> delim rest) -> room cap toks (length (ta ++ tb)) ->
      jrun cap ((s ++ t) ++ rest) pos toks count =
      jrun cap rest (pos + Z.of_nat (length (s ++ t))) (padd cap toks (ta ++ tb)) (count + Z.of_nat (length (ta ++ tb)))).
    { intros cap rest toks count D R. rewrite app_length in R. rewrite <- app_assoc, A3 by (eapply room_le; [exact R|lia]).
      assert (R2 : room cap (padd cap toks ta) (length tb)) by (apply room_padd; exact R).
      assert (E : jrun cap (t ++ rest) (pos + Z.of_nat (length s)) (padd cap toks ta) (count + Z.of_nat (length ta))
        = jrun cap rest (pos + Z.of_nat (length s) + Z.of_nat (length t)) (padd cap (padd cap toks ta) tb)
            (count + Z.of_nat (length ta) + Z.of_nat (length tb))).
      { destruct q; [apply B3; exact R2|apply B3; [auto|exact R2]]. }
      rewrite E, padd_app, !app_length. f_equal; lia. }
    destruct q; [intros cap rest toks count R; apply G; [discriminate|exact R]|intros cap rest toks count D R; apply G; auto].
  - intros pre post E. apply laid_app.
    + rewrite <- app_assoc. apply A4. exact E.
    + replace (pre ++ (s ++ t) ++ post) with ((pre ++ s) ++ t ++ post) by (rewrite <- !app_assoc; reflexivity).
      apply B4. rewrite app_length. lia.
    + intros x y Hx Hy. rewrite Forall_forall in A1, B1. specialize (A1 x Hx). specialize (B1 y Hy). unfold within in *. lia.
Qed.
Lemma piece_nil : piece true [] [] 0.
Proof.
  intros pos Hp. exists []. split; [constructor|]. split; [reflexivity|]. split; [|constructor].
  intros cap rest toks count _. rewrite padd_nil. cbn [app length]. f_equal; lia.
Qed.
Lemma piece_comma : piece true [] (lit ",") 0.
Proof.
  intros pos Hp. exists []. split; [constructor|]. split; [reflexivity|]. split; [|constructor].
  intros cap rest toks count _. rewrite padd_nil. change (lit "," ++ rest) with (x2c :: rest). rewrite jrun_blank by reflexivity.
  cbn [length]. f_equal; change (length (lit ",")) with 1%nat; lia.
Qed.
Lemma piece_then_comma q ms t n : piece q ms t n -> piece true ms (t ++ lit ",") n.
Proof.
  intros H. apply piece_weaken in H. intros pos Hp. destruct (H pos Hp) as (tl & H1 & H2 & H3 & H4).
  exists tl. split; [eapply within_le; [exact H1|lia|rewrite app_length; lia]|]. split; [exact H2|]. split.
  - intros cap rest toks count R. rewrite <- app_assoc. change (lit "," ++ rest) with (x2c :: rest).
    rewrite H3; [|right; reflexivity|exact R]. rewrite jrun_blank by reflexivity.
    rewrite app_length. change (length (lit ",")) with 1%nat. f_equal; lia.
  - intros pre post E. rewrite <- app_assoc. apply H4. exact E.
Qed.

(** The number of tokens of a stretch is what the counting pass counts. *)
Lemma counted t n pos tl : counts t n -> adds_tokens t pos tl -> N.of_nat (length tl) = n.
Proof.
  intros Hc Ha. specialize (Hc [] pos [] 0%Z I). specialize (Ha None [] [] 0%Z I I). rewrite Hc in Ha.
  rewrite !jmain_rest in Ha by auto. injection Ha as Ha. lia.
Qed.
Lemma piece_member m t n : member_text m t -> counts t n -> piece false [m] t n.
Proof.
  intros Hm Hc pos Hp. apply member_text_members in Hm.
  destruct (proj2 (proj2 json_tokenized) _ _ Hm pos Hp) as (tl & H1 & H2 & H3). exists tl.
  split; [exact H1|]. split; [eapply counted; eauto|]. auto.
Qed.
Lemma piece_string k kd v vd : json_body k kd -> json_body v vd ->
  piece true [Member k KString (quoted v)] (quoted k ++ lit ":" ++ quoted v) 2.
Proof.
  intros Hk Hv pos Hp. set (vp := (pos + Z.of_nat (length (quoted k)) + 1)%Z).
  assert (Lq : forall x : bytes, length (quoted x) = S (S (length x))) by (intros x; unfold quoted; cbn [length]; rewrite app_length; cbn [length]; lia).
  assert (L : length (quoted k ++ lit ":" ++ quoted v) = (length k + length v + 5)%nat).
  { rewrite !app_length, !Lq. change (length (lit ":")) with 1%nat. lia. }
  exists [Tok JString (pos + 1) (pos + 1 + Z.of_nat (length k)); Tok JString (vp + 1) (vp + 1 + Z.of_nat (length v))].
  split; [|split; [reflexivity|split]].
  - unfold vp. rewrite L, Lq. constructor; [unfold within; cbn [t_end]; lia|]. constructor; [unfold within; cbn [t_end]; lia|constructor].
  - intros cap rest toks count R. rewrite <- !app_assoc. rewrite (jrun_string cap k kd); [|exact Hk|eapply room_le; [exact R|cbn; lia]].
    change (lit ":" ++ quoted v ++ rest) with (x3a :: quoted v ++ rest). rewrite jrun_blank by reflexivity.
    fold vp. rewrite (jrun_string cap v vd); [|exact Hv|apply room_padd; exact R].
    rewrite padd_app. cbn [app length]. rewrite L. unfold vp. rewrite !Lq. f_equal; lia.
  - intros pre post E.
    rewrite <- (app_nil_r [_; _]). change ([Tok JString (pos + 1) (pos + 1 + Z.of_nat (length k)); Tok JString (vp + 1) (vp + 1 + Z.of_nat (length v))] ++ [])
      with (Tok JString (pos + 1) (pos + 1 + Z.of_nat (length k)) :: Tok JString (vp + 1) (vp + 1 + Z.of_nat (length v)) :: ([] : list tok) ++ []).
    apply laid_cons; auto; cbn [m_key m_kind m_value]; try constructor.
    + unfold quoted at 1. replace (pre ++ ((x22 :: k ++ [x22]) ++ lit ":" ++ quoted v) ++ post)
        with ((pre ++ [x22]) ++ k ++ ([x22] ++ lit ":" ++ quoted v ++ post)) by (cbn [app]; rewrite <- !app_assoc; cbn [app]; rewrite <- ?app_assoc; reflexivity).
      apply span_app. rewrite app_length. cbn [length]. lia.
    + rewrite vtext_quoted. unfold quoted at 2.
      replace (pre ++ (quoted k ++ lit ":" ++ x22 :: v ++ [x22]) ++ post)
        with ((pre ++ quoted k ++ lit ":" ++ [x22]) ++ v ++ ([x22] ++ post)) by (cbn [app]; rewrite <- !app_assoc; cbn [app]; rewrite <- ?app_assoc; reflexivity).
      apply span_app. rewrite !app_length, Lq. change (length (lit ":")) with 1%nat. cbn [length]. unfold vp. rewrite Lq. lia.
Qed.

(** Texts joined by commas. *)
Lemma join_two t u ts : join (t :: u :: ts) = (t ++ lit ",") ++ join (u :: ts).
Proof. change (join (t :: u :: ts)) with (t ++ lit "," ++ join (u :: ts)). apply app_assoc. Qed.
Inductive sums (R : bytes -> N -> Prop) : list bytes -> N -> Prop :=
| Su_nil : sums R [] 0
| Su_cons t n ts m : R t n -> sums R ts m -> sums R (t :: ts) (n + m).
Lemma piece_join ms ts : Forall2 member_text ms ts -> forall n, sums counts ts n -> piece false ms (join ts) n.
Proof.
  induction 1 as [|m t ms ts H Hs IH]; intros n Hn; inversion Hn as [|? k ? n' Hk Hn']; subst.
  - apply (piece_weaken true), piece_nil.
  - specialize (IH _ Hn'). destruct Hs as [|m2 t2 ms ts H2 Hs].
    + inversion Hn'; subst. rewrite N.add_0_r. apply piece_member; assumption.
    + rewrite join_two. apply (piece_app false [m]); [eapply piece_then_comma, piece_member; eassumption|exact IH].
Qed.
Definition string_member_text (m : member) (t : bytes) : Prop :=
  exists k kd v vd, json_body k kd /\ json_body v vd /\ m = Member k KString (quoted v) /\ t = quoted k ++ lit ":" ++ quoted v.
Lemma piece_strings ms ts : Forall2 string_member_text ms ts -> piece true ms (join ts) (2 * N.of_nat (length ms)).
Proof.
  induction 1 as [|m t ms ts (k & kd & v & vd & Hk & Hv & -> & ->) Hs IH]; [apply piece_nil|].
  pose proof (piece_string _ _ _ _ Hk Hv) as P. destruct Hs as [|m2 t2 ms ts H2 Hs]; [exact P|].
  rewrite join_two. replace (2 * N.of_nat (length (Member k KString (quoted v) :: m2 :: ms)))%N with (2 + 2 * N.of_nat (length (m2 :: ms)))%N
    by (cbn [length]; lia).
  apply (piece_app true [_]); [|exact IH]. eapply piece_then_comma. exact P.
Qed.

(** ** Whole texts *)
Definition braced (ms : list member) (t : bytes) (n : N) : Prop := exists body, t = lit "{" ++ body ++ lit "}" /\ piece false ms body n.
Lemma jsmn_braced ms t n : braced ms t n ->
  exists t0 tl, t_type t0 = JObject /\ N.of_nat (length tl) = n
    /\ jsmn_parse t None = (Z.of_nat (S (length tl)), [])
    /\ jsmn_parse t (Some (Z.of_nat (S (length tl)))) = (Z.of_nat (S (length tl)), t0 :: tl)
    /\ forall post, laid (t ++ post) ms tl.
Proof.
  intros (body & -> & Hb). destruct (Hb 1%Z ltac:(lia)) as (tl & Hw & Hn & Ha & Hl).
  set (t := lit "{" ++ body ++ lit "}"). set (t0 := Tok JObject 0 (Z.of_nat (length t))).
  exists t0, tl. split; [reflexivity|]. split; [exact Hn|].
  assert (HA : adds_tokens t 0 (t0 :: tl)).
  { exact (adds_container JObject x7b x7d body 0 tl ltac:(lia) ltac:(auto) Ha Hw). }
  assert (Lt : (0 < length t)%nat) by (unfold t; rewrite app_length; change (length (lit "{")) with 1%nat; lia).
  assert (R : forall cap, room cap [] (length (t0 :: tl)) ->
    jmain (S (length t)) cap t 0 [] 0 = (Z.of_nat (S (length tl)), padd cap [] (t0 :: tl))).
  { intros cap Hr. change (jrun cap t 0 [] 0 = (Z.of_nat (S (length tl)), padd cap [] (t0 :: tl))).
    pose proof (HA cap [] [] 0%Z I Hr) as E. rewrite app_nil_r in E. rewrite E, jmain_rest by auto. f_equal. }
  split; [|split].
  - unfold jsmn_parse. rewrite R by exact I. destruct (Z.ltb_spec (Z.of_nat (S (length tl))) 0); [lia|]. reflexivity.
  - unfold jsmn_parse. rewrite R by (cbn [room length]; lia). destruct (Z.ltb_spec (Z.of_nat (S (length tl))) 0); [lia|].
    cbn [padd]. rewrite app_nil_r.
    assert (E : existsb tok_open (rev (t0 :: tl)) = false).
    { apply not_true_iff_false. intros C. apply existsb_exists in C as (x & Hx & Hc). apply in_rev in Hx.
      destruct Hx as [<-|Hx].
      - unfold tok_open, t0 in Hc. cbn [t_start t_end] in Hc. lia.
      - rewrite Forall_forall in Hw. specialize (Hw x Hx). unfold within, tok_open in *. lia. }
    rewrite E, rev_involutive. reflexivity.
  - intros post. unfold t. replace ((lit "{" ++ body ++ lit "}") ++ post) with (lit "{" ++ body ++ (lit "}" ++ post)) by (rewrite <- !app_assoc; reflexivity).
    apply Hl. reflexivity.
Qed.
Lemma reads_braced e ms t n post : braced ms t n -> Forall member_ok ms -> Forall (num_known e) ms ->
  ((1 + n <= 62)%N \/ forall ms' m, ms = ms' ++ [m] -> container (m_kind m) = false) ->
  reads e (t ++ post) (N.of_nat (length t)) (map (entry_of e) ms).
Proof.
  intros Hb Hok Hnum Hlast. destruct (jsmn_braced ms t n Hb) as (t0 & tl & T0 & Hn & P1 & P2 & Hl).
  unfold reads. rewrite Nat2N.id, firstn_app_exact. rewrite P1 in *. cbn [fst] in *. right.
  split; [lia|]. exists t0, tl. split; [exact P2|]. split; [exact T0|].
  destruct (jsmn_tokens _ _ _ _ P2 ltac:(lia)) as [_ Htok].
  unfold token_array. pose proof (read_laid e (t ++ post) _ (t0 :: tl)
    (if (Z.of_nat (S (length tl)) <=? 64)%Z then 64 else Z.of_nat (S (length tl)))%Z (e_tok_junk e) Htok) as R.
  refine (R _ _ ms [t0] tl (S (Z.to_nat (Z.of_nat (S (length tl))))) eq_refl _ (Hl post) Hok Hnum _ _).
  - destruct (before_nul_prefix t) as (_ & _ & L). rewrite app_length. lia.
  - cbn [length]. destruct (Z.leb_spec (Z.of_nat (S (length tl))) 64); lia.
  - discriminate.
  - lia.
  - destruct Hlast as [Hlast|Hlast]; [left|right; exact Hlast]. cbn [length].
    destruct (Z.leb_spec (Z.of_nat (S (length tl))) 64); lia.
Qed.
