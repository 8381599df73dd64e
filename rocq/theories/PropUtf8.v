(** * Property C94: the character encoding of tokens *)
From Verif Require Import Base BaseProofs HeapProofs Util UtilProofs Claim Base64 SpecB64
  Base64EncProofs Base64EncApi Base64DecProofs Base64Api Jsmn Env Encode Decode SpecJson SpecJwa ClaimProofs UnescapeProofs
  EncodeProofs SignProofs EncodeTotal SpecEnc JsonProofs PropEncode DecodeProofs DecodeInv JsmnProofs ParseProofs
  PropClaim ReadProofs ValidateProofs JsmnJson JsmnSize PropVerify PropValidate PropLeak PropJson DecodeTotal DecodeOk PropSafe
  PropRoundTrip PropIssued PropTime PropVerdict Examples PropEncMemory PropPrograms Walk Exact Complete PropComplete
  EncComplete PropEncComplete PropRules LocalProofs.
From Coq Require Import ZifyBool ZifyNat ZifyN.
Ltac Zify.zify_post_hook ::= Z.div_mod_to_equations.
Local Opaque L8W8JWT_MAX_KEY_SIZE.

(** ** UTF-8 (RFC 3629) *)
(** A text is UTF-8 if it is the encoding of a sequence of code points: those up to U+10FFFF, without surrogates. *)
Definition code_point (u : N) : Prop := (u < 1114112)%N /\ ~ high_surrogate u /\ ~ low_surrogate u.
Definition utf8_text (s : bytes) : Prop := exists us, Forall code_point us /\ s = flat_map utf8 us.

Definition low (c : byte) : Prop := (b2n c < 128)%N.
Definition high (c : byte) : Prop := (128 <= b2n c)%N.
Lemma utf8_low u : (u < 128)%N -> utf8 u = [n2b u] /\ low (n2b u).
Proof. intros H. unfold utf8, low. destruct (N.ltb_spec u 128); [|lia]. rewrite b2n_n2b by lia. auto. Qed.
Lemma utf8_high u : (128 <= u < 1114112)%N -> Forall high (utf8 u) /\ utf8 u <> [].
Proof.
  intros H. unfold utf8, high. destruct (N.ltb_spec u 128); [lia|].
  destruct (N.ltb_spec u 2048); [|destruct (N.ltb_spec u 65536)]; (split; [|discriminate]);
    repeat (constructor; [rewrite b2n_n2b by lia; lia|]); constructor.
Qed.
Lemma utf8_nil : utf8_text [].
Proof. exists []. split; [constructor|reflexivity]. Qed.
Lemma utf8_app a b : utf8_text a -> utf8_text b -> utf8_text (a ++ b).
Proof.
  intros (us & U & ->) (vs & V & ->). exists (us ++ vs). split; [apply Forall_app; auto|]. symmetry. apply flat_map_app.
Qed.
Lemma utf8_one c : low c -> utf8_text [c].
Proof.
  intros H. unfold low in H. exists [b2n c]. split; [constructor; [unfold code_point, high_surrogate, low_surrogate; lia|constructor]|].
  cbn [flat_map]. destruct (utf8_low (b2n c) H) as [-> _]. rewrite n2b_b2n. reflexivity.
Qed.
Lemma high_prefix ch : forall T a c b, Forall high ch -> low c -> ch ++ T = a ++ c :: b -> exists a', a = ch ++ a' /\ T = a' ++ c :: b.
Proof.
  induction ch as [|x ch IH]; intros T a c b H L E; [exists a; auto|]. inversion H as [|? ? Hx Hc]; subst.
  destruct a as [|y a].
  - cbn [app] in E. injection E as -> _. unfold high in Hx. unfold low in L. lia.
  - cbn [app] in E. injection E as -> E. destruct (IH _ _ _ _ Hc L E) as (a' & -> & ->). exists a'. auto.
Qed.
(** An ASCII byte is a character of its own, whatever stands around it. *)
Lemma utf8_split a c b : low c -> utf8_text (a ++ c :: b) <-> utf8_text a /\ utf8_text b.
Proof.
  intros L. split.
  - intros (us & U & E). revert a E. induction U as [|u us Hu U IH]; intros a E.
    { destruct a; discriminate E. }
    cbn [flat_map] in E. destruct (N.ltb_spec u 128) as [Lu|Gu].
    + destruct (utf8_low u Lu) as [Eu _]. rewrite Eu in E. destruct a as [|x a]; cbn [app] in E; injection E as -> E.
      * subst b. split; [apply utf8_nil|]. exists us. auto.
      * destruct (IH a E) as [Ha Hb]. split; [|exact Hb].
        change (n2b u :: a) with ([n2b u] ++ a). apply utf8_app; [apply utf8_one; apply (utf8_low u Lu)|exact Ha].
    + assert (Hr : (128 <= u < 1114112)%N) by (unfold code_point in Hu; lia). symmetry in E.
      destruct (high_prefix (utf8 u) _ a c b (proj1 (utf8_high u Hr)) L E) as (a' & -> & E').
      destruct (IH a' (eq_sym E')) as [Ha Hb]. split; [|exact Hb]. apply utf8_app; [|exact Ha].
      exists [u]. split; [auto|]. cbn [flat_map]. symmetry. apply app_nil_r.
  - intros [Ha Hb]. apply utf8_app; [exact Ha|]. change (c :: b) with ([c] ++ b). apply utf8_app; [apply utf8_one; exact L|exact Hb].
Qed.
Lemma utf8_lows a b : Forall low a -> utf8_text (a ++ b) <-> utf8_text b.
Proof.
  induction 1 as [|c a Hc _ IH]; [reflexivity|]. cbn [app]. rewrite <- IH. change (c :: a ++ b) with ([] ++ c :: a ++ b).
  rewrite (utf8_split [] c (a ++ b) Hc). split; [intros [_ H]; exact H|intros H; split; [apply utf8_nil|exact H]].
Qed.
Lemma utf8_cons c s : low c -> utf8_text (c :: s) <-> utf8_text s.
Proof. intros L. apply (utf8_lows [c] s). constructor; [exact L|constructor]. Qed.
Lemma utf8_mid a m b : Forall low m -> m <> [] -> utf8_text (a ++ m ++ b) <-> utf8_text a /\ utf8_text b.
Proof.
  intros F N. destruct m as [|c m]; [contradiction|]. inversion F; subst. cbn [app]. rewrite utf8_split by assumption.
  rewrite utf8_lows by assumption. reflexivity.
Qed.
Lemma utf8_end a m : Forall low m -> utf8_text (a ++ m) <-> utf8_text a.
Proof.
  intros F. destruct m as [|c m]; [rewrite app_nil_r; reflexivity|]. inversion F; subst. rewrite utf8_split by assumption.
  split; [intros [H _]; exact H|]. intros H. split; [exact H|]. rewrite <- (app_nil_r m). apply utf8_lows; [assumption|apply utf8_nil].
Qed.
Lemma utf8_ascii m : Forall low m -> utf8_text m.
Proof. intros F. apply (utf8_end [] m F), utf8_nil. Qed.
Lemma lows_dec m : forallb (fun c => (b2n c <? 128)%N) m = true -> Forall low m.
Proof. intros H. rewrite forallb_forall in H. apply Forall_forall. intros c Hc. specialize (H c Hc). unfold low. lia. Qed.
Ltac lows := solve [apply lows_dec; reflexivity | reflexivity].

(** ** Writing *)
Lemma spelled_kind : forall c, (if (b2n c <? 128)%N then forallb (fun x => (b2n x <? 128)%N) (spelled c) && negb (Nat.eqb (length (spelled c)) 0)
                                else bytes_eqb (spelled c) [c]) = true.
Proof.
  apply (sweep1 (fun c => if (b2n c <? 128)%N then forallb (fun x => (b2n x <? 128)%N) (spelled c) && negb (Nat.eqb (length (spelled c)) 0)
                          else bytes_eqb (spelled c) [c])). vm_compute. reflexivity.
Qed.
Lemma spelled_low c : low c -> Forall low (spelled c) /\ spelled c <> [].
Proof.
  intros H. pose proof (spelled_kind c) as K. destruct (N.ltb_spec (b2n c) 128); [|unfold low in H; lia].
  apply andb_true_iff in K as [K1 K2]. split.
  - rewrite forallb_forall in K1. apply Forall_forall. intros x Hx. specialize (K1 x Hx). unfold low. lia.
  - intros E. rewrite E in K2. discriminate K2.
Qed.
Lemma spelled_high c : high c -> spelled c = [c].
Proof.
  intros H. pose proof (spelled_kind c) as K. destruct (N.ltb_spec (b2n c) 128); [unfold high in H; lia|]. apply bytes_eqb_eq, K.
Qed.
Lemma first_low s : Forall high s \/ exists a c b, s = a ++ c :: b /\ Forall high a /\ low c.
Proof.
  induction s as [|x s [IH|(a & c & b & -> & Ha & Hc)]]; [left; constructor| |].
  - destruct (N.ltb_spec (b2n x) 128); [right; exists [], x, s; auto|left; constructor; [exact H|exact IH]].
  - destruct (N.ltb_spec (b2n x) 128); right; [exists [], x, (a ++ c :: b); auto|exists (x :: a), c, b; split; [reflexivity|split; [constructor; auto|exact Hc]]].
Qed.
Lemma spelling_highs a : Forall high a -> spelling a = a.
Proof. unfold spelling. induction 1 as [|c a Hc _ IH]; [reflexivity|]. cbn [flat_map]. rewrite (spelled_high c Hc), IH. reflexivity. Qed.
Lemma utf8_spelling s : utf8_text (spelling s) <-> utf8_text s.
Proof.
  remember (length s) as n eqn:En. assert (Hn : (length s <= n)%nat) by lia. clear En. revert s Hn.
  induction n as [|n IH]; intros s Hn; (destruct (first_low s) as [H|(a & c & b & -> & Ha & Hc)]; [rewrite spelling_highs by exact H; reflexivity|]);
    rewrite app_length in Hn; cbn [length] in Hn; [lia|].
  unfold spelling. rewrite flat_map_app. cbn [flat_map]. change (flat_map spelled a) with (spelling a). change (flat_map spelled b) with (spelling b).
  rewrite (spelling_highs a Ha). destruct (spelled_low c Hc) as [F Ne]. rewrite (utf8_mid a (spelled c) (spelling b) F Ne).
  rewrite utf8_split by exact Hc. rewrite IH by lia. reflexivity.
Qed.
Lemma utf8_quoted s : utf8_text (quoted s) <-> utf8_text s.
Proof. unfold quoted. change (x22 :: s ++ [x22]) with ([x22] ++ s ++ [x22]). rewrite utf8_lows by lows. apply utf8_end. lows. Qed.
Lemma utf8_pair k v : utf8_text (quoted k ++ lit ":" ++ v) <-> utf8_text k /\ utf8_text v.
Proof. rewrite utf8_mid by first [lows|discriminate]. rewrite utf8_quoted. reflexivity. Qed.
Lemma utf8_join ts : utf8_text (join ts) <-> Forall utf8_text ts.
Proof.
  induction ts as [|t ts IH]; [split; intros _; [constructor|apply utf8_nil]|]. destruct ts as [|t' ts].
  - cbn [join]. split; [intros H; repeat constructor; exact H|intros H; inversion H; assumption].
  - change (join (t :: t' :: ts)) with (t ++ lit "," ++ join (t' :: ts)). rewrite utf8_mid by first [lows|discriminate].
    rewrite IH. split; [intros [H1 H2]; constructor; auto|intros H; inversion H; auto].
Qed.
Lemma digits_low d : Forall digit d -> Forall low d.
Proof. intros H. eapply Forall_impl; [|exact H]. intros c D. apply EncodeProofs.digit_facts in D as (_ & D & _). unfold low. lia. Qed.

(** ** What the caller passes *)
Definition string_utf8 (q : ptr) (n : N) : Prop := forall v, given q n v -> utf8_text v.
Definition claim_utf8 (c : claim) : Prop := string_utf8 (c_key c) (c_key_length c) /\ string_utf8 (c_value c) (c_value_length c).
(** The claims for the header, those with a key; the claims for the payload, registered ones included. *)
Definition header_utf8 (ep : enc_params) : Prop := Forall claim_utf8 (keyed_claims (ep_header_claims ep) (ep_header_claims_count ep)).
Definition payload_utf8 (ep : enc_params) : Prop :=
  string_utf8 (ep_sub ep) (ep_sub_length ep) /\ string_utf8 (ep_iss ep) (ep_iss_length ep)
  /\ string_utf8 (ep_aud ep) (ep_aud_length ep) /\ string_utf8 (ep_jti ep) (ep_jti_length ep)
  /\ Forall claim_utf8 (keyed_claims (ep_payload_claims ep) (ep_payload_claims_count ep)).

Lemma string_utf8_given q n v : given q n v -> string_utf8 q n <-> utf8_text v.
Proof. intros G. split; [intros H; apply H; exact G|]. intros H v' G'. rewrite (given_det _ _ _ _ G' G). exact H. Qed.
Lemma claim_text_utf8 c t : claim_text c t -> utf8_text t <-> claim_utf8 c.
Proof.
  intros (k & v & Gk & Gv & ->). unfold claim_utf8. rewrite (string_utf8_given _ _ _ Gk), (string_utf8_given _ _ _ Gv).
  rewrite utf8_pair, utf8_spelling. destruct (c_type c =? 0)%Z; [rewrite utf8_quoted, utf8_spelling|]; reflexivity.
Qed.
Lemma claims_utf8 cs ts : Forall2 claim_text cs ts -> utf8_text (join ts) <-> Forall claim_utf8 cs.
Proof.
  rewrite utf8_join. induction 1 as [|c t cs ts H _ IH]; [split; constructor|]. rewrite !Forall_cons_iff, IH, (claim_text_utf8 _ _ H). reflexivity.
Qed.
Lemma members_utf8 p cs t : members p cs (Made t) -> utf8_text t <-> Forall claim_utf8 cs.
Proof. intros H. inversion H; subst. apply claims_utf8. assumption. Qed.
Lemma keyed_none c : keyed_claims c 0 = [].
Proof. destruct c; reflexivity. Qed.
Lemma header_text_utf8 p ep al j ht : supported al j -> header p ep j (Made ht) -> utf8_text ht <-> header_utf8 ep.
Proof.
  intros Hj H. assert (A : Forall low (join (map plain_member (fixed_members j)))) by (destruct Hj as [Hj _]; cbn in Hj; repeat destruct Hj as [<-|Hj]; [lows ..|contradiction]).
  unfold header in H. unfold header_utf8. cbv zeta in H. remember (join (map plain_member (fixed_members j))) as fx eqn:Ef. clear Ef. destruct (N.eqb_spec (ep_header_claims_count ep) 0) as [Z|Z].
  - injection H as <-. rewrite Z, keyed_none. split; [intros _; constructor|]. intros _. apply utf8_ascii.
    constructor; [lows|]. apply Forall_app; split; [exact A|lows].
  - inversion H as [? _ C|t ? M E]; subst; [destruct (C ht eq_refl)|]. injection E as <-.
    rewrite <- (members_utf8 _ _ _ M). rewrite utf8_cons by lows. rewrite utf8_lows by exact A. rewrite utf8_cons by lows. apply utf8_end. lows.
Qed.
Lemma timed_utf8 name z ts : Forall low name -> timed name z ts -> Forall utf8_text ts.
Proof.
  intros F [_|d _ (_ & D & _)]; [constructor|]. constructor; [|constructor]. apply utf8_pair. split; [apply utf8_ascii; exact F|apply utf8_ascii, digits_low, D].
Qed.
Lemma stringed_utf8 name q n ts : Forall low name -> stringed name q n ts -> Forall utf8_text ts <-> string_utf8 q n.
Proof.
  intros F [->|v G].
  - split; [intros _ v []|constructor].
  - rewrite (string_utf8_given _ _ _ G), Forall_cons_iff, utf8_pair, utf8_quoted, utf8_spelling. split; [tauto|]. intros H.
    repeat split; [apply utf8_ascii; exact F|exact H|constructor].
Qed.
Lemma registered_utf8 p ep r : registered p ep (Made r) ->
  utf8_text r <-> string_utf8 (ep_sub ep) (ep_sub_length ep) /\ string_utf8 (ep_iss ep) (ep_iss_length ep)
    /\ string_utf8 (ep_aud ep) (ep_aud_length ep) /\ string_utf8 (ep_jti ep) (ep_jti_length ep).
Proof.
  intros H. inversion H as [iat nbf exp sub iss aud jti _ T1 T2 T3 S1 S2 S3 S4 E|]; subst. rewrite utf8_join, !Forall_app.
  rewrite (stringed_utf8 _ _ _ _ (lows_dec (lit "sub") eq_refl) S1), (stringed_utf8 _ _ _ _ (lows_dec (lit "iss") eq_refl) S2), (stringed_utf8 _ _ _ _ (lows_dec (lit "aud") eq_refl) S3),
    (stringed_utf8 _ _ _ _ (lows_dec (lit "jti") eq_refl) S4).
  pose proof (timed_utf8 _ _ _ (lows_dec (lit "iat") eq_refl) T1). pose proof (timed_utf8 _ _ _ (lows_dec (lit "nbf") eq_refl) T2). pose proof (timed_utf8 _ _ _ (lows_dec (lit "exp") eq_refl) T3). tauto.
Qed.
(** The text of the members starts with a quote. *)
Lemma members_start p cs t : members p cs (Made t) -> t = [] \/ exists t', t = x22 :: t'.
Proof.
  intros H. inversion H as [ts _ F|]; subst. destruct F as [|c u cs ts (k & v & _ & _ & ->) _]; [left; reflexivity|right].
  rewrite join_cons. unfold quoted. cbn [app]. eexists. reflexivity.
Qed.
Lemma payload_text_utf8 p ep pt : payload p ep (Made pt) -> utf8_text pt <-> payload_utf8 ep.
Proof.
  intros H. inversion H as [? _ C|r ? R E]; subst; [destruct (C pt eq_refl)|]. unfold payload_utf8.
  destruct (N.eqb_spec (ep_payload_claims_count ep) 0) as [Z|Z].
  - injection E as <-. rewrite Z, keyed_none. rewrite utf8_cons by lows. rewrite utf8_end by lows. rewrite (registered_utf8 _ _ _ R).
    split; [intros (A & B & C & D); repeat split; auto|tauto].
  - inversion E as [? _ C|t ? M (sep & Hs & Ep)]; subst; [destruct (C pt eq_refl)|]. injection Ep as ->.
    rewrite utf8_cons by lows. rewrite !app_assoc, utf8_end by lows.
    assert (X : utf8_text ((r ++ sep) ++ t) <-> utf8_text r /\ utf8_text t).
    { rewrite <- app_assoc. destruct Hs as [_|_]; [apply utf8_mid; [lows|discriminate]|]. cbn [app].
      destruct (members_start _ _ _ M) as [->|(t' & ->)].
      - rewrite app_nil_r. split; [intros H1; split; [exact H1|apply utf8_nil]|tauto].
      - rewrite utf8_split by lows. rewrite (utf8_split [] x22 t') by lows. pose proof utf8_nil. tauto. }
    rewrite X, (registered_utf8 _ _ _ R), (members_utf8 _ _ _ M). tauto.
Qed.

(** ** Issuing *)
(** Header and payload of an issued token are UTF-8 exactly if the names and values the caller passed for them are:
    nothing but those can break it, and each of those does. *)
Theorem C94_issued_utf8 :
  forall p e ep w t id w',
    (15 <= p_size_bits p)%N -> wf w -> allocs w -> grows w -> enc_given ep ->
    l8w8jwt_encode p e (Some ep) w = Ret (EncRes 0 (Some (Ptr (Some id) (t ++ [x00]))) (Some (N.of_nat (length t)))) w' ->
    exists ht pt sig,
      t = rfc4648_unpadded true ht ++ lit "." ++ rfc4648_unpadded true pt ++ lit "." ++ rfc4648_unpadded true sig
      /\ (utf8_text ht <-> header_utf8 ep) /\ (utf8_text pt <-> payload_utf8 ep).
Proof.
  intros p e ep w t id w' Hp Hw A G Hr H.
  assert (E : encoding p e ep (Made t)) by (apply (C76_issues_iff p e ep w t Hp Hw A G Hr); eauto).
  inversion E as [| | |j k o _ _ Hj _ R]; subst.
  inversion R as [? _ C|msg ? T R1]; subst; [destruct (C t eq_refl)|].
  inversion R1 as [? _ C|m2 ? _ R2]; subst; [destruct (C t eq_refl)|].
  inversion R2 as [? _ C|sig ? _ R3]; subst; [destruct (C t eq_refl)|]. injection R3 as <-.
  inversion T as [? _ C|ht ? T1 T2]; subst; [destruct (C msg eq_refl)|].
  inversion T2 as [? _ C|h ? T3 T4]; subst; [destruct (C msg eq_refl)|].
  inversion T4 as [? _ C|pt ? T5 T6]; subst; [destruct (C msg eq_refl)|].
  inversion T6 as [? _ C|pl ? T7 T8]; subst; [destruct (C msg eq_refl)|]. injection T8 as <-.
  inversion T3; subst. inversion T7; subst. exists ht, pt, sig. split; [rewrite <- !app_assoc; reflexivity|].
  split; [eapply header_text_utf8; eauto|eapply payload_text_utf8; eauto].
Qed.
Print Assumptions C94_issued_utf8.

(** ** Reading *)
Lemma ws_low ws : json_ws ws -> Forall low ws.
Proof. intros H. eapply Forall_impl; [|exact H]. intros c Hc. cbn in Hc. decompose [or] Hc; subst; try contradiction; lows. Qed.
Definition member_utf8 (m : member) : Prop := utf8_text (m_key m) /\ utf8_text (m_value m).
Lemma json_members_utf8 ms t : json_members ms t -> utf8_text t -> Forall member_utf8 ms.
Proof.
  assert (S : forall w1 kb w2 w3 r, json_ws w1 -> json_ws w2 -> json_ws w3 ->
    utf8_text (w1 ++ quoted kb ++ w2 ++ lit ":" ++ w3 ++ r) -> utf8_text kb /\ utf8_text r).
  { intros w1 kb w2 w3 r W1 W2 W3 H. rewrite utf8_lows in H by (apply ws_low; exact W1).
    replace (quoted kb ++ w2 ++ lit ":" ++ w3 ++ r) with (quoted kb ++ (w2 ++ lit ":" ++ w3) ++ r) in H by (rewrite <- !app_assoc; reflexivity).
    apply utf8_mid in H; [|apply Forall_app; split; [apply ws_low; exact W2|apply Forall_app; split; [lows|apply ws_low; exact W3]]|destruct w2; discriminate].
    rewrite utf8_quoted in H. exact H. }
  induction 1 as [w1 kb kd w2 w3 k t w4 W1 B W2 W3 V W4|w1 kb kd w2 w3 k t w4 ms r W1 B W2 W3 V W4 M IH]; intros U;
    apply S in U; try assumption; destruct U as [Uk U].
  - constructor; [|constructor]. split; [exact Uk|]. apply (utf8_end t w4); [apply ws_low; exact W4|exact U].
  - replace (t ++ w4 ++ lit "," ++ r) with (t ++ (w4 ++ lit ",") ++ r) in U by (rewrite <- !app_assoc; reflexivity).
    apply utf8_mid in U; [|apply Forall_app; split; [apply ws_low; exact W4|lows]|destruct w4; discriminate].
    destruct U as [Ut Ur]. constructor; [split; assumption|apply IH; exact Ur].
Qed.
Lemma object_utf8 js ms : object_text js ms -> utf8_text js -> Forall member_utf8 ms.
Proof.
  intros (w1 & t & w2 & W1 & O & W2 & ->) U. rewrite utf8_lows in U by (apply ws_low; exact W1). rewrite utf8_end in U by (apply ws_low; exact W2).
  destruct O as [ws _|ms t M]; [constructor|]. rewrite utf8_lows in U by lows. rewrite utf8_end in U by lows. eapply json_members_utf8; eauto.
Qed.
(** Resolving escapes replaces ASCII by ASCII. *)
Lemma kept_utf8 t d : kept_body t d -> forall a, Forall high a -> utf8_text (a ++ t) <-> utf8_text (a ++ d).
Proof.
  induction 1 as [|c t d H1 H2 H3 _ IH|e c t d H _ IH|t d _ IH]; intros a Ha; [reflexivity| | |].
  - destruct (N.ltb_spec (b2n c) 128) as [L|L].
    + rewrite !utf8_split by exact L. rewrite (IH [] ltac:(constructor)). reflexivity.
    + replace (a ++ c :: t) with ((a ++ [c]) ++ t) by (rewrite <- app_assoc; reflexivity).
      replace (a ++ c :: d) with ((a ++ [c]) ++ d) by (rewrite <- app_assoc; reflexivity). apply IH.
      apply Forall_app. split; [exact Ha|]. constructor; [exact L|constructor].
  - assert (L : low e /\ low c) by (cbn in H; decompose [or] H; try contradiction; match goal with X : (_, _) = (_, _) |- _ => inversion X end; split; lows).
    destruct L as [Le Lc]. rewrite utf8_split by lows. rewrite (utf8_split a c d Lc), utf8_cons by exact Le. rewrite (IH [] ltac:(constructor)). reflexivity.
  - rewrite !(utf8_split a x5c) by lows. rewrite !utf8_cons by lows. rewrite (IH [] ltac:(constructor)). reflexivity.
Qed.
(** If the header and the payload of an accepted token are UTF-8, so is every name and every value handed out. *)
Theorem C94_read_utf8 :
  forall p e dp w r w', wf w -> appended w w' -> uses_jsmn e -> (32 <= p_size_bits p)%N -> checknum_right e ->
  l8w8jwt_decode p e (Some dp) true true true w = Ret r w' -> dr_rc r = L8W8JWT_SUCCESS ->
  exists h pl hj pj ht pt, token_parts p dp h pl /\ url_decodes h hj ht /\ url_decodes pl pj pt
  /\ forall hms pms, object_text hj hms -> object_text pj pms -> utf8_text hj -> utf8_text pj ->
     exists b cs, dr_claims r = Some (CArr b cs, N.of_nat (length cs))
       /\ length cs = length (hms ++ pms)
       /\ Forall (fun c => exists k v, decoded c k v /\ utf8_text k /\ utf8_text v) cs.
Proof.
  intros p e dp w r w' Hwf Hg Hj Hp Hc H Hrc.
  destruct (C31_members_partial p e dp w r w' Hwf Hg Hj Hp Hc H Hrc) as (h & pl & hj & pj & ht & pt & T & D1 & D2 & R).
  exists h, pl, hj, pj, ht, pt. split; [exact T|]. split; [exact D1|]. split; [exact D2|]. intros hms pms O1 O2 U1 U2.
  destruct (R hms pms O1 O2) as (b & cs & E & F & _). exists b, cs. split; [exact E|].
  split; [clear - F; revert F; generalize (hms ++ pms); intros ms F; induction F; cbn [length]; congruence|].
  assert (M : Forall member_utf8 (hms ++ pms)) by (apply Forall_app; split; [apply (object_utf8 _ _ O1 U1)|apply (object_utf8 _ _ O2 U2)]).
  clear - F M. revert F M. generalize (hms ++ pms). intros ms F M. induction F as [|c m cs ms' (k & v & D & Bk & Bv & _) _ IH]; [constructor|]. inversion M as [|? ? [Uk Uv] Ms]; subst.
  constructor; [|apply IH; exact Ms]. exists k, v. split; [exact D|]. split; [apply (kept_utf8 _ _ Bk [] ltac:(constructor)); exact Uk|].
  destruct (m_kind m); try (subst v; exact Uv). destruct Bv as (t & Et & Bt). rewrite Et, utf8_quoted in Uv.
  apply (kept_utf8 _ _ Bt [] ltac:(constructor)). exact Uv.
Qed.
Print Assumptions C94_read_utf8.

(** ** Neither side checks *)
Lemma not_utf8 a c : low c -> ~ utf8_text ([xff] ++ c :: a).
Proof.
  intros L H. apply utf8_split in H as [H _]; [|exact L]. clear - H. destruct H as (us & U & E). destruct U as [|u us Hu _]; [discriminate E|].
  cbn [flat_map] in E. destruct (N.ltb_spec u 128) as [Lu|Gu].
  - destruct (utf8_low u Lu) as [Eu Lo]. rewrite Eu in E. cbn [app] in E. injection E as E _. rewrite <- E in Lo. unfold low in Lo. vm_compute in Lo. discriminate Lo.
  - assert (Hr : (128 <= u < 1114112)%N) by (unfold code_point in Hu; lia). unfold utf8 in E. destruct (N.ltb_spec u 128); [lia|].
    destruct (N.ltb_spec u 2048); [|destruct (N.ltb_spec u 65536)]; cbn [app] in E; discriminate E.
Qed.
Definition ep_broken : enc_params :=
  EncParams 0 Null 0 Null 0 Null 0 Null 0 0 0 0 CNull 0
    (CArr None [Claim (zstr "n") 1 (Ptr None [x22; xff; x22; x00]) 3 6]) 1 (zstr "secret") 6 Null 0 true true.
Definition broken_payload : string := String.append "{""sub"":""alice"",""exp"":2000,""n"":"""%string (String.String (Ascii.ascii_of_N 255) """}"%string).
Definition broken_members : list member := alice_members ++ [Member (lit "n") KString (quoted [xff])].
Lemma broken_object : object_text (lit broken_payload) broken_members.
Proof.
  exists [], (lit broken_payload), []. split; [constructor|]. split; [|split; [constructor|reflexivity]].
  change (lit broken_payload) with (lit "{" ++ ([] ++ quoted (lit "sub") ++ [] ++ lit ":" ++ [] ++ quoted (lit "alice") ++ []
    ++ lit "," ++ ([] ++ quoted (lit "exp") ++ [] ++ lit ":" ++ [] ++ lit "2000" ++ []
    ++ lit "," ++ ([] ++ quoted (lit "n") ++ [] ++ lit ":" ++ [] ++ quoted [xff] ++ []))) ++ lit "}").
  apply JO_members. a_member. a_member. one_member.
Qed.
(** RFC 8259, 8.1 and RFC 7519, 7.2: the JSON texts are UTF-8. A token is issued whose payload is not; a properly
    signed token whose payload is not is VALID, and the broken value is handed out. *)
Theorem C94_unchecked_refuted :
  (exists p e ep w t ht pt sig id w',
     wf w /\ allocs w /\ grows w /\ enc_given ep
     /\ l8w8jwt_encode p e (Some ep) w = Ret (EncRes 0 (Some (Ptr (Some id) (t ++ [x00]))) (Some (N.of_nat (length t)))) w'
     /\ t = rfc4648_unpadded true ht ++ lit "." ++ rfc4648_unpadded true pt ++ lit "." ++ rfc4648_unpadded true sig
     /\ ~ utf8_text pt)
  /\ (exists dp h pl sig rest pj pms tail r w' kvs,
     dp_jwt dp = Ptr None (h ++ lit "." ++ pl ++ lit "." ++ rfc4648_unpadded true sig ++ x00 :: rest)
     /\ verified_by toy_num hs256 (lit "secret") (h ++ lit "." ++ pl) sig
     /\ url_decodes pl pj tail /\ object_text pj pms /\ ~ utf8_text pj
     /\ l8w8jwt_decode pe toy_num (Some dp) true true true we = Ret r w' /\ dr_rc r = L8W8JWT_SUCCESS /\ dr_valid r = Some L8W8JWT_VALID
     /\ handed_out r kvs /\ Exists (fun kv => ~ utf8_text (snd kv)) kvs).
Proof.
  split.
  - set (ht := lit "{""alg"":""HS256"",""typ"":""JWT""}"). set (pt := lit "{""n"":""" ++ [xff] ++ x22 :: lit "}"). set (sig := lit "secreteyJhbGciOiJIUzI1NiIsInR5cC").
    exists pe, toy, ep_broken, we, (rfc4648_unpadded true ht ++ lit "." ++ rfc4648_unpadded true pt ++ lit "." ++ rfc4648_unpadded true sig), ht, pt, sig.
    do 2 eexists. split; [apply we_wf|]. split; [intros k; reflexivity|]. split; [intros k; reflexivity|].
    split.
    { split; [exact I|]. split; [|split; [left; reflexivity|split; [left; reflexivity|split; [left; reflexivity|split; [left; reflexivity|]]]]].
      - split; [discriminate|]. constructor; [|constructor]. right. exists (lit "n"), [x22; xff; x22].
        split; [apply given_zstr; reflexivity|split; [discriminate|reflexivity]].
      - right. exists (lit "secret"). apply key_zstr. reflexivity. }
    split; [vm_compute; reflexivity|].
    split; [reflexivity|]. intros H. apply utf8_lows in H; [|lows]. apply (not_utf8 (lit "}") x22) in H; [exact H|lows].
  - destruct (text_decodes (lit broken_payload)) as (tail & D); [discriminate|].
    set (h := rfc4648_unpadded true (lit plain_header)). set (pl := rfc4648_unpadded true (lit broken_payload)).
    exists (verdict_params (signed plain_header broken_payload)), h, pl, (fit 32 (lit "secret" ++ h ++ lit "." ++ pl)), [], (lit broken_payload), broken_members, tail.
    do 3 eexists. split; [vm_compute; reflexivity|]. split; [eexists; split; [reflexivity|vm_compute; reflexivity]|]. split; [exact D|].
    split; [apply broken_object|]. split; [|split; [vm_compute; reflexivity|split; [reflexivity|split; [reflexivity|split]]]].
    + intros H. change (lit broken_payload) with (lit "{""sub"":""alice"",""exp"":2000,""n"":""" ++ [xff] ++ x22 :: lit "}") in H.
      apply utf8_lows in H; [|lows]. apply (not_utf8 (lit "}") x22) in H; [exact H|lows].
    + instantiate (1 := [(lit "alg", lit "HS256"); (lit "typ", lit "JWT"); (lit "sub", lit "alice"); (lit "exp", lit "2000"); (lit "n", [xff])]).
      told_pairs.
    + do 4 apply Exists_cons_tl. apply Exists_cons_hd. cbn [snd]. intros H. apply (not_utf8 [] x22); [lows|].
      apply (utf8_end [xff] [x22]); [lows|exact H].
Qed.
Print Assumptions C94_unchecked_refuted.

(** ** Cases *)
(** Where char is unsigned, an issuer of two bytes that are one character, and one that is not UTF-8: both issued.
    Reading a payload with such a character in a name and in a value. *)
Definition p_unsigned : platform := Platform 64 false false true true.
Definition cafe_payload : string := String.append "{""caf"%string (String.String (Ascii.ascii_of_N 195) (String.String (Ascii.ascii_of_N 169)
  (String.append """:""a\n"%string (String.String (Ascii.ascii_of_N 195) (String.String (Ascii.ascii_of_N 188) """}"%string))))).
Lemma issuer_given q n s : given q n s -> enc_given (ep_with q n (zstr "secret") 6 0).
Proof. intros G. apply (ep_with_given q n _ _ _ (lit "secret")); [right; eauto|apply key_zstr; reflexivity]. Qed.
Lemma utf8_of us s : Forall code_point us -> s = flat_map utf8 us -> utf8_text s.
Proof. intros H E. exists us. auto. Qed.
Ltac points := repeat (constructor; [unfold code_point, high_surrogate, low_surrogate; lia|]); constructor.
Example C94_case :
  (forall s, In s [[xc3; xa9]; [xff; x21]] ->
     let ep := ep_with (Ptr None s) 2 (zstr "secret") 6 0 in
     enc_given ep /\ exists t id w', l8w8jwt_encode p_unsigned toy (Some ep) we
       = Ret (EncRes 0 (Some (Ptr (Some id) (t ++ [x00]))) (Some (N.of_nat (length t)))) w')
  /\ payload_utf8 (ep_with (Ptr None [xc3; xa9]) 2 (zstr "secret") 6 0) /\ ~ payload_utf8 (ep_with (Ptr None [xff; x21]) 2 (zstr "secret") 6 0)
  /\ utf8_text (lit cafe_payload)
  /\ object_text (lit cafe_payload) [Member (lit "caf" ++ [xc3; xa9]) KString (quoted (lit "a\n" ++ [xc3; xbc]))]
  /\ exists r w', l8w8jwt_decode pe toy_num (Some (dp_plain (signed plain_header cafe_payload) 0 (zstr "secret") 6)) true true true we = Ret r w'
     /\ dr_rc r = L8W8JWT_SUCCESS
     /\ handed_out r [(lit "alg", lit "HS256"); (lit "typ", lit "JWT"); (lit "caf" ++ [xc3; xa9], [x61; x0a; xc3; xbc])].
Proof.
  split; [|split; [|split; [|split; [|split]]]].
  - intros s Hs ep. assert (Gs : given (Ptr None s) 2 s) by (destruct Hs as [<-|[<-|[]]]; (split; [discriminate|reflexivity])).
    assert (Hr : enc_given ep) by (apply (issuer_given _ _ s Gs)). split; [exact Hr|].
    destruct (C76_encode_complete p_unsigned toy ep we ltac:(discriminate) we_wf ltac:(intros k; reflexivity) ltac:(intros k; reflexivity) Hr) as (o & E & _ & D).
    assert (Z : match l8w8jwt_encode p_unsigned toy (Some ep) we with Ret r _ => er_rc r = 0%Z | Undef _ => False end)
      by (unfold ep; destruct Hs as [<-|[<-|[]]]; vm_compute; reflexivity).
    destruct o as [t|rc|u]; [destruct D as (id & w' & D); eauto|destruct D as (Nz & w' & D); rewrite D in Z; cbn in Z; contradiction|rewrite D in Z; contradiction].
  - split; [intros v []|]. split; [|split; [intros v []|split; [intros v []|constructor]]]. intros v [_ ->]. apply (utf8_of [233%N]); [points|reflexivity].
  - intros (_ & H & _). apply (not_utf8 [] x21); [lows|]. apply H. split; [discriminate|reflexivity].
  - apply (utf8_of ([123; 34; 99; 97; 102; 233; 34; 58; 34; 97; 92; 110; 252; 34; 125]%N)); [points|reflexivity].
  - exists [], (lit cafe_payload), []. split; [constructor|]. split; [|split; [constructor|reflexivity]].
    change (lit cafe_payload) with (lit "{" ++ ([] ++ quoted (lit "caf" ++ [xc3; xa9]) ++ [] ++ lit ":" ++ [] ++ quoted (lit "a\n" ++ [xc3; xbc]) ++ []) ++ lit "}").
    apply JO_members. one_member.
  - do 2 eexists. split; [vm_compute; reflexivity|]. split; [reflexivity|]. told_pairs.
Qed.
