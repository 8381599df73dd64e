(** * JSON texts can be read in one way only (lemmas about SpecJson) *)
From Verif Require Import Base BaseProofs HeapProofs Util UtilProofs Claim Base64 SpecB64
  Base64EncProofs Base64EncApi Base64Api UnescapeProofs Jsmn Env Encode SpecJson SpecJwa ClaimProofs EncodeProofs
  SignProofs SpecEnc JsonProofs.
From Coq Require Import ZifyBool ZifyNat ZifyN.
Ltac Zify.zify_post_hook ::= Z.div_mod_to_equations.

Definition is_ws (c : byte) : bool := existsb (Byte.eqb c) [x20; x09; x0a; x0d].
Definition is_num (c : byte) : bool := existsb (Byte.eqb c) (lit "0123456789+-.eE").
Lemma is_ws_iff c : is_ws c = true <-> In c [x20; x09; x0a; x0d].
Proof.
  unfold is_ws. rewrite existsb_exists. split.
  - intros (x & Hx & E). apply byte_eqb_eq in E. subst. exact Hx.
  - intros H. exists c. split; [exact H|apply byte_eqb_refl].
Qed.
Lemma is_num_iff c : is_num c = true <-> In c (lit "0123456789+-.eE").
Proof.
  unfold is_num. rewrite existsb_exists. split.
  - intros (x & Hx & E). apply byte_eqb_eq in E. subst. exact Hx.
  - intros H. exists c. split; [exact H|apply byte_eqb_refl].
Qed.

(** A prefix of characters of one kind is determined by what follows. *)
Definition starts (f : byte -> bool) (r : bytes) : Prop := match r with [] => True | c :: _ => f c = false end.
Lemma munch (f : byte -> bool) w w' x y : Forall (fun c => f c = true) w -> Forall (fun c => f c = true) w' ->
  starts f x -> starts f y -> w ++ x = w' ++ y -> w = w' /\ x = y.
Proof.
  intros H. revert w'. induction H as [|c w Hc Hw IH]; intros w' H' Hx Hy E; destruct H' as [|c' w' Hc' Hw']; cbn [app] in E.
  - auto.
  - subst x. cbn in Hx. congruence.
  - subst y. cbn in Hy. congruence.
  - injection E as -> E. destruct (IH w' Hw' Hx Hy E) as [-> ->]. auto.
Qed.
Lemma ws_split w w' x y : w ++ x = w' ++ y -> json_ws w -> json_ws w' -> starts is_ws x -> starts is_ws y -> w = w' /\ x = y.
Proof.
  intros E H H' X Y. revert X Y E. apply munch; (eapply Forall_impl; [|eassumption]); intros c Hc; apply is_ws_iff; exact Hc.
Qed.

(** The first character tells the kind of a value. *)
Definition kind_of (c : byte) : option kind :=
  if Byte.eqb c x22 then Some KString else if existsb (Byte.eqb c) (lit "-0123456789") then Some KNumber
  else if Byte.eqb c x74 then Some KTrue else if Byte.eqb c x66 then Some KFalse else if Byte.eqb c x6e then Some KNull
  else if Byte.eqb c x5b then Some KArray else if Byte.eqb c x7b then Some KObject else None.
Lemma digit_kind c : digit c -> kind_of c = Some KNumber.
Proof. intros H. unfold digit in H. vm_compute in H. decompose [or] H; subst; try reflexivity; contradiction. Qed.
Lemma value_head k t : json_value k t -> exists c s, t = c :: s /\ kind_of c = Some k.
Proof.
  intros [b d H|n H| | | |ws H|e H|ws H|ms m H]; try (eexists _, _; split; reflexivity).
  destruct H as [sg i f e Hs Hi _ _]. destruct Hs as [<-|[<-|[]]]; [|eexists _, _; split; reflexivity].
  destruct Hi as [|c s Hc _ _]; eexists _, _; (split; [reflexivity|]); [reflexivity|apply digit_kind; auto].
Qed.
Lemma kind_starts k t r : json_value k t -> starts is_ws (t ++ r).
Proof.
  intros H. destruct (value_head k t H) as (c & s & -> & E). cbn. destruct (is_ws c) eqn:W; auto.
  apply is_ws_iff in W. vm_compute in W. decompose [or] W; subst; try discriminate; contradiction.
Qed.
Lemma number_chars t : json_number t -> Forall (fun c => is_num c = true) t.
Proof.
  assert (D : forall s, Forall digit s -> Forall (fun c => is_num c = true) s).
  { intros s. apply Forall_impl. intros c Hc. unfold digit in Hc. vm_compute in Hc. decompose [or] Hc; subst; try reflexivity; contradiction. }
  intros [sg i f e Hs Hi Hf He]. repeat (apply Forall_app; split).
  - destruct Hs as [<-|[<-|[]]]; repeat constructor.
  - destruct Hi as [|c s Hc _ Hs']; [repeat constructor|]. apply D. constructor; auto.
  - destruct Hf as [|s [_ Hs']]; constructor; [reflexivity|auto].
  - destruct He as [|c sg' s Hc Hsg [_ Hs']]; constructor.
    + vm_compute in Hc. decompose [or] Hc; subst; try reflexivity; contradiction.
    + apply Forall_app. split; [|auto]. destruct Hsg as [<-|[<-|[<-|[]]]]; repeat constructor.
Qed.

(** What may follow a value. *)
Definition ends (r : bytes) : Prop := starts is_num r.
Lemma ends_ws w r : json_ws w -> ends r -> ends (w ++ r).
Proof.
  intros [|c w' Hc _] Hr; [exact Hr|]. cbn. vm_compute in Hc. decompose [or] Hc; subst; try reflexivity; contradiction.
Qed.

Theorem json_unambiguous :
  (forall k t, json_value k t -> forall k' t' r r', json_value k' t' -> ends r -> ends r' -> t ++ r = t' ++ r' ->
     k = k' /\ t = t' /\ r = r')
  /\ (forall t, json_elements t -> forall t' r r', json_elements t' -> t ++ lit "]" ++ r = t' ++ lit "]" ++ r' -> t = t' /\ r = r')
  /\ (forall ms t, json_members ms t -> forall ms' t' r r', json_members ms' t' -> t ++ lit "}" ++ r = t' ++ lit "}" ++ r' ->
     ms = ms' /\ t = t' /\ r = r').
Proof.
  assert (K : forall k t k' t' r r', json_value k t -> json_value k' t' -> t ++ r = t' ++ r' -> k = k').
  { intros k t k' t' r r' H H' E. destruct (value_head _ _ H) as (c & s & -> & Ek), (value_head _ _ H') as (c' & s' & -> & Ek').
    injection E as -> _. congruence. }
  assert (EL : forall t, json_elements t -> exists w k v u, t = w ++ v ++ u /\ json_ws w /\ json_value k v).
  { intros t [w1 k v w2 A B C|w1 k v w2 r A B C D]; eexists _, _, _, _; eauto. }
  assert (ML : forall ms t, json_members ms t -> exists w u, t = w ++ x22 :: u /\ json_ws w).
  { intros ms t [w1 kb kd w2 w3 k v w4 A B C D E F|w1 kb kd w2 w3 k v w4 ms' r A B C D E F G]; (eexists w1, _; split; [reflexivity|exact A]). }
  apply json_mutind.
  - (* string *)
    intros b d Hb k' t' r r' H' R R' E. pose proof (K _ _ _ _ _ _ (JV_string b d Hb) H' E) as <-.
    inversion H' as [b' d' Hb'| | | | | | | |]; subst.
    destruct (quoted_unique _ _ _ _ _ _ Hb Hb' E) as [-> ->]. auto.
  - (* number *)
    intros t Hn k' t' r r' H' R R' E. pose proof (K _ _ _ _ _ _ (JV_number t Hn) H' E) as <-.
    inversion H' as [|t1 Hn'| | | | | | |]; subst.
    destruct (munch is_num t t' r r' (number_chars _ Hn) (number_chars _ Hn') R R' E) as [-> ->]. auto.
  - intros k' t' r r' H' R R' E. pose proof (K _ _ _ _ _ _ JV_true H' E) as <-. inversion H'; subst. apply app_inv_head in E. auto.
  - intros k' t' r r' H' R R' E. pose proof (K _ _ _ _ _ _ JV_false H' E) as <-. inversion H'; subst. apply app_inv_head in E. auto.
  - intros k' t' r r' H' R R' E. pose proof (K _ _ _ _ _ _ JV_null H' E) as <-. inversion H'; subst. apply app_inv_head in E. auto.
  - (* empty array *)
    intros ws W k' t' r r' H' R R' E. pose proof (K _ _ _ _ _ _ (JV_array0 ws W) H' E) as <-.
    inversion H' as [| | | | |ws' W'|t1 He| |]; subst; rewrite <- !app_assoc in E; apply app_inv_head in E.
    + destruct (ws_split _ _ _ _ E W W' eq_refl eq_refl) as [-> E']. apply app_inv_head in E'. subst. auto.
    + exfalso. destruct (EL _ He) as (w & k & v & u & -> & W1 & V). rewrite <- !app_assoc in E.
      destruct (ws_split _ _ _ _ E W W1 eq_refl (kind_starts k v _ V)) as [_ E'].
      destruct (value_head _ _ V) as (c & s & -> & Ek). injection E' as <- _. discriminate.
  - (* array *)
    intros t He IH k' t' r r' H' R R' E. pose proof (K _ _ _ _ _ _ (JV_array t He) H' E) as <-.
    inversion H' as [| | | | |ws' W'|t1 He'| |]; subst; rewrite <- !app_assoc in E; apply app_inv_head in E.
    + exfalso. destruct (EL _ He) as (w & k & v & u & -> & W1 & V). rewrite <- !app_assoc in E.
      destruct (ws_split _ _ _ _ E W1 W' (kind_starts k v _ V) eq_refl) as [_ E'].
      destruct (value_head _ _ V) as (c & s & -> & Ek). injection E' as -> _. discriminate.
    + destruct (IH _ _ _ He' E) as [-> ->]. auto.
  - (* empty object *)
    intros ws W k' t' r r' H' R R' E. pose proof (K _ _ _ _ _ _ (JV_object0 ws W) H' E) as <-.
    inversion H' as [| | | | | | |ws' W'|ms1 t1 Hm]; subst; rewrite <- !app_assoc in E; apply app_inv_head in E.
    + destruct (ws_split _ _ _ _ E W W' eq_refl eq_refl) as [-> E']. apply app_inv_head in E'. subst. auto.
    + exfalso. destruct (ML _ _ Hm) as (w & u & -> & W1). rewrite <- !app_assoc in E.
      destruct (ws_split _ _ _ _ E W W1 eq_refl eq_refl) as [_ E']. discriminate.
  - (* object *)
    intros ms t Hm IH k' t' r r' H' R R' E. pose proof (K _ _ _ _ _ _ (JV_object ms t Hm) H' E) as <-.
    inversion H' as [| | | | | | |ws' W'|ms1 t1 Hm']; subst; rewrite <- !app_assoc in E; apply app_inv_head in E.
    + exfalso. destruct (ML _ _ Hm) as (w & u & -> & W1). rewrite <- !app_assoc in E.
      destruct (ws_split _ _ _ _ E W1 W' eq_refl eq_refl) as [_ E']. discriminate.
    + destruct (IH _ _ _ _ Hm' E) as (_ & -> & ->). auto.
  - (* one element *)
    intros w1 k v w2 A B IH C t' r r' [w1' k' v' w2' A' B' C'|w1' k' v' w2' u A' B' C' D'] E; rewrite <- !app_assoc in E.
    + destruct (ws_split _ _ _ _ E A A' (kind_starts _ _ _ B) (kind_starts _ _ _ B')) as [-> E1].
      destruct (IH _ _ _ _ B' (ends_ws w2 (lit "]" ++ r) C eq_refl) (ends_ws w2' (lit "]" ++ r') C' eq_refl) E1) as (_ & -> & E2).
      destruct (ws_split _ _ _ _ E2 C C' eq_refl eq_refl) as [-> E3]. apply app_inv_head in E3. auto.
    + exfalso. destruct (ws_split _ _ _ _ E A A' (kind_starts _ _ _ B) (kind_starts _ _ _ B')) as [-> E1].
      destruct (IH _ _ _ _ B' (ends_ws w2 (lit "]" ++ r) C eq_refl) (ends_ws w2' (lit "," ++ u ++ lit "]" ++ r') C' eq_refl) E1) as (_ & -> & E2).
      destruct (ws_split _ _ _ _ E2 C C' eq_refl eq_refl) as [-> E3]. discriminate.
  - (* more elements *)
    intros w1 k v w2 u A B IH C D IHD t' r r' [w1' k' v' w2' A' B' C'|w1' k' v' w2' u' A' B' C' D'] E; rewrite <- !app_assoc in E.
    + exfalso. destruct (ws_split _ _ _ _ E A A' (kind_starts _ _ _ B) (kind_starts _ _ _ B')) as [-> E1].
      destruct (IH _ _ _ _ B' (ends_ws w2 (lit "," ++ u ++ lit "]" ++ r) C eq_refl) (ends_ws w2' (lit "]" ++ r') C' eq_refl) E1) as (_ & -> & E2).
      destruct (ws_split _ _ _ _ E2 C C' eq_refl eq_refl) as [-> E3]. discriminate.
    + destruct (ws_split _ _ _ _ E A A' (kind_starts _ _ _ B) (kind_starts _ _ _ B')) as [-> E1].
      destruct (IH _ _ _ _ B' (ends_ws w2 (lit "," ++ u ++ lit "]" ++ r) C eq_refl) (ends_ws w2' (lit "," ++ u' ++ lit "]" ++ r') C' eq_refl) E1) as (_ & -> & E2).
      destruct (ws_split _ _ _ _ E2 C C' eq_refl eq_refl) as [-> E3]. apply app_inv_head in E3.
      destruct (IHD _ _ _ D' E3) as [-> ->]. auto.
  - (* one member *)
    intros w1 kb kd w2 w3 k v w4 A B C D F IH G ms' t' r r'
      [w1' kb' kd' w2' w3' k' v' w4' A' B' C' D' F' G'|w1' kb' kd' w2' w3' k' v' w4' ms1 u A' B' C' D' F' G' H'] E; rewrite <- !app_assoc in E.
    + destruct (ws_split _ _ _ _ E A A' eq_refl eq_refl) as [-> E1].
      destruct (quoted_unique _ _ _ _ _ _ B B' E1) as [-> E2].
      destruct (ws_split _ _ _ _ E2 C C' eq_refl eq_refl) as [-> E3]. apply app_inv_head in E3.
      destruct (ws_split _ _ _ _ E3 D D' (kind_starts _ _ _ F) (kind_starts _ _ _ F')) as [-> E4].
      destruct (IH _ _ _ _ F' (ends_ws w4 (lit "}" ++ r) G eq_refl) (ends_ws w4' (lit "}" ++ r') G' eq_refl) E4) as (-> & -> & E5).
      destruct (ws_split _ _ _ _ E5 G G' eq_refl eq_refl) as [-> E6]. apply app_inv_head in E6. auto.
    + exfalso. destruct (ws_split _ _ _ _ E A A' eq_refl eq_refl) as [-> E1].
      destruct (quoted_unique _ _ _ _ _ _ B B' E1) as [-> E2].
      destruct (ws_split _ _ _ _ E2 C C' eq_refl eq_refl) as [-> E3]. apply app_inv_head in E3.
      destruct (ws_split _ _ _ _ E3 D D' (kind_starts _ _ _ F) (kind_starts _ _ _ F')) as [-> E4].
      destruct (IH _ _ _ _ F' (ends_ws w4 (lit "}" ++ r) G eq_refl) (ends_ws w4' (lit "," ++ u ++ lit "}" ++ r') G' eq_refl) E4) as (-> & -> & E5).
      destruct (ws_split _ _ _ _ E5 G G' eq_refl eq_refl) as [-> E6]. discriminate.
  - (* more members *)
    intros w1 kb kd w2 w3 k v w4 ms0 u A B C D F IH G H IHH ms' t' r r'
      [w1' kb' kd' w2' w3' k' v' w4' A' B' C' D' F' G'|w1' kb' kd' w2' w3' k' v' w4' ms1 u' A' B' C' D' F' G' H'] E; rewrite <- !app_assoc in E.
    + exfalso. destruct (ws_split _ _ _ _ E A A' eq_refl eq_refl) as [-> E1].
      destruct (quoted_unique _ _ _ _ _ _ B B' E1) as [-> E2].
      destruct (ws_split _ _ _ _ E2 C C' eq_refl eq_refl) as [-> E3]. apply app_inv_head in E3.
      destruct (ws_split _ _ _ _ E3 D D' (kind_starts _ _ _ F) (kind_starts _ _ _ F')) as [-> E4].
      destruct (IH _ _ _ _ F' (ends_ws w4 (lit "," ++ u ++ lit "}" ++ r) G eq_refl) (ends_ws w4' (lit "}" ++ r') G' eq_refl) E4) as (-> & -> & E5).
      destruct (ws_split _ _ _ _ E5 G G' eq_refl eq_refl) as [-> E6]. discriminate.
    + destruct (ws_split _ _ _ _ E A A' eq_refl eq_refl) as [-> E1].
      destruct (quoted_unique _ _ _ _ _ _ B B' E1) as [-> E2].
      destruct (ws_split _ _ _ _ E2 C C' eq_refl eq_refl) as [-> E3]. apply app_inv_head in E3.
      destruct (ws_split _ _ _ _ E3 D D' (kind_starts _ _ _ F) (kind_starts _ _ _ F')) as [-> E4].
      destruct (IH _ _ _ _ F' (ends_ws w4 (lit "," ++ u ++ lit "}" ++ r) G eq_refl) (ends_ws w4' (lit "," ++ u' ++ lit "}" ++ r') G' eq_refl) E4) as (-> & -> & E5).
      destruct (ws_split _ _ _ _ E5 G G' eq_refl eq_refl) as [-> E6]. apply app_inv_head in E6.
      destruct (IHH _ _ _ _ H' E6) as (-> & -> & ->). auto.
Qed.

(** An object text has one list of members. *)
Lemma members_not_ws ms u ws r r' : json_members ms u -> json_ws ws -> ws ++ lit "}" ++ r = u ++ lit "}" ++ r' -> False.
Proof.
  intros H W E. destruct H as [w1 kb kd w2 w3 k v w4 A|w1 kb kd w2 w3 k v w4 ms0 u A]; rewrite <- !app_assoc in E;
    (destruct (ws_split _ _ _ _ E W A eq_refl eq_refl) as [_ E']; discriminate).
Qed.
Theorem json_object_fun ms ms' t : json_object ms t -> json_object ms' t -> ms = ms'.
Proof.
  destruct json_unambiguous as (_ & _ & UM).
  assert (G : forall t', t = t' -> json_object ms t -> json_object ms' t' -> ms = ms').
  { intros t' E H H'. revert E. destruct H as [ws W|ms0 t0 Hm], H' as [ws' W'|ms0' t0' Hm']; intros E; auto; apply app_inv_head in E.
    - exfalso. eapply (members_not_ws _ _ ws [] [] Hm' W). rewrite !app_nil_r. exact E.
    - exfalso. eapply (members_not_ws _ _ ws' [] [] Hm W'). rewrite !app_nil_r. symmetry. exact E.
    - specialize (UM _ _ Hm _ _ [] [] Hm'). rewrite !app_nil_r in UM. destruct (UM E) as (-> & _). reflexivity. }
  apply G. reflexivity.
Qed.
