(** * Decoding when memory is short: what can happen, and that nothing else does *)
From Verif Require Import Base BaseProofs HeapProofs Util UtilProofs Claim Base64 SpecB64
  Base64EncProofs Base64EncApi Base64DecProofs Base64Api Jsmn Env Encode Decode SpecJson SpecJwa ClaimProofs UnescapeProofs
  EncodeProofs SignProofs EncodeTotal SpecEnc JsonProofs PropEncode DecodeProofs DecodeInv JsmnProofs ParseProofs
  PropClaim ReadProofs ValidateProofs JsmnJson JsmnSize PropVerify PropValidate PropLeak PropJson DecodeTotal DecodeOk
  OverRead PropSafe PropRoundTrip PropOverRead CodeProofs Walk Exact PropExact Complete PropComplete LocalProofs.
From Coq Require Import ZifyBool ZifyNat ZifyN.
Ltac Zify.zify_post_hook ::= Z.div_mod_to_equations.
Local Opaque L8W8JWT_MAX_KEY_SIZE.

(** ** What can happen for want of memory, and only then *)
(** While the claims are read: a claim cannot be copied; or the list of claims cannot grow, and then
    claims are lost, without notice. *)
Inductive reading_short (p : platform) (e : env) (dp : dec_params) (verified : bool) (hj ht pj pt : bytes) : outcome -> Prop :=
| Rs_copy : reading_short p e dp verified hj ht pj pt (Code 600)
| Rs_typ eh ep es : has_fate e hj ht (Read eh) -> has_fate e pj pt (Read ep) -> subseq es (eh ++ ep) -> typ_trips p dp es ->
    reading_short p e dp verified hj ht pj pt (Harm BadCtype)
| Rs_result eh ep es v : has_fate e hj ht (Read eh) -> has_fate e pj pt (Read ep) -> subseq es (eh ++ ep) -> ~ typ_trips p dp es ->
    flags_are e dp verified (map kv_of es) v -> reading_short p e dp verified hj ht pj pt (Result v es).
(** A part of the token (it has a dot) cannot be decoded; with the key on the heap, the buffer for it cannot be
    allocated, and is cleared all the same. *)
Inductive running_short (p : platform) (e : env) (dp : dec_params) (j : bytes) : outcome -> Prop :=
| Us_segment : ~ no_dot j -> running_short p e dp j (Code 300)
| Us_key msg hj ht pj pt sg st : cut dp j (Parts msg hj ht pj pt (Some (sg, st))) -> dp_alg dp <> (-1)%Z -> p_small_stack p = true ->
    running_short p e dp j (Harm NullDeref)
| Us_goes msg hj ht pj pt sg verified o : cut dp j (Parts msg hj ht pj pt sg) -> check p e dp msg sg (Goes verified) ->
    reading_short p e dp verified hj ht pj pt o -> running_short p e dp j o.
(** The list of claims cannot be set up. *)
Inductive decoding_short (p : platform) (e : env) (dp : dec_params) (j : bytes) : outcome -> Prop :=
| Ds_start : j <> [] -> ~ (dp_alg dp = 13%Z /\ p_eddsa p = false) -> p_cb_init_clears p = true -> decoding_short p e dp j (Code 300)
| Ds_start_bad : j <> [] -> ~ (dp_alg dp = 13%Z /\ p_eddsa p = false) -> p_cb_init_clears p = false -> decoding_short p e dp j (Harm UninitUse)
| Ds_run o : j <> [] -> ~ (dp_alg dp = 13%Z /\ p_eddsa p = false) -> running_short p e dp j o -> decoding_short p e dp j o.

(** ** Proofs *)
Lemma subseq_Forall {A} (P : A -> Prop) a b : subseq a b -> Forall P b -> Forall P a.
Proof. induction 1; intros H'; [exact H'|inversion H'; constructor; auto|inversion H'; auto]. Qed.

Lemma strain_reading p e dp b1 hj ht b2 pj pt sg3 id verified w :
  wf w -> uses_jsmn e -> (32 <= p_size_bits p)%N ->
  (Z.of_nat (length hj) <= INT_MAX)%Z -> (Z.of_nat (length pj) <= INT_MAX)%Z -> (13 <= length ht)%nat -> (13 <= length pt)%nat ->
  requests_readable e dp ->
  let sgs := Segs (Seg (Ptr b1 (hj ++ ht)) (N.of_nat (length hj))) (Seg (Ptr b2 (pj ++ pt)) (N.of_nat (length pj))) sg3 in
  exists o, (reading p e dp verified hj ht pj pt o \/ reading_short p e dp verified hj ht pj pt o)
    /\ does (parse_rest p e dp sgs (CB id []) (if verified : bool then 0 else 128)%N w) (fun s => s = sgs) o.
Proof.
  intros Hwf Hj Hp L1 L2 T1 T2 Hr sgs. unfold parse_rest, sgs. cbn [s_ptr s_len sg_header sg_payload].
  destruct (parse_claims_fate p e (CB id []) b1 hj ht w Hj Hp L1 ltac:(lia) Hwf) as (f1 & F1 & _ & K1).
  assert (Copy : forall (st : dec_state) w', ds_rc st = 600%Z -> ds_segs st = sgs ->
     exists o, (reading p e dp verified hj ht pj pt o \/ reading_short p e dp verified hj ht pj pt o) /\ does (Ret st w') (fun s => s = sgs) o).
  { intros st w' E1 E2. exists (Code 600). split; [right; constructor|]. split; [discriminate|]. eauto. }
  destruct f1 as [eh| |].
  - destruct K1 as (rc & c1 & w1 & E1 & _ & C1). unfold mbind at 1. rewrite E1.
    destruct (Z.eqb_spec rc L8W8JWT_SUCCESS) as [->|_]; cbn [negb]; [|apply Copy; reflexivity].
    destruct (C1 eq_refl) as (n1 & s1 & Ec1 & Q1 & H1 & P1 & _).
    apply parse_claims_inv in E1 as (hb & hm & m1 & l1 & _ & _ & (_ & _ & _ & A1) & _); [|exact Hwf].
    assert (W1 : wf w1) by (eapply adds_wf; eauto).
    destruct (parse_claims_fate p e c1 b2 pj pt w1 Hj Hp L2 ltac:(lia) W1) as (f2 & F2 & _ & K2). destruct f2 as [ep| |].
    + destruct K2 as (rc & c2 & w2 & E2 & _ & C2). unfold mbind at 1. rewrite E2.
      destruct (Z.eqb_spec rc L8W8JWT_SUCCESS) as [->|_]; cbn [negb]; [|apply Copy; reflexivity].
      destruct (C2 eq_refl) as (n2 & s2 & Ec2 & Q2 & H2 & P2 & _).
      rewrite Ec1 in Ec2. cbn [cb_elems app] in Ec2. unfold cb_len. rewrite Ec2.
      assert (Hs : subseq (s1 ++ s2) (eh ++ ep)) by (apply subseq_app; assumption).
      assert (Hh : Forall2 holds (n1 ++ n2) (s1 ++ s2)) by (apply Forall2_app; assumption).
      assert (Hpl : Forall entry_plain (s1 ++ s2)) by (eapply subseq_Forall; [exact Hs|apply Forall_app; auto]).
      destruct (validate_claims_exact p e dp (Some (cb_id c2)) (n1 ++ n2) (s1 ++ s2) (if verified then 0 else 128)%N Hh Hpl Hr) as [[T E]|[T (v & E)]];
        unfold mbind at 1; rewrite E; cbn [lift].
      * exists (Harm BadCtype). split; [right; eapply Rs_typ; eauto|reflexivity].
      * pose proof (validate_verdict p e dp _ _ _ verified v Hh Hpl Hr E) as V.
        exists (Result v (s1 ++ s2)). split; [right; eapply Rs_result; eauto|].
        do 2 eexists. split; [reflexivity|]. cbn [ds_rc ds_segs ds_res ds_claims]. rewrite Ec2. auto 6.
    + destruct K2 as (rc & c2 & w2 & E2 & S2 & _). unfold mbind at 1. rewrite E2. apply Z.eqb_neq in S2. rewrite S2. cbn [negb].
      apply Copy; reflexivity.
    + destruct K2 as [_ K2]. unfold mbind at 1. destruct (l8w8jwt_parse_claims _ _ _ _ _ w1) as [[rc c2] w2|u]; cbn [or_code fst] in K2.
      * apply Z.eqb_neq in K2. rewrite K2. apply Copy; reflexivity.
      * subst u. exists (Harm OOBRead). split; [left; eapply Rd_payload_over; eauto|reflexivity].
  - destruct K1 as (rc & c1 & w1 & E1 & S1 & _). unfold mbind at 1. rewrite E1. apply Z.eqb_neq in S1. rewrite S1. cbn [negb].
    apply Copy; reflexivity.
  - destruct K1 as [_ K1]. unfold mbind at 1. destruct (l8w8jwt_parse_claims _ _ _ _ _ w) as [[rc c2] w2|u]; cbn [or_code fst] in K1.
    * apply Z.eqb_neq in K1. rewrite K1. apply Copy; reflexivity.
    * subst u. exists (Harm OOBRead). split; [left; eapply Rd_header_over; eauto|reflexivity].
Qed.

Lemma strain_segments p dp j w : wf w -> c_text p dp j ->
  (~ no_dot j /\ exists sg w', l8w8jwt_decode_segments p dp w = Ret (300%Z, sg) w')
  \/ exists c, cut dp j c /\ match c with
    | Wrong rc => rc <> 0%Z /\ exists sg w', l8w8jwt_decode_segments p dp w = Ret (rc, sg) w'
    | Parts msg hj ht pj pt sg =>
        (exists h pl r, j = h ++ lit "." ++ pl ++ r /\ msg = h ++ lit "." ++ pl /\ b64_decodes h hj ht /\ b64_decodes pl pj pt
           /\ match sg with
              | None => dp_alg dp = (-1)%Z
              | Some (sig, st) => exists b rest s, dp_jwt dp = Ptr b (j ++ x00 :: rest) /\ b64_decodes s sig st
                                    /\ three_parts (j ++ x00 :: rest) h pl (s ++ x00 :: rest)
              end)
        /\ exists i1 i2 sgs w', l8w8jwt_decode_segments p dp w
            = Ret (L8W8JWT_SUCCESS, Segs (Seg (Ptr (Some i1) (hj ++ ht)) (N.of_nat (length hj)))
                                         (Seg (Ptr (Some i2) (pj ++ pt)) (N.of_nat (length pj))) sgs) w'
            /\ wf w'
            /\ match sg with
               | None => sgs = seg0
               | Some (sig, st) => exists i3, sgs = Seg (Ptr (Some i3) (sig ++ st)) (N.of_nat (length sig))
               end
    end.
Proof.
  intros Hwf Ht. destruct (decode_segments_total p dp j w Hwf Ht) as (rc & sg & w1 & H).
  pose proof H as H'. apply (segments_code p dp j) in H'; auto.
  assert (Wf1 : wf w1). { apply decode_segments_inv in H as (A1 & _); [|exact Hwf]. eapply adds_wf; eauto. }
  assert (S : served w w1 \/ (rc = 300%Z /\ starved w w1)) by tauto. destruct S as [S|[-> S]].
  - right. destruct S as [_ S].
    assert (Hm : l8w8jwt_decode_segments p dp (with_luck ever (w_grow w) w) = Ret (rc, sg) (with_luck ever (w_grow w) w1)).
    { apply (local_segments p dp w _ _ H); [|reflexivity]. intros k Hk. destruct (w_alloc w k) eqn:Ek; [reflexivity|].
      destruct S. exists k. auto. }
    destruct (cut_segments p dp j (with_luck ever (w_grow w) w) Hwf ltac:(intros k; reflexivity) Ht) as (c & Hc & Kc).
    exists c. split; [exact Hc|]. destruct c as [rc'|msg hj ht pj pt sg'].
    + destruct Kc as (R0 & sg1 & w2 & E). split; [exact R0|]. rewrite Hm in E. injection E as -> _ _. eauto.
    + destruct Kc as (K & i1 & i2 & sgs & w2 & E & _ & _ & _ & K2). split; [exact K|]. rewrite Hm in E. injection E as -> -> _. eauto 8.
  - left. split; [|eauto]. intros Hd. destruct Ht as ((b & rest & Ej) & Hz & _). unfold l8w8jwt_decode_segments in H.
    rewrite Ej in H. unfold mbind at 1 in H. cbn [deref lift] in H. unfold mbind at 1 in H. rewrite strchr_none in H by (auto; discriminate).
    discriminate H.
Qed.

Lemma strain_verify p e dp rs b mem n w : wf w -> dp_alg dp <> (-1)%Z -> n <> 0%N ->
  (p_small_stack p = true /\ l8w8jwt_verify_signature p e dp rs (Ptr b mem) n w = Undef NullDeref)
  \/ match verify_body p e dp mem n with
     | OK v => exists w', l8w8jwt_verify_signature p e dp rs (Ptr b mem) n w = Ret (verdict_result rs v) w' /\ wf w'
     | KO u => l8w8jwt_verify_signature p e dp rs (Ptr b mem) n w = Undef u
     end.
Proof.
  intros Hwf Hm Hn.
  assert (Q : forall x w', l8w8jwt_verify_signature p e dp rs (Ptr b mem) n w = Ret x w' -> wf w').
  { intros [rc r'] w' H. apply verify_signature_inv in H as [Q _]; [|exact Hwf]. eapply wf_quiet; eauto. }
  assert (D : (p_small_stack p = true /\ w_alloc w (w_next w) = false) \/ (p_small_stack p = true -> w_alloc w (w_next w) = true))
    by (destruct (p_small_stack p), (w_alloc w (w_next w)); auto; right; discriminate).
  destruct D as [[Es Ea]|Ea]; [left; split; [exact Es|]|right].
  - unfold l8w8jwt_verify_signature. cbn [is_null]. replace (dp_alg dp =? -1)%Z with false by lia. replace (n =? 0)%N with false by lia.
    cbn [orb]. cbv zeta. rewrite Es. unfold mbind at 1. rewrite calloc_eq, Ea. reflexivity.
  - assert (K : match verify_body p e dp mem n with
      | OK v => exists w', l8w8jwt_verify_signature p e dp rs (Ptr b mem) n w = Ret (verdict_result rs v) w'
      | KO u => l8w8jwt_verify_signature p e dp rs (Ptr b mem) n w = Undef u end).
    { clear Q. unfold l8w8jwt_verify_signature. cbn [is_null]. replace (dp_alg dp =? -1)%Z with false by lia. replace (n =? 0)%N with false by lia.
      cbn [orb]. cbv zeta. fold (verdict_result rs). destruct (verify_body p e dp mem n) as [v|u] eqn:Ev; destruct (p_small_stack p).
      - unfold mbind at 1. rewrite calloc_eq, Ea by reflexivity. cbn [is_null]. unfold mbind at 1. unfold mbind at 1. cbn [deref lift]. rewrite Ev. cbn [lift].
        unfold mbind at 1. unfold zeroize. rewrite repeat_length.
        replace (negb _) with false by (symmetry; apply negb_false_iff, N.leb_le; lia).
        assert (L : w_live (w_ok w) (w_next w) = true) by (cbn; apply upd_live_same). rewrite L.
        unfold mbind at 1. cbn [free]. rewrite free_id_eq by exact L. eexists. destruct v; reflexivity.
      - unfold mbind at 1. cbn [deref lift]. unfold mbind at 1. rewrite Ev. cbn [lift]. eexists. destruct v; reflexivity.
      - unfold mbind at 1. rewrite calloc_eq, Ea by reflexivity. cbn [is_null]. unfold mbind at 1. unfold mbind at 1. cbn [deref lift]. rewrite Ev. reflexivity.
      - unfold mbind at 1. cbn [deref lift]. unfold mbind at 1. rewrite Ev. reflexivity. }
    destruct (verify_body p e dp mem n) as [v|u]; [|exact K]. destruct K as (w' & K). eauto.
Qed.

Lemma strain_body p e dp j id w :
  wf w -> uses_jsmn e -> (32 <= p_size_bits p)%N -> c_text p dp j -> (Z.of_nat (length j) <= INT_MAX)%Z ->
  key_ok (dp_verification_key dp) (dp_verification_key_length dp) -> requests_readable e dp ->
  exists o, (running p e dp j o \/ running_short p e dp j o)
    /\ does (decode_body p e dp (CB id []) w) (fun s => o = Code 300 \/ the_parts dp j s) o.
Proof.
  intros Hwf Hj Hp Ht Hl Hk Hr. unfold decode_body.
  destruct (strain_segments p dp j w Hwf Ht) as [(Hd & sg & w1 & E1)|(c & Hc & Kc)].
  { exists (Code 300). split; [right; apply Us_segment, Hd|]. split; [discriminate|]. unfold mbind at 1. rewrite E1. do 2 eexists. split; [reflexivity|]. auto. }
  destruct c as [rc|msg hj ht pj pt sg].
  { destruct Kc as (R0 & sg & w1 & E1). mstep E1. exists (Code rc). split; [left; apply Rn_cut; exact Hc|].
    split; [exact R0|]. apply Z.eqb_neq in R0. change (rc =? 0)%Z with (rc =? L8W8JWT_SUCCESS)%Z in R0. rewrite R0. do 2 eexists. split; [reflexivity|]. split; [reflexivity|].
    right. intros msg hj ht pj pt sg' C. pose proof (cut_fun _ _ _ _ C Hc) as X. discriminate X. }
  destruct Kc as ((h & pl & r & Ej & Em & D1 & D2 & Hs) & i1 & i2 & sgs & w1 & E1 & W1 & Hsgs).
  mstep E1. change (negb (L8W8JWT_SUCCESS =? L8W8JWT_SUCCESS)%Z) with false. cbn [s_ptr s_len sg_signature sg_header sg_payload].
  destruct (parts_short _ _ _ _ Ej Hl _ _ _ _ D1 D2) as [L1 L2].
  pose proof (b64_decodes_tail _ _ _ D1) as T1. pose proof (b64_decodes_tail _ _ _ D2) as T2.
  set (all := Segs (Seg (Ptr (Some i1) (hj ++ ht)) (N.of_nat (length hj))) (Seg (Ptr (Some i2) (pj ++ pt)) (N.of_nat (length pj))) sgs) in *.
  assert (Sg : the_parts dp j all).
  { intros msg' hj' ht' pj' pt' sg' C. pose proof (cut_fun _ _ _ _ C Hc) as X. injection X as -> -> -> -> -> ->.
    split; [eexists; reflexivity|]. split; [eexists; reflexivity|]. cbn [sg_signature all].
    destruct sg as [[sig st']|]; [exact Hsgs|exact Hsgs]. }
  assert (Cv : forall c, check p e dp msg sg c -> match c with
      | Stops rc => rc <> 0%Z /\ exists w2 rs, l8w8jwt_verify_signature p e dp L8W8JWT_VALID (s_ptr sgs) (s_len sgs) w1 = Ret (rc, rs) w2
      | Breaks u => l8w8jwt_verify_signature p e dp L8W8JWT_VALID (s_ptr sgs) (s_len sgs) w1 = Undef u
      | Goes vf => exists w2, l8w8jwt_verify_signature p e dp L8W8JWT_VALID (s_ptr sgs) (s_len sgs) w1
                     = Ret (L8W8JWT_SUCCESS, (if vf : bool then 0 else 128)%N) w2 /\ wf w2
      end -> exists o, (running p e dp j o \/ running_short p e dp j o) /\
    does ((' a <- l8w8jwt_verify_signature p e dp L8W8JWT_VALID (s_ptr sgs) (s_len sgs) ;;
         let (r0, res) := a in if negb (r0 =? L8W8JWT_SUCCESS)%Z then mret (DecState r0 all (CB id []) res) else parse_rest p e dp all (CB id []) res) w1)
      (fun s => o = Code 300 \/ the_parts dp j s) o).
  { intros c Ck Kv. destruct c as [rc|u|vf].
    - destruct Kv as (R0 & w2 & rs & E2). exists (Code rc). split; [left; eapply Rn_stops; eauto|].
      split; [exact R0|]. unfold mbind at 1. rewrite E2. apply Z.eqb_neq in R0. change (rc =? 0)%Z with (rc =? L8W8JWT_SUCCESS)%Z in R0. rewrite R0. do 2 eexists. split; [reflexivity|].
      split; [reflexivity|]. right. exact Sg.
    - exists (Harm u). split; [left; eapply Rn_breaks; eauto|unfold does, mbind at 1; rewrite Kv; reflexivity].
    - destruct Kv as (w2 & E2 & W2). unfold mbind at 1. rewrite E2. change (negb (L8W8JWT_SUCCESS =? L8W8JWT_SUCCESS)%Z) with false. cbv iota.
      destruct (strain_reading p e dp (Some i1) hj ht (Some i2) pj pt sgs id vf w2 W2 Hj Hp L1 L2 T1 T2 Hr) as (o & O1 & O3).
      exists o. split; [destruct O1; [left; eapply Rn_goes; eauto|right; eapply Us_goes; eauto]|].
      fold all in O3. destruct o as [rc|v es|u]; [|destruct O3 as (st & w' & X1 & X2 & X3 & X4 & X5)|exact O3].
      + destruct O3 as (X0 & st & w' & X1 & X2 & X3). split; [exact X0|]. exists st, w'. rewrite X3. auto.
      + exists st, w'. rewrite X5. auto 6. }
  destruct (Z.eq_dec (dp_alg dp) (-1)) as [Ea|Ea].
  { apply (Cv (Goes true)); [apply Ck_none; exact Ea|]. exists w1. split; [|exact W1].
    unfold l8w8jwt_verify_signature. rewrite Ea. reflexivity. }
  destruct sg as [[sig st]|]; [|contradiction]. destruct Hs as (b & rest & s & Ejp & D3 & T3). destruct Hsgs as (i3 & ->).
  pose proof Hk as (_ & k & Hck & _). cbn [s_ptr s_len] in *.
  destruct (check_verify p e dp b _ h pl _ k sig st Ejp T3 Ea Hck Hk) as (c & Ck & Kv). rewrite <- Em in Ck.
  pose proof (b64_decodes_len _ _ _ D3) as [Ls _].
  destruct (strain_verify p e dp L8W8JWT_VALID (Some i3) (sig ++ st) (N.of_nat (length sig)) w1 W1 Ea ltac:(lia)) as [[Es HV]|HV].
  { exists (Harm NullDeref). split; [right; eapply Us_key; eauto|]. unfold does, mbind at 1. rewrite HV. reflexivity. }
  apply (Cv c Ck). destruct c as [rc|u|vf].
  - destruct Kv as [R0 E]. rewrite E in HV. destruct HV as (w2 & H2 & _). split; [exact R0|]. exists w2. eexists. exact H2.
  - rewrite Kv in HV. exact HV.
  - rewrite Kv in HV. destruct HV as (w2 & H2 & Q). exists w2. split; [|exact Q]. rewrite H2. destruct vf; reflexivity.
Qed.
