(** * Property C80: what is stored through the output pointers *)
From Verif Require Import Base BaseProofs HeapProofs Util UtilProofs Claim Base64 SpecB64
  Base64EncProofs Base64EncApi Base64DecProofs Base64Api Jsmn Env Encode Decode SpecJson SpecJwa ClaimProofs UnescapeProofs
  EncodeProofs SignProofs EncodeTotal SpecEnc JsonProofs PropEncode DecodeProofs DecodeInv JsmnProofs ParseProofs
  PropClaim ReadProofs ValidateProofs JsmnJson JsmnSize PropVerify PropValidate PropLeak PropJson.
From Coq Require Import ZifyBool ZifyNat ZifyN.
Ltac Zify.zify_post_hook ::= Z.div_mod_to_equations.
Local Opaque L8W8JWT_MAX_KEY_SIZE.

(** ** l8w8jwt_decode *)
(** Parameters that get past the checks of arguments (decode.h; C38). *)
Definition usable (p : platform) (params : option dec_params) : Prop :=
  exists dp, params = Some dp /\ dec_required dp /\ dec_lengths dp /\ (dp_alg dp = 13%Z -> p_eddsa p = true).
Lemma usable_iff p params : l8w8jwt_validate_decoding_params p params = L8W8JWT_SUCCESS <-> usable p params.
Proof.
  destruct (C38_validate_decoding_params p) as [V0 V]. destruct params as [dp|].
  2:{ rewrite V0. split; [discriminate|intros (dp & C & _); discriminate C]. }
  destruct (V dp) as (V1 & V2 & V3).
  assert (R : dec_required dp \/ ~ dec_required dp).
  { unfold dec_required. destruct (dp_jwt dp), (dp_verification_key dp); intuition congruence. }
  assert (L : dec_lengths dp \/ ~ dec_lengths dp) by (unfold dec_lengths; lia).
  destruct R as [R|R]; [|rewrite (V1 R); split; [discriminate|intros (d & E & R' & _); injection E as <-; contradiction]].
  destruct L as [L|L]; [|rewrite (V2 R L); split; [discriminate|intros (d & E & _ & L' & _); injection E as <-; contradiction]].
  rewrite (V3 R L). destruct (p_eddsa p) eqn:Ep; cbn [negb andb].
  - split; [intros _; exists dp; auto|reflexivity].
  - destruct (Z.eqb_spec (dp_alg dp) 13) as [Ea|Ea].
    + split; [discriminate|]. intros (d & E & _ & _ & C). injection E as <-. specialize (C Ea). congruence.
    + split; [intros _; exists dp; split; [reflexivity|]; repeat split; try apply R; try apply L; intros; contradiction|reflexivity].
Qed.

Lemma bits_below v n : (forall k, N.testbit v k = true -> (k < n)%N) -> (v < 2 ^ n)%N.
Proof.
  intros H. destruct (N.eq_dec v 0) as [->|Nz]; [apply N.neq_0_lt_0, N.pow_nonzero; discriminate|].
  apply N.log2_lt_pow2; [lia|]. apply H, N.bit_log2, Nz.
Qed.
Lemma flags_below p e dp c0 w st w' : wf w -> decode_steps p e dp c0 w st w' -> (ds_res st < 512)%N.
Proof.
  intros Hwf (sg & w2 & res1 & w3 & c1 & w4 & c2 & res2 & H1 & H2 & _ & _ & H5 & ->). cbn [ds_res].
  assert (Hwf2 : wf w2) by (destruct (decode_segments_inv _ _ _ _ _ _ Hwf H1) as (A & _); eapply adds_wf; eauto).
  assert (R : forall k, N.testbit res1 k = true -> k = 7%N).
  { apply verify_signature_inv in H2 as (_ & [(_ & _ & ->)|(b & sig & vd & _ & _ & _ & _ & Er)]); [|..|exact Hwf2].
    - intros k K. unfold L8W8JWT_VALID in K. rewrite N.bits_0 in K. discriminate.
    - intros k K. destruct vd as [x|f]; cbn [verdict_result] in Er.
      + assert (res1 = L8W8JWT_VALID) by congruence. subst. unfold L8W8JWT_VALID in K. rewrite N.bits_0 in K. discriminate.
      + assert (res1 = if f then 128%N else 0%N) by (destruct f; inversion Er; reflexivity). subst.
        destruct f; [|rewrite N.bits_0 in K; discriminate].
        change 128%N with (2 ^ 7)%N in K. rewrite N.pow2_bits_eqb in K. apply N.eqb_eq in K. auto. }
  change 512%N with (2 ^ 9)%N. apply bits_below. intros k K.
  destruct (validate_flag_requested _ _ _ _ _ _ _ _ H5 K) as [X|X]; [rewrite (R k X); reflexivity|].
  destruct (N.ltb_spec k 9) as [L|L]; [exact L|]. exfalso. apply X. clear - L. unfold request_for.
  destruct k as [|[[[[?|?|]|[?|?|]|]|[[?|?|]|[?|?|]|]|]|[[[?|?|]|[?|?|]|]|[[?|?|]|[?|?|]|]|]|]]; try reflexivity; lia.
Qed.

(** The validation result is stored exactly if the arguments pass the checks: ~0 if decoding fails, else
    flags (none of which is ~0). The claims and their number are stored, together, exactly if decoding
    succeeds and they are asked for. Missing: decode.h also says that *out_claims_length is 0 if
    out_claims is NULL; this is false. *)
Theorem C80_decode_outputs_partial :
  forall p e params vn cn ln w r w',
    wf w -> l8w8jwt_decode p e params vn cn ln w = Ret r w' ->
    let accepted := usable p params /\ vn = true /\ (cn = true -> ln = true) in
    (dr_valid r <> None <-> accepted)
    /\ (accepted -> dr_rc r <> 0%Z -> dr_valid r = Some 4294967295%N)
    /\ (dr_rc r = 0%Z -> accepted /\ exists v, dr_valid r = Some v /\ (v < 512)%N)
    /\ (dr_claims r <> None <-> dr_rc r = 0%Z /\ cn = true)
    /\ (forall a n, dr_claims r = Some (a, n) -> exists id cs, a = CArr (Some id) cs /\ n = N.of_nat (length cs)).
Proof.
  intros p e params vn cn ln w r w' Hwf H accepted.
  assert (Ok : dr_rc r = 0%Z -> accepted /\ (exists v, dr_valid r = Some v /\ (v < 512)%N)
     /\ (dr_claims r <> None <-> cn = true)
     /\ (forall a n, dr_claims r = Some (a, n) -> exists id cs, a = CArr (Some id) cs /\ n = N.of_nat (length cs))).
  { intros Z0. destruct (decode_success _ _ _ _ _ _ _ _ _ H Z0) as (dp & st & w1 & -> & -> & Hc & Ev & _ & Hs & -> & ->).
    apply usable_iff in Ev. split; [repeat split; auto|].
    split; [exists (ds_res st); split; [reflexivity|eapply flags_below; [|exact Hs]; apply wf_ok; exact Hwf]|].
    destruct cn; cbn [andb].
    - rewrite Hc by reflexivity. split; [split; [reflexivity|discriminate]|]. intros a n E. injection E as <- <-. eauto.
    - split; [split; [intros C; contradiction|discriminate]|discriminate]. }
  assert (Bad : dr_rc r <> 0%Z -> dr_claims r = None /\ (accepted -> dr_valid r = Some 4294967295%N) /\ (dr_valid r <> None -> accepted)).
  { intros R0. destruct (decode_failure _ _ _ _ _ _ _ _ _ H R0) as [Fv Fc]. split; [exact Fc|].
    unfold l8w8jwt_decode in H. destruct params as [dp|].
    2:{ unfold mret in H. injection H as <- _. cbn [dr_valid]. split; [intros ((d & C & _) & _); discriminate C|contradiction]. }
    destruct (cn && negb ln) eqn:Ec.
    { unfold mret in H. injection H as <- _. cbn [dr_valid]. split; [intros (_ & _ & C); destruct cn; [rewrite C in Ec by reflexivity|]; discriminate Ec|contradiction]. }
    destruct (Z.eqb_spec (l8w8jwt_validate_decoding_params p (Some dp)) L8W8JWT_SUCCESS) as [Ev|Ev]; cbn [negb] in H.
    2:{ unfold mret in H. assert (E : r = DecRes (l8w8jwt_validate_decoding_params p (Some dp)) None None) by congruence. rewrite E. cbn [dr_valid].
        split; [intros (U & _); apply usable_iff in U; contradiction|contradiction]. }
    destruct vn; cbn [negb] in H; [|unfold mret in H; injection H as <- _; cbn [dr_valid]; split; [intros (_ & C & _); discriminate C|contradiction]].
    split; [intros _|intros _; split; [apply usable_iff; exact Ev|]; split; [reflexivity|intros ->; destruct ln; [reflexivity|discriminate Ec]]].
    destruct Fv as [Fv|Fv]; [|exact Fv]. exfalso. minvas H as o w1 H1. destruct o as [c|].
    - minvas H as st w2 H2. minv H. minv H. minv H. minv H. unfold mret in H. injection H as <- _. discriminate Fv.
    - minv H. unfold mret in H. injection H as <- _. discriminate Fv. }
  destruct (Z.eq_dec (dr_rc r) 0) as [Z0|Z0].
  - destruct (Ok Z0) as (A & (v & V & Lv) & C1 & C2). rewrite V.
    split; [split; [intros _; exact A|discriminate]|]. split; [intros _ C; contradiction|]. split; [eauto|]. split; [tauto|exact C2].
  - destruct (Bad Z0) as (B1 & B2 & B3). split; [split; [exact B3|intros A; rewrite (B2 A); discriminate]|]. split; [auto|].
    split; [intros; contradiction|]. rewrite B1. split; [split; [contradiction|tauto]|discriminate].
Qed.
Print Assumptions C80_decode_outputs_partial.

(** decode.h, out_claims_length: "(0 if you decided to set out_claims to NULL)". No call with out_claims NULL
    stores a length, successful or not. *)
Theorem C80_claims_length_refuted :
  (forall p e params vn ln w r w', l8w8jwt_decode p e params vn false ln w = Ret r w' -> dr_claims r = None)
  /\ exists p e dp r w', l8w8jwt_decode p e (Some dp) true false true we = Ret r w'
       /\ dr_rc r = 0%Z /\ dr_valid r = Some 0%N /\ dr_claims r = None.
Proof.
  split.
  - intros p e params vn ln w r w' H. destruct (Z.eq_dec (dr_rc r) 0) as [R|R].
    + destruct (decode_success _ _ _ _ _ _ _ _ _ H R) as (dp & st & w1 & _ & _ & _ & _ & _ & _ & _ & ->). reflexivity.
    + apply (decode_failure _ _ _ _ _ _ _ _ _ H R).
  - exists pe, toy, (dp_plain sample_token 0 (zstr "secret") 6).
    assert (X : verdict_of (l8w8jwt_decode pe toy (Some (dp_plain sample_token 0 (zstr "secret") 6)) true false true we)
                = Some (L8W8JWT_SUCCESS, Some 0%N, None)) by (vm_compute; reflexivity).
    destruct (l8w8jwt_decode pe toy (Some (dp_plain sample_token 0 (zstr "secret") 6)) true false true we) as [r w'|u]; [|discriminate X].
    exists r, w'. split; [reflexivity|]. cbn [verdict_of] in X. destruct r as [rc v c]. cbn [dr_rc dr_valid dr_claims] in *.
    destruct c as [[c n]|]; inversion X; subst; auto.
Qed.
Print Assumptions C80_claims_length_refuted.

(** ** The raw functions *)
(** What a part handed out can be: nothing (NULL and 0), or a fresh block holding what a piece of the token decodes to. *)
Definition nothing : seg := Seg Null 0.
Inductive header_out (jwt : bytes) : seg -> Prop :=
| HO_none : header_out jwt nothing
| HO_some : forall h r s, jwt = h ++ lit "." ++ r -> no_dot h -> no_nul h -> seg_of h s -> header_out jwt s.
Inductive payload_out (p : platform) (dp : dec_params) (jwt : bytes) : seg -> Prop :=
| PO_none : payload_out p dp jwt nothing
| PO_signed : forall h t r s, three_parts jwt h t r -> seg_of t s -> payload_out p dp jwt s
| PO_unsigned : forall h t r n s, dp_alg dp = (-1)%Z -> jwt = h ++ lit "." ++ t ++ x00 :: r -> no_dot h -> no_nul h -> no_dot t -> no_nul t ->
    n = to_size p (Z.of_N (dp_jwt_length dp) - Z.of_nat (length h + 1)) -> seg_of (firstn (N.to_nat n) (t ++ x00 :: r)) s ->
    payload_out p dp jwt s.
Inductive signature_out (p : platform) (dp : dec_params) (jwt : bytes) : seg -> Prop :=
| SO_none : signature_out p dp jwt nothing
| SO_some : forall h t r n s, three_parts jwt h t r ->
    n = to_size p (Z.of_N (dp_jwt_length dp) - Z.of_nat (length h + length t + 2)) -> seg_of (firstn (N.to_nat n) r) s ->
    signature_out p dp jwt s.
Definition outs (p : platform) (dp : dec_params) (sg : segs) : Prop :=
  (exists b jwt, dp_jwt dp = Ptr b jwt /\ header_out jwt (sg_header sg) /\ payload_out p dp jwt (sg_payload sg)
     /\ signature_out p dp jwt (sg_signature sg))
  /\ (sg_signature sg <> nothing -> sg_payload sg <> nothing) /\ (sg_payload sg <> nothing -> sg_header sg <> nothing).

Lemma seg_of_some t s : seg_of t s -> s <> nothing.
Proof. intros (id & o & tl & _ & ->). discriminate. Qed.
Lemma segments_out p dp w rc sg w' :
  wf w -> l8w8jwt_decode_segments p dp w = Ret (rc, sg) w' -> outs p dp sg.
Proof.
  intros Hwf H. unfold l8w8jwt_decode_segments in H.
  minvas H as jwt w1 H1. apply lift_inv in H1 as [Hj ->].
  destruct (dp_jwt dp) as [|b jwt'] eqn:Ej; inversion Hj; subst jwt'. clear Hj.
  minvas H as o w1 H1. apply lift_inv in H1 as [Ho ->]. apply strchr_inv in Ho; [|discriminate].
  destruct o as [n1|].
  2:{ inversion H; subst. split; [exists b, jwt; repeat split; [exact Ej|constructor..]|split; intros C; exact C]. }
  destruct Ho as (h & r1 & -> & <- & Hd1 & Hz1).
  minvas H as r w1 H1. apply (seg_upd_inv _ _ _ _ _ _ Hwf) in H1. cbv zeta in H1.
  set (sh := seg_upd seg0 r) in *. destruct H1 as (A1 & G1 & _ & F1 & S1).
  pose proof (adds_wf _ _ _ A1 Hwf) as Hwf1.
  destruct (Z.eqb_spec (b_rc r) L8W8JWT_SUCCESS) as [E1|E1]; cbn [negb] in H.
  2:{ inversion H; subst. rewrite (F1 E1). split; [do 2 eexists; repeat split; [exact Ej|constructor..]|split; intros C; exact C]. }
  specialize (S1 E1). rewrite Nat2N.id, firstn_app_exact in S1.
  assert (Nh : sh <> nothing) by (eapply seg_of_some; eauto).
  replace (skipn (S (length h)) (h ++ x2e :: r1)) with r1 in H
    by (rewrite skipn_app, skipn_all2 by lia; replace (S (length h) - length h)%nat with 1%nat by lia; reflexivity).
  assert (Ho1 : header_out (h ++ x2e :: r1) sh) by (apply (HO_some _ h r1); auto).
  minvas H as o w2 H1. apply lift_inv in H1 as [Ho ->]. apply strchr_inv in Ho; [|discriminate].
  destruct o as [n2|].
  - destruct Ho as (pl & rest & -> & <- & Hd2 & Hz2). cbn [andb] in H.
    assert (T : three_parts (h ++ x2e :: pl ++ x2e :: rest) h pl rest) by (split; auto).
    minvas H as r2 w2 H1. apply (seg_upd_inv _ _ _ _ _ _ Hwf1) in H1. cbv zeta in H1.
    set (sp := seg_upd seg0 r2) in *. destruct H1 as (A2 & G2 & _ & F2 & S2).
    pose proof (adds_wf _ _ _ A2 Hwf1) as Hwf2.
    destruct (Z.eqb_spec (b_rc r2) L8W8JWT_SUCCESS) as [E2|E2]; cbn [negb] in H.
    2:{ inversion H; subst. rewrite (F2 E2). split; [do 2 eexists; repeat split; [exact Ej|exact Ho1|constructor..]|split; [intros C; exact C|intros _; exact Nh]]. }
    specialize (S2 E2). rewrite Nat2N.id, firstn_app_exact in S2.
    assert (Np : sp <> nothing) by (eapply seg_of_some; eauto).
    replace (skipn (S (length pl)) (pl ++ x2e :: rest)) with rest in H
      by (rewrite skipn_app, skipn_all2 by lia; replace (S (length pl) - length pl)%nat with 1%nat by lia; reflexivity).
    minvas H as r3 w3 H1. apply (seg_upd_inv _ _ _ _ _ _ Hwf2) in H1. cbv zeta in H1.
    set (ss := seg_upd seg0 r3) in *. destruct H1 as (A3 & G3 & L3 & F3 & S3).
    assert (So : signature_out p dp (h ++ x2e :: pl ++ x2e :: rest) ss).
    { destruct (Z.eq_dec (b_rc r3) L8W8JWT_SUCCESS) as [E3|E3]; [|rewrite (F3 E3); constructor].
      eapply (SO_some _ _ _ h pl rest); [exact T|reflexivity|].
      replace (length h + length pl + 2)%nat with (S (length h) + S (length pl))%nat by lia. exact (S3 E3). }
    assert (Sg : sg = Segs sh sp ss) by (destruct (negb (b_rc r3 =? L8W8JWT_SUCCESS)%Z); inversion H; reflexivity). subst sg.
    split; [do 2 eexists; repeat split; [exact Ej|exact Ho1|eapply PO_signed; eauto|exact So]|split; intros _; assumption].
  - destruct Ho as (s & rest & -> & Hd2 & Hz2). cbn [andb] in H.
    destruct (Z.eqb_spec (dp_alg dp) (-1)) as [Ea|Ea]; cbn [negb] in H.
    2:{ inversion H; subst. split; [do 2 eexists; repeat split; [exact Ej|exact Ho1|constructor..]|split; [intros C; exact C|intros _; exact Nh]]. }
    minvas H as r2 w2 H1. apply (seg_upd_inv _ _ _ _ _ _ Hwf1) in H1. cbv zeta in H1.
    set (sp := seg_upd seg0 r2) in *. destruct H1 as (A2 & G2 & L2 & F2 & S2).
    assert (Sg : sg = Segs sh sp seg0) by (destruct (negb (b_rc r2 =? L8W8JWT_SUCCESS)%Z); inversion H; reflexivity). subst sg.
    assert (Po : payload_out p dp (h ++ x2e :: s ++ x00 :: rest) sp).
    { destruct (Z.eq_dec (b_rc r2) L8W8JWT_SUCCESS) as [E2|E2]; [|rewrite (F2 E2); constructor].
      eapply (PO_unsigned _ _ _ h s rest); try eassumption; [reflexivity|reflexivity|].
      replace (length h + 1)%nat with (S (length h)) by lia. exact (S2 E2). }
    split; [do 2 eexists; repeat split; [exact Ej|exact Ho1|exact Po|constructor]|split; [intros C; exfalso; apply C; reflexivity|intros _; exact Nh]].
Qed.

(** A part is stored exactly if it is asked for and the arguments pass the checks. *)
Definition given (asked : bool) (o : option seg) (s : seg) : Prop := o = if asked then Some s else None.
Lemma give_inv nn s0 wa o wb : give_or_free nn s0 wa = Ret o wb -> given nn o s0.
Proof. unfold give_or_free, given. destruct nn; intros K; [unfold mret in K; congruence|]. minvas K as y wc K1. unfold mret in K. congruence. Qed.

Lemma decode_body_out p e dp c0 w st w' : wf w -> decode_body p e dp c0 w = Ret st w' ->
  outs p dp (ds_segs st) /\ (ds_rc st = 0%Z -> sg_payload (ds_segs st) <> nothing).
Proof.
  intros Hwf H. assert (Ok : ds_rc st = 0%Z -> sg_payload (ds_segs st) <> nothing).
  { intros R. apply decode_body_success in H; [|exact R]. destruct H as (sg & w1 & ? & ? & ? & ? & ? & ? & H1 & _ & _ & _ & _ & ->). cbn [ds_segs].
    destruct (decode_segments_inv _ _ _ _ _ _ Hwf H1) as (_ & _ & K). destruct (K eq_refl) as (b & jwt & _ & [X|X]).
    - destruct X as (? & ? & ? & ? & _ & _ & _ & _ & S & _). eapply seg_of_some; eauto.
    - destruct X as (_ & ? & ? & ? & ? & _ & _ & _ & _ & _ & _ & _ & _ & S & _). eapply seg_of_some; eauto. }
  split; [|exact Ok]. unfold decode_body in H. minvas H as [r sg] w1 H1. apply segments_out in H1; [|exact Hwf].
  assert (E : ds_segs st = sg); [|rewrite E; exact H1].
  destruct (negb (r =? L8W8JWT_SUCCESS)%Z); [inversion H; reflexivity|]. minvas H as [r2 res] w2 H2.
  destruct (negb (r2 =? L8W8JWT_SUCCESS)%Z); [inversion H; reflexivity|]. minvas H as [r3 c] w3 H3.
  destruct (negb (r3 =? L8W8JWT_SUCCESS)%Z); [inversion H; reflexivity|]. minvas H as [r4 c4] w4 H4.
  destruct (negb (r4 =? L8W8JWT_SUCCESS)%Z); [inversion H; reflexivity|]. minvas H as v w5 H5. inversion H. reflexivity.
Qed.
Lemma outs_none p dp : dec_required dp -> outs p dp (Segs nothing nothing nothing).
Proof.
  intros [N _]. split; [|split; intros C; exact C]. destruct (dp_jwt dp) as [|b jwt] eqn:E; [contradiction|].
  exists b, jwt. repeat split; constructor.
Qed.

Definition paired (a b : bool) : Prop := a = true -> b = true.
Lemma unpaired a b : a && negb b = true -> ~ paired a b.
Proof. unfold paired. destruct a, b; cbn; intuition congruence. Qed.
Lemma paired_of a b : a && negb b = false -> paired a b.
Proof. unfold paired. destruct a, b; cbn; intuition congruence. Qed.

(** What l8w8jwt_decode_raw stores. If the arguments pass the checks, every part asked for is stored,
    whatever the code: what was decoded before the failure is handed out even if the call fails. A part is
    handed out only with the parts before it; if the call succeeds, header and payload are there. Missing:
    decode.h says the parts are only allocated and written if decoding is successful; this is false. *)
Theorem C80_decode_raw_outputs_partial :
  forall p e params vn hn hl pn pl sn sl w r w',
    wf w -> l8w8jwt_decode_raw p e params vn hn hl pn pl sn sl w = Ret r w' ->
    let accepted := usable p params /\ vn = true /\ paired hn hl /\ paired pn pl /\ paired sn sl in
    (accepted \/ (rr_rc r <> 0%Z /\ r = RawRes (rr_rc r) None None None None /\ w' = w))
    /\ (accepted -> (rr_rc r <> 0%Z -> rr_valid r = Some 4294967295%N) /\ (rr_rc r = 0%Z -> exists v, rr_valid r = Some v /\ (v < 512)%N)
          /\ exists dp sg, params = Some dp /\ outs p dp sg /\ (rr_rc r = 0%Z -> sg_payload sg <> nothing)
               /\ given hn (rr_header r) (sg_header sg) /\ given pn (rr_payload r) (sg_payload sg) /\ given sn (rr_signature r) (sg_signature sg)).
Proof.
  intros p e params vn hn hl pn pl sn sl w r w' Hwf H accepted.
  assert (Ok : rr_rc r = 0%Z -> exists v, rr_valid r = Some v /\ (v < 512)%N).
  { intros R. destruct (decode_raw_success _ _ _ _ _ _ _ _ _ _ _ _ _ H R) as (dp & st & w1 & _ & _ & _ & _ & Hs & Hv & _).
    exists (ds_res st). split; [exact Hv|]. eapply flags_below; [|exact Hs]. apply wf_ok, Hwf. }
  assert (Bad : rr_rc r <> 0%Z -> rr_valid r = None \/ rr_valid r = Some 4294967295%N) by (intros R; exact (decode_raw_failure _ _ _ _ _ _ _ _ _ _ _ _ _ H R)).
  unfold l8w8jwt_decode_raw in H. destruct params as [dp|].
  2:{ unfold mret in H. injection H as <- <-. split; [right; repeat split; discriminate|intros ((d & C & _) & _); discriminate C]. }
  destruct (negb vn || (hn && negb hl) || (pn && negb pl) || (sn && negb sl)) eqn:Ec.
  { unfold mret in H. injection H as <- <-. split; [right; repeat split; discriminate|]. intros (_ & -> & P1 & P2 & P3). exfalso.
    cbn [negb orb] in Ec. apply orb_true_iff in Ec as [Ec|Ec]; [apply orb_true_iff in Ec as [Ec|Ec]|]; exact (unpaired _ _ Ec ltac:(assumption)). }
  apply orb_false_iff in Ec as [Ec Es]. apply orb_false_iff in Ec as [Ec Ep]. apply orb_false_iff in Ec as [Ev Eh].
  apply paired_of in Es, Ep, Eh. destruct vn; [|discriminate Ev]. clear Ev.
  destruct (Z.eqb_spec (l8w8jwt_validate_decoding_params p (Some dp)) L8W8JWT_SUCCESS) as [Ev|Ev]; cbn [negb] in H.
  2:{ unfold mret in H. assert (E : r = RawRes (l8w8jwt_validate_decoding_params p (Some dp)) None None None None) by congruence.
      assert (E' : w' = w) by congruence. rewrite E, E'. cbn [rr_rc]. split; [right; auto|]. intros (U & _). apply usable_iff in U. contradiction. }
  apply usable_iff in Ev. split; [left; unfold accepted; auto|]. intros _.
  assert (Rq : dec_required dp) by (destruct Ev as (d & E & Rq & _); injection E as <-; exact Rq).
  minvas H as o w1 H1. minvas H as [[[rc sg] res] b] w2 H2.
  assert (O : outs p dp sg /\ (rc = 0%Z -> sg_payload sg <> nothing)).
  { apply cb_init_inv in H1 as [(-> & _ & ->)|(-> & _ & ->)].
    - minvas H2 as st w3 H3. rewrite decode_raw_body_eq in H3. apply decode_body_out in H3; [|apply wf_ok; exact Hwf].
      unfold mret in H2. injection H2 as <- <- <- <- _. exact H3.
    - unfold mret in H2. injection H2 as <- <- <- <- _. split; [apply outs_none, Rq|discriminate]. }
  minvas H as h w3 H3. minvas H as q w4 H4. minvas H as s w5 H5. minvas H as u w6 H6. unfold mret in H. injection H as <- _.
  cbn [rr_rc rr_valid rr_header rr_payload rr_signature] in *.
  split; [intros R; destruct (Bad R) as [C|C]; [discriminate C|exact C]|]. split; [exact Ok|].
  exists dp, sg. split; [reflexivity|]. split; [apply O|]. split; [apply O|].
  split; [exact (give_inv _ _ _ _ _ H3)|]. split; [exact (give_inv _ _ _ _ _ H4)|exact (give_inv _ _ _ _ _ H5)].
Qed.
Print Assumptions C80_decode_raw_outputs_partial.

(** l8w8jwt_decode_raw_no_validation, likewise; it needs a part to be asked for. *)
Theorem C80_decode_raw_no_validation_outputs :
  forall p params hn hl pn pl sn sl w r w',
    wf w -> l8w8jwt_decode_raw_no_validation p params hn hl pn pl sn sl w = Ret r w' ->
    let accepted := usable p params /\ hn || pn || sn = true /\ paired hn hl /\ paired pn pl /\ paired sn sl in
    rr_valid r = None
    /\ (accepted \/ (rr_rc r <> 0%Z /\ r = RawRes (rr_rc r) None None None None /\ w' = w))
    /\ (accepted -> exists dp sg, params = Some dp /\ outs p dp sg /\ (rr_rc r = 0%Z -> sg_payload sg <> nothing)
               /\ given hn (rr_header r) (sg_header sg) /\ given pn (rr_payload r) (sg_payload sg) /\ given sn (rr_signature r) (sg_signature sg)).
Proof.
  intros p params hn hl pn pl sn sl w r w' Hwf H accepted.
  unfold l8w8jwt_decode_raw_no_validation in H. destruct params as [dp|].
  2:{ unfold mret in H. injection H as <- <-. split; [reflexivity|]. split; [right; repeat split; discriminate|intros ((d & C & _) & _); discriminate C]. }
  destruct ((negb hn && negb pn && negb sn) || (hn && negb hl) || (pn && negb pl) || (sn && negb sl)) eqn:Ec.
  { unfold mret in H. injection H as <- <-. split; [reflexivity|]. split; [right; repeat split; discriminate|]. intros (_ & A & P1 & P2 & P3). exfalso.
    replace (negb hn && negb pn && negb sn) with false in Ec by (destruct hn, pn, sn; reflexivity || discriminate A).
    cbn [orb] in Ec. apply orb_true_iff in Ec as [Ec|Ec]; [apply orb_true_iff in Ec as [Ec|Ec]|]; exact (unpaired _ _ Ec ltac:(assumption)). }
  apply orb_false_iff in Ec as [Ec Es]. apply orb_false_iff in Ec as [Ec Ep]. apply orb_false_iff in Ec as [Ea Eh].
  apply paired_of in Es, Ep, Eh.
  destruct (Z.eqb_spec (l8w8jwt_validate_decoding_params p (Some dp)) L8W8JWT_SUCCESS) as [Ev|Ev]; cbn [negb] in H.
  2:{ unfold mret in H. assert (E : r = RawRes (l8w8jwt_validate_decoding_params p (Some dp)) None None None None) by congruence.
      assert (E' : w' = w) by congruence. rewrite E, E'. cbn [rr_rc rr_valid]. split; [reflexivity|]. split; [right; auto|]. intros (U & _). apply usable_iff in U. contradiction. }
  apply usable_iff in Ev. minvas H as [rc sg] w2 H2. pose proof (segments_out _ _ _ _ _ _ Hwf H2) as O.
  minvas H as h w3 H3. minvas H as q w4 H4. minvas H as s w5 H5. unfold mret in H. injection H as <- _.
  cbn [rr_rc rr_valid rr_header rr_payload rr_signature] in *. split; [reflexivity|].
  split; [left; repeat split; auto; destruct hn, pn, sn; reflexivity || discriminate Ea|]. intros _.
  exists dp, sg. split; [reflexivity|]. split; [exact O|]. split.
  { intros ->. destruct (decode_segments_inv _ _ _ _ _ _ Hwf H2) as (_ & _ & K). destruct (K eq_refl) as (b & jwt & _ & [X|X]).
    - destruct X as (? & ? & ? & ? & _ & _ & _ & _ & S & _). eapply seg_of_some; eauto.
    - destruct X as (_ & ? & ? & ? & ? & _ & _ & _ & _ & _ & _ & _ & _ & S & _). eapply seg_of_some; eauto. }
  split; [exact (give_inv _ _ _ _ _ H3)|]. split; [exact (give_inv _ _ _ _ _ H4)|exact (give_inv _ _ _ _ _ H5)].
Qed.
Print Assumptions C80_decode_raw_no_validation_outputs.

(** decode.h, l8w8jwt_decode_raw: a part "is only allocated and written to if [...] the decoding procedure was also
    successful". A token of two parts is refused (MISSING_SIGNATURE), and its header handed out all the same, in a
    block that stays allocated. *)
Definition raw_of (r : res raw_res) : option (Z * option N * option (option bool * N) * option (option bool * N)) :=
  match r with
  | Ret r w' =>
      let f (s : option seg) := match s with
        | Some (Seg (Ptr (Some id) _) n) => Some (Some (w_live w' id), n) | Some (Seg (Ptr None _) n) => Some (Some false, n)
        | Some (Seg Null n) => Some (None, n) | None => None end in
      Some (rr_rc r, rr_valid r, f (rr_header r), f (rr_payload r))
  | Undef _ => None
  end.
Theorem C80_raw_on_failure_refuted :
  exists p e dp r w' id mem n,
    l8w8jwt_decode_raw p e (Some dp) true true true true true true true we = Ret r w'
    /\ rr_rc r = 700%Z /\ rr_header r = Some (Seg (Ptr (Some id) mem) n) /\ n <> 0%N /\ w_live w' id = true
    /\ rr_payload r = Some nothing.
Proof.
  exists pe, toy, (dp_plain (lit "e30.e30") 0 (zstr "secret") 6).
  assert (X : raw_of (l8w8jwt_decode_raw pe toy (Some (dp_plain (lit "e30.e30") 0 (zstr "secret") 6)) true true true true true true true we)
              = Some (700%Z, Some 4294967295%N, Some (Some true, 2%N), Some (None, 0%N))) by (vm_compute; reflexivity).
  destruct (l8w8jwt_decode_raw pe toy _ true true true true true true true we) as [r w'|u]; [|discriminate X].
  cbn [raw_of] in X. destruct r as [rc v [[[|[id|] mem] n]|] [[[|[id'|] mem'] n']|] s]; cbn [rr_rc rr_valid rr_header rr_payload] in *; try discriminate X;
    injection X; intros; subst. do 5 eexists.
  split; [reflexivity|]. split; [reflexivity|]. split; [reflexivity|]. split; [discriminate|]. split; [assumption|reflexivity].
Qed.
Print Assumptions C80_raw_on_failure_refuted.

(** ** Encoding and base64 *)
(** l8w8jwt_encode: the length is stored exactly if the call succeeds, together with a token that is
    terminated by a NUL behind that many bytes, in a fresh block; otherwise *out is left alone, or set to
    NULL by a call that runs out of memory. *)
Theorem C80_encode_outputs :
  forall p e params w r w',
    (6 <= p_size_bits p)%N -> wf w -> l8w8jwt_encode p e params w = Ret r w' ->
    (er_rc r = 0%Z -> exists id t, er_out r = Some (Ptr (Some id) (t ++ [x00])) /\ er_len r = Some (N.of_nat (length t))
        /\ w_live w' id = true /\ w_live w id = false)
    /\ (er_rc r <> 0%Z -> er_len r = None /\ (er_out r = None \/ (er_out r = Some Null /\ er_rc r = 300%Z))).
Proof.
  intros p e params w r w' Hp Hwf H. destruct params as [ep|].
  2:{ unfold l8w8jwt_encode, mret in H. injection H as <- _. split; [discriminate|auto]. }
  split.
  - intros R. destruct (encode_inv _ _ _ _ _ _ Hp Hwf H) as [(C & _)|(_ & _ & id & t & Ho & Hn & Hi & _ & Hl & _)]; [contradiction|].
    exists id, t. split; [exact Ho|]. split; [exact Hn|]. split; [rewrite Hl, Nat.eqb_refl; reflexivity|apply Hwf; lia].
  - intros R. destruct (encode_inv _ _ _ _ _ _ Hp Hwf H) as [(_ & Ho & Hn & _)|(C & _)]; [|contradiction]. split; [exact Hn|].
    destruct Ho as [Ho|Ho]; [left; exact Ho|right; split; [exact Ho|]].
    unfold l8w8jwt_encode in H. cbv zeta in H.
    destruct (negb (l8w8jwt_validate_encoding_params (Some ep) =? L8W8JWT_SUCCESS)%Z).
    { unfold mret in H. assert (E : r = EncRes (l8w8jwt_validate_encoding_params (Some ep)) None None) by congruence. rewrite E in Ho. discriminate Ho. }
    minvas H as o w1 H1. destruct o as [sb|]; [|unfold mret in H; injection H as <- _; discriminate Ho].
    minvas H as [res sb2] w2 H2. minvas H as u w3 H3. unfold mret in H. injection H as <- _.
    unfold encode_body in H2. minvas H2 as [r1 sb3] w4 H4. destruct (negb (r1 =? L8W8JWT_SUCCESS)%Z); [unfold mret in H2; injection H2 as <- _ _; discriminate Ho|].
    minvas H2 as [r5 sb5] w5 H5. destruct (negb (r5 =? L8W8JWT_SUCCESS)%Z); [unfold mret in H2; injection H2 as <- _ _; discriminate Ho|].
    minvas H2 as res6 w6 H6. unfold mret in H2. injection H2 as <- _ _.
    destruct (write_token_inv _ _ _ _ H6) as [(-> & _)|(-> & _)]; [reflexivity|discriminate Ho].
Qed.
Print Assumptions C80_encode_outputs.

(** The base64 functions: the length is stored exactly if the call succeeds; if it fails, *out is left
    alone or set to NULL, and no block stays allocated. *)
Theorem C80_base64_outputs :
  (forall p url q n on ln w r w', wf w -> l8w8jwt_base64_encode p url q n on ln w = Ret r w' ->
     (b_rc r = 0%Z -> exists id m k, b_out r = Some (Ptr (Some id) m) /\ b_len r = Some k /\ w_live w' id = true /\ w_live w id = false)
     /\ (b_rc r <> 0%Z -> b_len r = None /\ (b_out r = None \/ (b_out r = Some Null /\ b_rc r = 300%Z)) /\ forall i, w_live w' i = w_live w i))
  /\ (forall url q n on ln w r w', wf w -> l8w8jwt_base64_decode url q n on ln w = Ret r w' ->
     (b_rc r = 0%Z -> exists id m k, b_out r = Some (Ptr (Some id) m) /\ b_len r = Some k /\ w_live w' id = true /\ w_live w id = false)
     /\ (b_rc r <> 0%Z -> b_len r = None /\ (b_out r = None \/ b_out r = Some Null) /\ forall i, w_live w' i = w_live w i)).
Proof.
  assert (Fresh : forall w, wf w -> w_live w (w_next w) = false) by (intros w Hwf; apply Hwf; lia).
  assert (New : forall w, w_live (w_ok w) (w_next w) = true) by (intros w; cbn [w_ok w_live]; unfold upd_live; rewrite Nat.eqb_refl; reflexivity).
  split.
  - intros p url q n on ln w r w' Hwf H. unfold l8w8jwt_base64_encode in H.
    destruct (_ || _ || _); [unfold mret in H; injection H as <- <-; split; [discriminate|auto]|].
    destruct (n =? 0)%N; [unfold mret in H; injection H as <- <-; split; [discriminate|auto]|].
    destruct (_ <? _)%N; [unfold mret in H; injection H as <- <-; split; [discriminate|auto]|].
    minvas H as o w1 H1. rewrite malloc_eq in H1. destruct (w_alloc w (w_next w)); inversion H1; subst; clear H1.
    2:{ unfold mret in H; injection H as <- <-; split; [discriminate|auto 6]. }
    minvas H as m w1 H1. apply lift_inv in H1 as [_ ->]. minvas H as d w1 H1. apply lift_inv in H1 as [_ ->].
    minvas H as [b k] w1 H1. apply lift_inv in H1 as [_ ->]. unfold mret in H. injection H as <- <-. cbn [b_rc b_out b_len].
    split; [|intros C; exfalso; apply C; reflexivity]. intros _. exists (w_next w), b, k. auto.
  - intros url q n on ln w r w' Hwf H. unfold l8w8jwt_base64_decode in H.
    destruct (_ || _ || _); [unfold mret in H; injection H as <- <-; split; [discriminate|auto]|].
    destruct (n =? 0)%N; [unfold mret in H; injection H as <- <-; split; [discriminate|auto]|].
    minvas H as m w1 H1. apply lift_inv in H1 as [_ ->]. minvas H as l w1 H1. apply lift_inv in H1 as [_ ->].
    minvas H as d w1 H1. apply lift_inv in H1 as [_ ->].
    destruct (_ || _); [unfold mret in H; injection H as <- <-; split; [discriminate|auto]|].
    minvas H as o w1 H1. rewrite calloc_eq in H1. destruct (w_alloc w (w_next w)); inversion H1; subst; clear H1.
    2:{ unfold mret in H; injection H as <- <-; split; [discriminate|auto 6]. }
    minvas H as x w1 H1. apply lift_inv in H1 as [_ ->]. destruct x as [c|].
    + unfold mret in H. injection H as <- <-. cbn [b_rc b_out b_len]. split; [|intros C; exfalso; apply C; reflexivity].
      intros _. exists (w_next w), (cur_buf c), (cur_off c). auto.
    + minvas H as u w1 H1. cbn [free] in H1. apply free_id_inv in H1 as [_ ->]. unfold mret in H. injection H as <- <-.
      cbn [b_rc b_out b_len]. split; [discriminate|]. intros _. split; [reflexivity|]. split; [auto|].
      intros i. apply live_after_free, Hwf.
Qed.
Print Assumptions C80_base64_outputs.

(** Calls that meet the hypotheses: a failing call that stores ~0 and no claims, a refused one that stores
    nothing, a raw call on a token whose payload is no JSON object, with the parts handed out. *)
Definition code_len (r : res enc_res) : option (Z * bool) :=
  match r with Ret r _ => Some (er_rc r, match er_len r with Some _ => true | None => false end) | Undef _ => None end.
Example C80_calls :
  verdict_of (l8w8jwt_decode pe toy (Some (dp_plain (lit "e30.e30") 0 (zstr "secret") 6)) true true true we)
  = Some (700%Z, Some 4294967295%N, None)
  /\ verdict_of (l8w8jwt_decode pe toy (Some (dp_plain [] 0 (zstr "secret") 6)) true true true we) = Some (200%Z, None, None)
  /\ raw_of (l8w8jwt_decode_raw pe toy (Some (dp_plain (lit "e30.bnVsbA.AA") 3 (zstr "secret") 6)) true true true true true false false we)
     = Some (600%Z, Some 4294967295%N, Some (Some true, 2%N), Some (Some true, 4%N))
  /\ code_len (l8w8jwt_encode pe toy (Some ep_sample) we) = Some (0%Z, true).
Proof. vm_compute. auto. Qed.
