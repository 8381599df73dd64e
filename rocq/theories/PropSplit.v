(** * Property C104: checks can be split over calls *)
From Verif Require Import Base BaseProofs HeapProofs Util UtilProofs Claim Base64 SpecB64
  Base64EncApi Base64DecProofs Base64Api Jsmn Env Encode Decode SpecJson SpecJwa ClaimProofs UnescapeProofs
  EncodeProofs SignProofs EncodeTotal PropEncode DecodeProofs DecodeInv PropVerify JsmnProofs ParseProofs PropClaim ReadProofs ValidateProofs PropValidate.
From Coq Require Import ZifyBool ZifyNat ZifyN.
Ltac Zify.zify_post_hook ::= Z.div_mod_to_equations.
Local Opaque L8W8JWT_MAX_KEY_SIZE.

(** [less] asks about the same token as [more], and for some of the checks of [more], with the same expectations. *)
Definition asks_part (less more : dec_params) : Prop :=
  same_token more less /\ forall k, request_for less k = request_for more k \/ request_for less k = NoRequest.
(** [a] and [b] ask for parts of [all], and together for all of it. A check may be in both. *)
Definition divided (all a b : dec_params) : Prop :=
  asks_part a all /\ asks_part b all
  /\ forall k, request_for a k = request_for all k \/ request_for b k = request_for all k.

(** ** Validation *)
Definition text_answer (q : ptr) (n : N) (X : ptr -> N -> U bool) (f : bool) : Prop :=
  if is_null q then f = false else X q n = OK f.
Definition time_answer (b : bool) (t : N) (X : N -> U bool) (f : bool) : Prop :=
  if b then X t = OK f else f = false.
Lemma validate_claims_answers p e dp cs n res r :
  l8w8jwt_validate_claims p e dp cs n res = OK r <->
  exists f1 f2 f3 f4 f5 f6 f7 f8,
    r = N.lor (N.lor (N.lor (N.lor (N.lor (N.lor (N.lor (N.lor res (bitf 2 f1)) (bitf 4 f2)) (bitf 1 f3))
          (bitf 8 f4)) (bitf 16 f5)) (bitf 32 f6)) (bitf 64 f7)) (bitf 256 f8)
    /\ text_answer (dp_validate_sub dp) (dp_validate_sub_length dp) (fun q m => string_check cs n "sub" q m) f1
    /\ text_answer (dp_validate_aud dp) (dp_validate_aud_length dp) (fun q m => string_check cs n "aud" q m) f2
    /\ text_answer (dp_validate_iss dp) (dp_validate_iss_length dp) (fun q m => string_check cs n "iss" q m) f3
    /\ text_answer (dp_validate_jti dp) (dp_validate_jti_length dp) (fun q m => string_check cs n "jti" q m) f4
    /\ time_answer (dp_validate_exp dp) (dp_exp_tolerance dp)
         (fun m => time_check cs n "exp" (e_time e - Z.of_N m)%Z (fun now v => (v <? now)%Z)) f5
    /\ time_answer (dp_validate_nbf dp) (dp_nbf_tolerance dp)
         (fun m => time_check cs n "nbf" (e_time e + Z.of_N m)%Z (fun now v => (now <? v)%Z)) f6
    /\ time_answer (dp_validate_iat dp) (dp_iat_tolerance dp)
         (fun m => time_check cs n "iat" (e_time e + Z.of_N m)%Z (fun now v => (now <? v)%Z)) f7
    /\ text_answer (dp_validate_typ dp) (dp_validate_typ_length dp) (fun q m => typ_check p cs n q m) f8.
Proof.
  split; [exact (validate_claims_inv p e dp cs n res r)|].
  intros (f1 & f2 & f3 & f4 & f5 & f6 & f7 & f8 & -> & V1 & V2 & V3 & V4 & V5 & V6 & V7 & V8). unfold text_answer, time_answer in *.
  assert (S : forall q (X : U bool) flag x f, (if is_null q then f = false else X = OK f) ->
    flag_if (negb (is_null q)) X flag x = OK (N.lor x (bitf flag f))).
  { intros q X flag x f H. unfold flag_if. destruct (is_null q); cbn [negb]; rewrite H; [cbn [bitf]; rewrite N.lor_0_r; reflexivity|].
    cbn [ubind]. destruct f; cbn [bitf]; [reflexivity|rewrite N.lor_0_r; reflexivity]. }
  assert (T : forall (b : bool) (X : U bool) flag x f, (if b then X = OK f else f = false) ->
    flag_if b X flag x = OK (N.lor x (bitf flag f))).
  { intros b X flag x f H. unfold flag_if. destruct b; rewrite H; [|cbn [bitf]; rewrite N.lor_0_r; reflexivity].
    cbn [ubind]. destruct f; cbn [bitf]; [reflexivity|rewrite N.lor_0_r; reflexivity]. }
  unfold l8w8jwt_validate_claims. cbv zeta.
  rewrite (S _ _ _ _ _ V1). cbn [ubind]. rewrite (S _ _ _ _ _ V2). cbn [ubind]. rewrite (S _ _ _ _ _ V3). cbn [ubind].
  rewrite (S _ _ _ _ _ V4). cbn [ubind]. rewrite (T _ _ _ _ _ V5). cbn [ubind]. rewrite (T _ _ _ _ _ V6). cbn [ubind].
  rewrite (T _ _ _ _ _ V7). cbn [ubind]. rewrite (S _ _ _ _ _ V8). reflexivity.
Qed.
Lemma text_less q n X f q' n' : text_answer q n X f -> text_request q' n' = text_request q n \/ text_request q' n' = NoRequest ->
  exists f', text_answer q' n' X f' /\ (f' = true -> f = true).
Proof.
  unfold text_answer, text_request. intros H [E|E]; destruct q' as [|b' m']; cbn [is_null] in *; try discriminate E.
  - exists false. split; [reflexivity|discriminate].
  - destruct q; [discriminate E|]. injection E as <- <- <-. exists f. auto.
  - exists false. split; [reflexivity|discriminate].
Qed.
Lemma time_less (b : bool) t X f (b' : bool) t' : time_answer b t X f ->
  (if b' : bool then Time t' else NoRequest) = (if b then Time t else NoRequest) \/ (if b' then Time t' else NoRequest) = NoRequest ->
  exists f', time_answer b' t' X f' /\ (f' = true -> f = true).
Proof.
  unfold time_answer. intros H [E|E]; destruct b'; try discriminate E; try (exists false; split; [reflexivity|discriminate]).
  destruct b; [|discriminate E]. injection E as ->. exists f. auto.
Qed.
Lemma text_or q n X qa na qb nb fa fb : text_answer qa na X fa -> text_answer qb nb X fb ->
  text_request qa na = text_request q n \/ text_request qa na = NoRequest ->
  text_request qb nb = text_request q n \/ text_request qb nb = NoRequest ->
  text_request qa na = text_request q n \/ text_request qb nb = text_request q n ->
  text_answer q n X (fa || fb).
Proof.
  unfold text_answer, text_request. destruct q, qa, qb; cbn [is_null]; intros A B Ea Eb E;
    repeat match goal with K : _ \/ _ |- _ => destruct K end; try discriminate;
    repeat match goal with K : Text _ _ = Text _ _ |- _ => injection K as -> -> -> end; subst; cbn [orb]; try reflexivity;
    try rewrite orb_false_r; try assumption; rewrite A in B; injection B as ->; rewrite orb_diag; assumption.
Qed.
Lemma time_or (b : bool) t X (ba : bool) ta (bb : bool) tb fa fb : time_answer ba ta X fa -> time_answer bb tb X fb ->
  (if ba : bool then Time ta else NoRequest) = (if b then Time t else NoRequest) \/ (if ba then Time ta else NoRequest) = NoRequest ->
  (if bb : bool then Time tb else NoRequest) = (if b then Time t else NoRequest) \/ (if bb then Time tb else NoRequest) = NoRequest ->
  (if ba then Time ta else NoRequest) = (if b then Time t else NoRequest) \/ (if bb then Time tb else NoRequest) = (if b : bool then Time t else NoRequest) ->
  time_answer b t X (fa || fb).
Proof.
  unfold time_answer. destruct b, ba, bb; intros A B Ea Eb E;
    repeat match goal with K : _ \/ _ |- _ => destruct K end; try discriminate;
    repeat match goal with K : Time _ = Time _ |- _ => injection K as -> end; subst; cbn [orb]; try reflexivity;
    try rewrite orb_false_r; try assumption; rewrite A in B; injection B as ->; rewrite orb_diag; assumption.
Qed.

Lemma validate_less p e dp dp' cs n res v : asks_part dp' dp ->
  l8w8jwt_validate_claims p e dp cs n res = OK v ->
  exists v', l8w8jwt_validate_claims p e dp' cs n res = OK v' /\ forall k, N.testbit v' k = true -> N.testbit v k = true.
Proof.
  intros (_ & R) V. apply validate_claims_answers in V as (f1 & f2 & f3 & f4 & f5 & f6 & f7 & f8 & -> & V1 & V2 & V3 & V4 & V5 & V6 & V7 & V8).
  destruct (text_less _ _ _ _ _ _ V1 (R 1%N)) as (g1 & W1 & K1). destruct (text_less _ _ _ _ _ _ V2 (R 2%N)) as (g2 & W2 & K2).
  destruct (text_less _ _ _ _ _ _ V3 (R 0%N)) as (g3 & W3 & K3). destruct (text_less _ _ _ _ _ _ V4 (R 3%N)) as (g4 & W4 & K4).
  destruct (time_less _ _ _ _ _ _ V5 (R 4%N)) as (g5 & W5 & K5). destruct (time_less _ _ _ _ _ _ V6 (R 5%N)) as (g6 & W6 & K6).
  destruct (time_less _ _ _ _ _ _ V7 (R 6%N)) as (g7 & W7 & K7). destruct (text_less _ _ _ _ _ _ V8 (R 8%N)) as (g8 & W8 & K8).
  eexists. split; [apply validate_claims_answers; do 8 eexists; split; [reflexivity|eauto 12]|].
  intros k. rewrite !lor_flags_testbit, !orb_true_iff, !andb_true_iff. tauto.
Qed.
Lemma validate_divided p e dp a b cs n res va vb : divided dp a b ->
  l8w8jwt_validate_claims p e a cs n res = OK va -> l8w8jwt_validate_claims p e b cs n res = OK vb ->
  l8w8jwt_validate_claims p e dp cs n res = OK (N.lor va vb).
Proof.
  intros ((_ & A) & (_ & B) & C) V W.
  apply validate_claims_answers in V as (f1 & f2 & f3 & f4 & f5 & f6 & f7 & f8 & -> & V1 & V2 & V3 & V4 & V5 & V6 & V7 & V8).
  apply validate_claims_answers in W as (g1 & g2 & g3 & g4 & g5 & g6 & g7 & g8 & -> & W1 & W2 & W3 & W4 & W5 & W6 & W7 & W8).
  apply validate_claims_answers. exists (f1 || g1), (f2 || g2), (f3 || g3), (f4 || g4), (f5 || g5), (f6 || g6), (f7 || g7), (f8 || g8).
  split.
  - apply N.bits_inj. intros k. rewrite N.lor_spec, !lor_flags_testbit. apply eq_iff_eq_true.
    rewrite !orb_true_iff, !andb_true_iff, !orb_true_iff. clear. tauto.
  - split; [exact (text_or _ _ _ _ _ _ _ _ _ V1 W1 (A 1%N) (B 1%N) (C 1%N))|].
    split; [exact (text_or _ _ _ _ _ _ _ _ _ V2 W2 (A 2%N) (B 2%N) (C 2%N))|].
    split; [exact (text_or _ _ _ _ _ _ _ _ _ V3 W3 (A 0%N) (B 0%N) (C 0%N))|].
    split; [exact (text_or _ _ _ _ _ _ _ _ _ V4 W4 (A 3%N) (B 3%N) (C 3%N))|].
    split; [exact (time_or _ _ _ _ _ _ _ _ _ V5 W5 (A 4%N) (B 4%N) (C 4%N))|].
    split; [exact (time_or _ _ _ _ _ _ _ _ _ V6 W6 (A 5%N) (B 5%N) (C 5%N))|].
    split; [exact (time_or _ _ _ _ _ _ _ _ _ V7 W7 (A 6%N) (B 6%N) (C 6%N))|].
    exact (text_or _ _ _ _ _ _ _ _ _ V8 W8 (A 8%N) (B 8%N) (C 8%N)).
Qed.

(** ** The whole *)
(** Two runs that differ in the verdict at most. *)
Definition alike (a b : dec_state) : Prop := ds_rc a = ds_rc b /\ ds_segs a = ds_segs b /\ ds_claims a = ds_claims b.
Lemma body_less p e dp dp' c w st w1 : asks_part dp' dp -> decode_body p e dp c w = Ret st w1 ->
  exists st', decode_body p e dp' c w = Ret st' w1 /\ alike st st'
  /\ (ds_rc st = L8W8JWT_SUCCESS -> forall k, N.testbit (ds_res st') k = true -> N.testbit (ds_res st) k = true).
Proof.
  intros Hp H. destruct (same_token_steps p e dp dp' (proj1 Hp)) as (_ & E1 & E2).
  unfold decode_body in *. rewrite <- E1. minvas H as [r sg] w2 H1. mstep H1.
  destruct (negb (r =? L8W8JWT_SUCCESS)%Z); [exists st; unfold alike; auto 6|].
  rewrite <- E2. minvas H as [r2 res] w3 H2. mstep H2.
  destruct (negb (r2 =? L8W8JWT_SUCCESS)%Z); [exists st; unfold alike; auto 6|].
  minvas H as [r3 c1] w4 H3. mstep H3. destruct (negb (r3 =? L8W8JWT_SUCCESS)%Z); [exists st; unfold alike; auto 6|].
  minvas H as [r4 c2] w5 H4. mstep H4. destruct (negb (r4 =? L8W8JWT_SUCCESS)%Z); [exists st; unfold alike; auto 6|].
  minvas H as v w6 H5. apply lift_inv in H5 as [H5 ->]. inversion H; subst. clear H.
  destruct (validate_less _ _ _ _ _ _ _ _ Hp H5) as (v' & H6 & K). unfold mbind, lift. rewrite H6.
  eexists. split; [reflexivity|]. unfold alike. cbn [ds_rc ds_segs ds_claims ds_res]. auto.
Qed.
Lemma body_divided p e dp a b c w sa wa sb wb : divided dp a b ->
  decode_body p e a c w = Ret sa wa -> decode_body p e b c w = Ret sb wb ->
  wb = wa /\ alike sa sb
  /\ exists st, decode_body p e dp c w = Ret st wa /\ alike st sa
     /\ (ds_rc st = L8W8JWT_SUCCESS -> ds_res st = N.lor (ds_res sa) (ds_res sb)).
Proof.
  intros Hd H H'. destruct (same_token_steps p e dp a (proj1 (proj1 Hd))) as (_ & E1 & E2).
  destruct (same_token_steps p e dp b (proj1 (proj1 (proj2 Hd)))) as (_ & E1' & E2').
  assert (Same : forall s, ds_rc s <> L8W8JWT_SUCCESS -> Ret s wa = Ret sa wa -> Ret s wa = Ret sb wb ->
    wb = wa /\ alike sa sb /\ exists st, Ret s wa = Ret st wa /\ alike st sa
      /\ (ds_rc st = L8W8JWT_SUCCESS -> ds_res st = N.lor (ds_res sa) (ds_res sb))).
  { intros s N E E'. injection E as <-. injection E' as <- <-. split; [reflexivity|]. split; [unfold alike; auto|].
    exists s. split; [reflexivity|]. split; [unfold alike; auto|contradiction]. }
  unfold decode_body in *. rewrite <- E1 in H. rewrite <- E1' in H'. 
  minvas H as [r sg] w2 H1. minvas H' as [r' sg'] w2' H1'. rewrite H1 in H1'. injection H1' as <- <- <-. mstep H1.
  destruct (Z.eqb_spec r L8W8JWT_SUCCESS) as [->|N]; cbn [negb] in *.
  2:{ unfold mret in *. assert (w2 = wa) as <- by congruence. apply Same; auto. }
  rewrite <- E2 in H. rewrite <- E2' in H'.
  minvas H as [r2 res] w3 H2. minvas H' as [r2' res'] w3' H2'. rewrite H2 in H2'. injection H2' as <- <- <-. mstep H2.
  destruct (Z.eqb_spec r2 L8W8JWT_SUCCESS) as [->|N]; cbn [negb] in *.
  2:{ unfold mret in *. assert (w3 = wa) as <- by congruence. apply Same; auto. }
  minvas H as [r3 c1] w4 H3. minvas H' as [r3' c1'] w4' H3'. rewrite H3 in H3'. injection H3' as <- <- <-. mstep H3.
  destruct (Z.eqb_spec r3 L8W8JWT_SUCCESS) as [->|N]; cbn [negb] in *.
  2:{ unfold mret in *. assert (w4 = wa) as <- by congruence. apply Same; auto. discriminate. }
  minvas H as [r4 c2] w5 H4. minvas H' as [r4' c2'] w5' H4'. rewrite H4 in H4'. injection H4' as <- <- <-. mstep H4.
  destruct (Z.eqb_spec r4 L8W8JWT_SUCCESS) as [->|N]; cbn [negb] in *.
  2:{ unfold mret in *. assert (w5 = wa) as <- by congruence. apply Same; auto. discriminate. }
  minvas H as va w6 H5. minvas H' as vb w6' H5'. apply lift_inv in H5 as [H5 ->]. apply lift_inv in H5' as [H5' ->].
  inversion H; inversion H'; subst. clear H H' Same. split; [reflexivity|]. split; [unfold alike; auto|].
  unfold mbind, lift. rewrite (validate_divided _ _ _ _ _ _ _ _ _ _ Hd H5 H5').
  eexists. split; [reflexivity|]. unfold alike. cbn [ds_rc ds_segs ds_claims ds_res]. auto.
Qed.
(** l8w8jwt_decode and l8w8jwt_decode_raw around their common stretch of code: what is decided before it, and what is
    left to do after it, which does not look at the verdict. *)
Definition early (p : platform) (dp : dec_params) (vn cn ln : bool) (w : world) : option (res dec_res) :=
  if cn && negb ln then Some (Ret (DecRes L8W8JWT_NULL_ARG None None) w)
  else if negb (l8w8jwt_validate_decoding_params p (Some dp) =? L8W8JWT_SUCCESS)%Z
  then Some (Ret (DecRes (l8w8jwt_validate_decoding_params p (Some dp)) None None) w)
  else if negb vn then Some (Ret (DecRes L8W8JWT_NULL_ARG None None) w)
  else if w_alloc w (w_next w) then None
  else Some ((_ <- free_claims_buffer p None ;; mret (DecRes L8W8JWT_OUT_OF_MEM (Some NOT_VALID) None)) (w_no w)).
Definition rest (p : platform) (cn ln : bool) (rc : Z) (sg : segs) (b : chillbuff claim) : M (option (cptr * N)) :=
  let ok := (rc =? L8W8JWT_SUCCESS)%Z in
  _ <- free (s_ptr (sg_header sg)) ;;
  _ <- free (s_ptr (sg_payload sg)) ;;
  _ <- free (s_ptr (sg_signature sg)) ;;
  _ <- (if negb cn || negb ok then free_claims_buffer p (Some b) else mret tt) ;;
  mret (if ok && cn && ln then Some (CArr (Some (cb_id b)) (cb_elems b), cb_len b) else None).
Definition said (rc : Z) (v : N) : option N := Some (if (rc =? L8W8JWT_SUCCESS)%Z then v else NOT_VALID).
Lemma decode_around p e dp vn cn ln w :
  l8w8jwt_decode p e (Some dp) vn cn ln w
  = match early p dp vn cn ln w with
    | Some x => x
    | None => (st <- decode_body p e dp (CB (w_next w) []) ;;
               x <- rest p cn ln (ds_rc st) (ds_segs st) (ds_claims st) ;;
               mret (DecRes (ds_rc st) (said (ds_rc st) (ds_res st)) x)) (w_ok w)
    end.
Proof.
  unfold l8w8jwt_decode, early. destruct (cn && negb ln); [reflexivity|]. destruct (negb (_ =? _)%Z); [reflexivity|].
  destruct (negb vn); [reflexivity|]. unfold mbind at 1. rewrite cb_init_eq. destruct (w_alloc w (w_next w)); [|reflexivity].
  unfold mbind at 1 6. destruct (decode_body _ _ _ _ _) as [st w1|u]; [|reflexivity]. cbv zeta. unfold rest. cbv zeta.
  unfold mbind. destruct (free _ w1) as [x1 w2|u]; [|reflexivity]. destruct (free _ w2) as [x2 w3|u]; [|reflexivity].
  destruct (free _ w3) as [x3 w4|u]; [|reflexivity].
  destruct (negb cn || negb (ds_rc st =? L8W8JWT_SUCCESS)%Z); [|reflexivity].
  destruct (free_claims_buffer p _ w4) as [x4 w5|u]; reflexivity.
Qed.
Definition early_raw (p : platform) (dp : dec_params) (vn hn hl pn pl sn sl : bool) (w : world) : option (res raw_res) :=
  if negb vn || (hn && negb hl) || (pn && negb pl) || (sn && negb sl) then Some (Ret (RawRes L8W8JWT_NULL_ARG None None None None) w)
  else if negb (l8w8jwt_validate_decoding_params p (Some dp) =? L8W8JWT_SUCCESS)%Z
  then Some (Ret (RawRes (l8w8jwt_validate_decoding_params p (Some dp)) None None None None) w)
  else if w_alloc w (w_next w) then None
  else Some ((h <- give_or_free hn seg0 ;; q <- give_or_free pn seg0 ;; s <- give_or_free sn seg0 ;;
              _ <- free_claims_buffer p None ;; mret (RawRes L8W8JWT_OUT_OF_MEM (Some NOT_VALID) h q s)) (w_no w)).
Definition rest_raw (p : platform) (hn pn sn : bool) (sg : segs) (b : chillbuff claim) : M (option seg * option seg * option seg) :=
  h <- give_or_free hn (sg_header sg) ;;
  q <- give_or_free pn (sg_payload sg) ;;
  s <- give_or_free sn (sg_signature sg) ;;
  _ <- free_claims_buffer p (Some b) ;;
  mret (h, q, s).
Lemma decode_raw_around p e dp vn hn hl pn pl sn sl w :
  l8w8jwt_decode_raw p e (Some dp) vn hn hl pn pl sn sl w
  = match early_raw p dp vn hn hl pn pl sn sl w with
    | Some x => x
    | None => (st <- decode_body p e dp (CB (w_next w) []) ;;
               x <- rest_raw p hn pn sn (ds_segs st) (ds_claims st) ;;
               mret (RawRes (ds_rc st) (said (ds_rc st) (ds_res st)) (fst (fst x)) (snd (fst x)) (snd x))) (w_ok w)
    end.
Proof.
  unfold l8w8jwt_decode_raw, early_raw. destruct (_ || _ || _ || _); [reflexivity|]. destruct (negb (_ =? _)%Z); [reflexivity|].
  unfold mbind at 1. rewrite cb_init_eq. destruct (w_alloc w (w_next w)); [|reflexivity].
  rewrite decode_raw_body_eq. unfold mbind at 1 2 7. destruct (decode_body _ _ _ _ _) as [st w1|u]; [|reflexivity].
  unfold rest_raw, mbind, mret. destruct (give_or_free hn _ w1) as [x1 w2|u]; [|reflexivity]. destruct (give_or_free pn _ w2) as [x2 w3|u]; [|reflexivity].
  destruct (give_or_free sn _ w3) as [x3 w4|u]; [|reflexivity]. destruct (free_claims_buffer p _ w4) as [x4 w5|u]; reflexivity.
Qed.
Lemma early_same p dp dp' vn cn ln w : same_token dp dp' -> early p dp vn cn ln w = early p dp' vn cn ln w.
Proof. intros H. unfold early. rewrite (proj1 (same_token_steps p toy dp dp' H)). reflexivity. Qed.
Lemma early_raw_same p dp dp' vn hn hl pn pl sn sl w : same_token dp dp' -> early_raw p dp vn hn hl pn pl sn sl w = early_raw p dp' vn hn hl pn pl sn sl w.
Proof. intros H. unfold early_raw. rewrite (proj1 (same_token_steps p toy dp dp' H)). reflexivity. Qed.

(** ** C104 *)
(** What two calls say: [R] of the flags, or neither says any, or both that the token is not valid. *)
Definition verdicts (R : N -> N -> Prop) (o o' : option N) : Prop :=
  match o, o' with
  | Some v, Some v' => R v v'
  | None, None => True
  | _, _ => False
  end.
(** Asking for less: if the call with more checks has an outcome, so has the one with less, with the same code and
    claims and the same effect on the memory, and no flag that the other one has not raised. *)
Theorem C104_asking_less :
  forall p e more less vn cn ln w r w', asks_part less more ->
    l8w8jwt_decode p e (Some more) vn cn ln w = Ret r w' ->
    exists r', l8w8jwt_decode p e (Some less) vn cn ln w = Ret r' w'
    /\ dr_rc r' = dr_rc r /\ dr_claims r' = dr_claims r
    /\ verdicts (fun v v' => forall k, N.testbit v' k = true -> N.testbit v k = true) (dr_valid r) (dr_valid r').
Proof.
  intros p e more less vn cn ln w r w' Hp H. rewrite decode_around in *. rewrite <- (early_same p more less vn cn ln w (proj1 Hp)).
  destruct (early p more vn cn ln w) as [x|].
  { exists r. split; [exact H|]. split; [reflexivity|]. split; [reflexivity|]. unfold verdicts. destruct (dr_valid r); auto. }
  minvas H as st w1 H1. destruct (body_less _ _ _ _ _ _ _ _ Hp H1) as (st' & H2 & (E1 & E2 & E3) & K). mstep H2.
  rewrite <- E1, <- E2, <- E3. minvas H as x w2 H3. mstep H3. inversion H; subst. eexists. split; [reflexivity|].
  cbn [dr_rc dr_claims dr_valid verdicts said]. split; [reflexivity|]. split; [reflexivity|].
  destruct (Z.eqb_spec (ds_rc st) L8W8JWT_SUCCESS) as [E|_]; [exact (K E)|auto].
Qed.
Print Assumptions C104_asking_less.
Theorem C104_raw_asking_less :
  forall p e more less vn hn hl pn pl sn sl w r w', asks_part less more ->
    l8w8jwt_decode_raw p e (Some more) vn hn hl pn pl sn sl w = Ret r w' ->
    exists r', l8w8jwt_decode_raw p e (Some less) vn hn hl pn pl sn sl w = Ret r' w'
    /\ rr_rc r' = rr_rc r /\ rr_header r' = rr_header r /\ rr_payload r' = rr_payload r /\ rr_signature r' = rr_signature r
    /\ verdicts (fun v v' => forall k, N.testbit v' k = true -> N.testbit v k = true) (rr_valid r) (rr_valid r').
Proof.
  intros p e more less vn hn hl pn pl sn sl w r w' Hp H. rewrite decode_raw_around in *.
  rewrite <- (early_raw_same p more less vn hn hl pn pl sn sl w (proj1 Hp)).
  destruct (early_raw p more vn hn hl pn pl sn sl w) as [x|].
  { exists r. split; [exact H|]. do 4 (split; [reflexivity|]). unfold verdicts. destruct (rr_valid r); auto. }
  minvas H as st w1 H1. destruct (body_less _ _ _ _ _ _ _ _ Hp H1) as (st' & H2 & (E1 & E2 & E3) & K). mstep H2.
  rewrite <- E1, <- E2, <- E3. minvas H as x w2 H3. mstep H3. inversion H; subst. eexists. split; [reflexivity|].
  cbn [rr_rc rr_header rr_payload rr_signature rr_valid verdicts said]. do 4 (split; [reflexivity|]).
  destruct (Z.eqb_spec (ds_rc st) L8W8JWT_SUCCESS) as [E|_]; [exact (K E)|auto].
Qed.
Print Assumptions C104_raw_asking_less.
(** Asking in two calls: if both have an outcome, it is the same but for the verdict, and asking for everything at once
    comes to the same, with the flags of both. *)
Theorem C104_asking_twice :
  forall p e all a b vn cn ln w ra wa rb wb, divided all a b ->
    l8w8jwt_decode p e (Some a) vn cn ln w = Ret ra wa -> l8w8jwt_decode p e (Some b) vn cn ln w = Ret rb wb ->
    wb = wa /\ dr_rc rb = dr_rc ra /\ dr_claims rb = dr_claims ra
    /\ exists r, l8w8jwt_decode p e (Some all) vn cn ln w = Ret r wa
       /\ dr_rc r = dr_rc ra /\ dr_claims r = dr_claims ra
       /\ verdicts (fun va vb => dr_valid r = Some (N.lor va vb)) (dr_valid ra) (dr_valid rb).
Proof.
  intros p e all a b vn cn ln w ra wa rb wb Hd H H'. rewrite decode_around in *.
  rewrite <- (early_same p all a vn cn ln w (proj1 (proj1 Hd))) in H.
  rewrite <- (early_same p all b vn cn ln w (proj1 (proj1 (proj2 Hd)))) in H'.
  destruct (early p all vn cn ln w) as [x|].
  { rewrite H in H'. injection H' as <- <-. do 3 (split; [reflexivity|]). exists ra. split; [exact H|]. do 2 (split; [reflexivity|]).
    unfold verdicts. destruct (dr_valid ra); [rewrite N.lor_diag|]; auto. }
  minvas H as sa w1 H1. minvas H' as sb w1' H1'. destruct (body_divided _ _ _ _ _ _ _ _ _ _ _ Hd H1 H1')
    as (-> & (E1 & E2 & E3) & st & H2 & (F1 & F2 & F3) & K). mstep H2. rewrite F1, F2, F3. rewrite <- E1, <- E2, <- E3 in H'.
  minvas H as x w2 H3. minvas H' as x' w2' H3'. rewrite H3 in H3'. injection H3' as <- <-. mstep H3. inversion H; inversion H'; subst.
  cbn [dr_rc dr_claims dr_valid verdicts said]. do 3 (split; [reflexivity|]). eexists. split; [reflexivity|].
  cbn [dr_rc dr_claims dr_valid]. do 2 (split; [reflexivity|]). rewrite F1 in K. unfold said.
  destruct (Z.eqb_spec (ds_rc sa) L8W8JWT_SUCCESS) as [E|_]; [rewrite (K E); reflexivity|rewrite N.lor_diag; reflexivity].
Qed.
Print Assumptions C104_asking_twice.
Theorem C104_raw_asking_twice :
  forall p e all a b vn hn hl pn pl sn sl w ra wa rb wb, divided all a b ->
    l8w8jwt_decode_raw p e (Some a) vn hn hl pn pl sn sl w = Ret ra wa ->
    l8w8jwt_decode_raw p e (Some b) vn hn hl pn pl sn sl w = Ret rb wb ->
    wb = wa
    /\ exists r, l8w8jwt_decode_raw p e (Some all) vn hn hl pn pl sn sl w = Ret r wa
       /\ verdicts (fun va vb => rr_valid r = Some (N.lor va vb)) (rr_valid ra) (rr_valid rb)
       /\ forall x, x = ra \/ x = rb ->
            rr_rc x = rr_rc r /\ rr_header x = rr_header r /\ rr_payload x = rr_payload r /\ rr_signature x = rr_signature r.
Proof.
  intros p e all a b vn hn hl pn pl sn sl w ra wa rb wb Hd H H'. rewrite decode_raw_around in *.
  rewrite <- (early_raw_same p all a vn hn hl pn pl sn sl w (proj1 (proj1 Hd))) in H.
  rewrite <- (early_raw_same p all b vn hn hl pn pl sn sl w (proj1 (proj1 (proj2 Hd)))) in H'.
  destruct (early_raw p all vn hn hl pn pl sn sl w) as [x|].
  { rewrite H in H'. injection H' as <- <-. split; [reflexivity|]. exists ra. split; [exact H|].
    split; [unfold verdicts; destruct (rr_valid ra); [rewrite N.lor_diag|]; auto|]. intros x0 [-> | ->]; auto. }
  minvas H as sa w1 H1. minvas H' as sb w1' H1'. destruct (body_divided _ _ _ _ _ _ _ _ _ _ _ Hd H1 H1')
    as (-> & (E1 & E2 & E3) & st & H2 & (F1 & F2 & F3) & K). mstep H2. rewrite F1, F2, F3. rewrite <- E1, <- E2, <- E3 in H'.
  minvas H as x w2 H3. minvas H' as x' w2' H3'. rewrite H3 in H3'. injection H3' as <- <-. mstep H3. inversion H; inversion H'; subst.
  split; [reflexivity|]. eexists. split; [reflexivity|]. cbn [rr_valid verdicts said]. split.
  - rewrite F1 in K. unfold said.
    destruct (Z.eqb_spec (ds_rc sa) L8W8JWT_SUCCESS) as [E|_]; [rewrite (K E); reflexivity|rewrite N.lor_diag; reflexivity].
  - intros x0 [-> | ->]; cbn; auto.
Qed.
Print Assumptions C104_raw_asking_twice.
(** Hence a token is valid for all the checks exactly if it is for each half of them. *)
Corollary C104_valid_twice :
  forall p e all a b cn ln w, divided all a b ->
    let valid dp := exists r w', l8w8jwt_decode p e (Some dp) true cn ln w = Ret r w' /\ dr_rc r = L8W8JWT_SUCCESS /\ dr_valid r = Some L8W8JWT_VALID in
    valid all <-> valid a /\ valid b.
Proof.
  intros p e all a b cn ln w Hd valid. split.
  - intros (r & w' & H & Hrc & Hv).
    assert (G : forall x, asks_part x all -> valid x).
    { intros x Hx. destruct (C104_asking_less p e all x true cn ln w r w' Hx H) as (r' & H' & E & _ & V). rewrite Hv in V.
      exists r', w'. split; [exact H'|]. split; [congruence|]. unfold verdicts in V. destruct (dr_valid r') as [v'|]; [|contradiction].
      f_equal. apply N.bits_inj. intros k. unfold L8W8JWT_VALID in *. specialize (V k). rewrite N.bits_0 in *.
      destruct (N.testbit v' k); [discriminate V; reflexivity|reflexivity]. }
    split; apply G; apply Hd.
  - intros [(ra & wa & Ha & Ra & Va) (rb & wb & Hb & Rb & Vb)].
    destruct (C104_asking_twice p e all a b true cn ln w ra wa rb wb Hd Ha Hb) as (_ & _ & _ & r & H & E & _ & V).
    rewrite Va, Vb in V. exists r, wa. split; [exact H|]. split; [congruence|exact V].
Qed.
Print Assumptions C104_valid_twice.

(** Non-vacuous: a token that expired and names no starting time, in one call and in two. *)
Example C104_example :
  divided (time_params "{""exp"":990}" true true 0) (time_params "{""exp"":990}" true false 0) (time_params "{""exp"":990}" false true 0)
  /\ flags_of 1000 (time_params "{""exp"":990}" true true 0) = Some 48%N
  /\ flags_of 1000 (time_params "{""exp"":990}" true false 0) = Some 16%N
  /\ flags_of 1000 (time_params "{""exp"":990}" false true 0) = Some 32%N.
Proof.
  split; [|vm_compute; auto].
  assert (G : forall k, (k = 4 \/ k = 5 \/ (k <> 4 /\ k <> 5))%N) by (intros k; lia).
  assert (O : forall pl x y x' y' t k, k <> 4%N -> k <> 5%N -> request_for (time_params pl x y t) k = request_for (time_params pl x' y' t) k).
  { intros pl x y x' y' t k K4 K5. unfold request_for. destruct k as [|[[[[]|[]|]|[[]|[]|]|]|[[[]|[]|]|[[]|[]|]|]|]]; try reflexivity; lia. }
  split; [|split].
  - split; [vm_compute; auto 8|]. intros k. destruct (G k) as [->|[->|[K4 K5]]]; [left; reflexivity|right; reflexivity|left; apply O; assumption].
  - split; [vm_compute; auto 8|]. intros k. destruct (G k) as [->|[->|[K4 K5]]]; [right; reflexivity|left; reflexivity|left; apply O; assumption].
  - intros k. destruct (G k) as [->|[->|[K4 K5]]]; [left; reflexivity|right; reflexivity|left; apply O; assumption].
Qed.
