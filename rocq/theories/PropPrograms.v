(** * Properties C67, C68: the example programs *)
From Verif Require Import Base BaseProofs HeapProofs Util UtilProofs Claim Base64 SpecB64
  Base64EncProofs Base64EncApi Base64DecProofs Base64Api Jsmn Env Encode Decode SpecJson SpecJwa ClaimProofs UnescapeProofs
  EncodeProofs SignProofs EncodeTotal SpecEnc JsonProofs PropEncode DecodeProofs DecodeInv JsmnProofs ParseProofs
  PropClaim ReadProofs ValidateProofs JsmnJson JsmnSize PropVerify PropValidate PropLeak PropJson DecodeTotal DecodeOk PropSafe
  PropRoundTrip PropIssued PropTime Examples PropEncMemory.
From Coq Require Import ZifyBool ZifyNat ZifyN.
Ltac Zify.zify_post_hook ::= Z.div_mod_to_equations.
Local Opaque L8W8JWT_MAX_KEY_SIZE.

(** ** Notions *)
(** The program runs to its end: it does not run into undefined behaviour. *)
Definition ends {A} (m : M A) (w : world) : Prop := exists x w', m w = Ret x w'.
(** Nothing more and nothing less is allocated than before. *)
Definition same_heap (w w' : world) : Prop := forall i, w_live w' i = w_live w i.

(** ** Lemmas *)
Lemma literal_no_nul s : forallb (fun c => negb (is_nul c)) (lit s) = true -> no_nul (lit s).
Proof. intros H Hi. rewrite forallb_forall in H. specialize (H _ Hi). discriminate. Qed.
Lemma literal_given s : (0 <? length (lit s))%nat = true -> given (literal s) (literal_length s) (lit s).
Proof.
  intros H. unfold literal, literal_length, clit. cbn [given]. destruct (N.eqb_spec (N.of_nat (length (lit s))) 0); [lia|].
  rewrite app_length. split; [lia|]. rewrite Nat2N.id. symmetry. apply firstn_app_exact.
Qed.
Lemma key_caller key : caller_key (Ptr None (key ++ [x00])) (N.of_nat (length key)) key.
Proof.
  exists None, (key ++ [x00]). split; [reflexivity|]. rewrite app_length. split; [lia|].
  rewrite Nat2N.id. symmetry. apply firstn_app_exact.
Qed.
Lemma key_literal_given key : N.of_nat (length key) <> 8192%N -> key_given (Ptr None (key ++ [x00])) (N.of_nat (length key)).
Proof. intros H. right. exists key. split; [apply key_caller|]. intros E. contradiction. Qed.
Lemma example_readable p alg key now1 now2 : enc_readable p (example_request alg key now1 now2).
Proof.
  assert (Pl : forall s, forallb (fun c => (b2n c <? 128)%N) s = true -> Forall (plain p) s)
    by (intros; apply EncodeTotal.plain_name; auto).
  split; [|split; [|split; [|split; [|split]]]].
  - split; [vm_compute; discriminate|]. eexists. split; [|].
    + eapply Sized_cons; [apply literal_given|apply literal_given|apply Pl|intros _; apply Pl|apply Sized_nil]; vm_compute; reflexivity.
    + vm_compute. discriminate.
  - split; [vm_compute; discriminate|]. eexists. split; [|].
    + repeat (eapply Sized_cons; [apply literal_given|apply literal_given|apply Pl|intros _; apply Pl|]; [vm_compute; reflexivity..|]).
      apply Sized_nil.
    + vm_compute. discriminate.
  - right. eexists. split; [apply literal_given; vm_compute; reflexivity|]. split; [apply Pl; vm_compute; reflexivity|vm_compute; discriminate].
  - right. eexists. split; [apply literal_given; vm_compute; reflexivity|]. split; [apply Pl; vm_compute; reflexivity|vm_compute; discriminate].
  - right. eexists. split; [apply literal_given; vm_compute; reflexivity|]. split; [apply Pl; vm_compute; reflexivity|vm_compute; discriminate].
  - left. reflexivity.
Qed.
Lemma text_at_cstr s rest : no_nul s -> text_at (s ++ x00 :: rest) = OK s.
Proof.
  intros H. unfold text_at. rewrite strlen_cstr by exact H. cbn [ubind]. rewrite Nat2N.id. f_equal. apply firstn_app_exact.
Qed.
Lemma text_at_nul m : exists s, text_at (m ++ [x00]) = OK s /\ (no_nul m -> s = m).
Proof.
  assert (A : exists a rest, m ++ [x00] = a ++ x00 :: rest /\ no_nul a).
  { induction m as [|c m (a & rest & E & H)]; [exists [], []; split; [reflexivity|intros []]|].
    destruct (is_nul c) eqn:Ec.
    - apply is_nul_true in Ec. subst c. exists [], (m ++ [x00]). split; [reflexivity|intros []].
    - exists (c :: a), rest. cbn [app]. rewrite E. split; [reflexivity|]. intros [->|Hi]; [discriminate Ec|exact (H Hi)]. }
  destruct A as (a & rest & E & H). exists a. split; [rewrite E; apply text_at_cstr, H|].
  intros Hm. pose proof (strlen_cstr a rest H) as L1. pose proof (strlen_cstr m [] Hm) as L2. rewrite <- E in L1.
  rewrite L1 in L2. inversion L2 as [L]. apply (f_equal (firstn (length a))) in E. rewrite firstn_app_exact in E.
  apply Nat2N.inj in L. rewrite L, firstn_app_exact in E. auto.
Qed.

(** ** C67: the example encoders *)
(** The program runs to its end exactly if encode succeeds; then nothing stays allocated and the text
    printed is the token. Encode itself always returns. *)
Theorem C67_encode_program_partial :
  forall p e alg key now1 now2 w,
    (6 <= p_size_bits p)%N -> wf w ->
    let encode := l8w8jwt_encode p e (Some (example_request alg key now1 now2)) in
    (ends (example_encode p e alg key now1 now2) w <->
       exists r w1, encode w = Ret r w1 /\ er_rc r = L8W8JWT_SUCCESS)
    /\ (forall rc s w', example_encode p e alg key now1 now2 w = Ret (rc, s) w' ->
          rc = L8W8JWT_SUCCESS /\ same_heap w w'
          /\ (grows w -> exists r w1 id, encode w = Ret r w1 /\ er_out r = Some (Ptr (Some id) (s ++ [x00]))
                                     /\ er_len r = Some (N.of_nat (length s))))
    /\ (N.of_nat (length key) <> 8192%N -> lawful_keys e -> p_small_stack p = false \/ allocs w -> ends encode w).
Proof.
  intros p e alg key now1 now2 w Hp Hwf encode. split; [|split].
  3:{ intros Hk Hl Hb. apply (C49_encode_memory_safe_partial p e); auto; [apply example_readable|apply key_literal_given; exact Hk]. }
  - split.
    + intros ([rc s] & w' & H). unfold example_encode in H. minvas H as r w1 He. fold encode in He.
      exists r, w1. split; [exact He|].
      apply encode_inv in He as [(Hrc & Ho & _ & _)|(Hrc & _)]; auto.
      exfalso. destruct Ho as [Ho|Ho]; rewrite Ho in H; minvas H as q w2 Hq; [discriminate Hq|].
      inversion Hq; subst. minvas H as s2 w3 Hs. discriminate Hs.
    + intros (r & w1 & He & Hrc). pose proof He as He'. unfold encode in He'.
      apply encode_inv in He' as [(Hn & _)|(_ & _ & id & t & Ho & _ & _ & _ & Hl & _)]; auto; [contradiction|].
      unfold ends, example_encode. fold encode. unfold mbind at 1. rewrite He, Ho. unfold mbind at 1. unfold mret at 1.
      unfold mbind at 1. unfold print_string. rewrite Hl, Nat.eqb_refl.
      destruct (text_at_nul t) as (s & -> & _). cbn [lift]. unfold mbind at 1. cbn [free].
      rewrite free_id_eq by (rewrite Hl, Nat.eqb_refl; reflexivity). do 2 eexists. reflexivity.
  - intros rc s w' H. unfold example_encode in H. minvas H as r w1 He. pose proof He as He'.
    apply encode_inv in He as [(Hn & Ho & _ & _)|(Hrc & _ & id & t & Ho & Hlen & Hid & _ & Hl & _ & Ht)]; auto.
    { exfalso. destruct Ho as [Ho|Ho]; rewrite Ho in H; minvas H as q w2 Hq; [discriminate Hq|].
      inversion Hq; subst. minvas H as s2 w3 Hs. discriminate Hs. }
    rewrite Ho in H. minvas H as q w2 Hq. inversion Hq; subst q w2. minvas H as s2 w3 Hs.
    unfold print_string in Hs. rewrite Hl, Nat.eqb_refl in Hs. destruct (text_at_nul t) as (s0 & Es & Hs0). rewrite Es in Hs.
    cbn [lift] in Hs. inversion Hs; subst s2 w3. minvas H as u w4 Hf. cbn [free] in Hf. apply free_id_inv in Hf as [_ ->].
    inversion H; subst. split; [exact Hrc|]. split.
    + intros i. cbn [w_free w_live]. unfold upd_live. destruct (Nat.eqb_spec i id) as [->|Hi].
      * symmetry. apply Hwf. lia.
      * rewrite Hl. destruct (Nat.eqb_spec i id); [contradiction|reflexivity].
    + intros Hg. exists r, w1, id. split; [exact He'|]. assert (En : no_nul t).
      { destruct (Ht Hg) as (ht & pt & sig & _ & _ & _ & _ & ->). unfold b64url, no_nul. rewrite !in_app_iff.
        intros [K|[[K|[]]|[K|[[K|[]]|K]]]]; try discriminate K; revert K; apply unpadded_clean. }
      rewrite (Hs0 En). auto.
Qed.
Print Assumptions C67_encode_program_partial.

(** ** C67: the example decoders *)
(** What l8w8jwt_validate_decoding_params lets pass of the arguments of a program. *)
Definition accepted_arguments (p : platform) (name : Z) (jwt key : bytes) : Prop :=
  jwt <> [] /\ key <> [] /\ (N.of_nat (length key) <= 8192)%N /\ (name = L8W8JWT_ALG_ED25519 -> p_eddsa p = true).
Lemma accepted_spec p name jwt key :
  l8w8jwt_validate_decoding_params p (Some (example_dp name jwt key)) = L8W8JWT_SUCCESS <-> accepted_arguments p name jwt key.
Proof.
  unfold l8w8jwt_validate_decoding_params, accepted_arguments, example_dp, example_params.
  cbn [dp_jwt dp_verification_key dp_jwt_length dp_verification_key_length dp_alg is_null orb].
  change L8W8JWT_MAX_KEY_SIZE with 8192%N. unfold example_alg.
  change L8W8JWT_ALG_HS256 with 0%Z. change L8W8JWT_ALG_ED25519 with 13%Z. change L8W8JWT_SUCCESS with 0%Z.
  destruct jwt as [|c jwt]; [cbn; split; [discriminate|intros (H & _); contradiction]|].
  destruct key as [|d key]; [cbn; split; [discriminate|intros (_ & H & _); contradiction]|].
  remember (N.of_nat (length (d :: key))) as n. remember (N.of_nat (length (c :: jwt))) as m.
  assert (n <> 0)%N by (subst n; cbn [length]; lia). assert (m <> 0)%N by (subst m; cbn [length]; lia).
  destruct (N.eqb_spec m 0); [contradiction|]. destruct (N.eqb_spec n 0); [contradiction|]. cbn [orb].
  destruct (N.ltb_spec 8192 n); [split; [discriminate|intros (_ & _ & H2 & _); lia]|].
  destruct (p_eddsa p); cbn [negb andb].
  - split; [intros _; repeat split; auto; discriminate|reflexivity].
  - destruct (Z.eqb_spec name 0) as [->|]; [split; [intros _; repeat split; auto; discriminate|reflexivity]|].
    destruct (Z.eqb_spec name 13) as [->|]; [split; [discriminate|intros (_ & _ & _ & K); discriminate (K eq_refl)]|].
    split; [intros _; repeat split; auto; try discriminate; intros; contradiction|reflexivity].
Qed.
Lemma decode_gives_verdict p e name jwt key c w r w' : accepted_arguments p name jwt key ->
  l8w8jwt_decode p e (Some (example_dp name jwt key)) true c c w = Ret r w' -> exists v, dr_valid r = Some v.
Proof.
  intros Ha H. apply accepted_spec in Ha. unfold l8w8jwt_decode in H. rewrite Ha in H.
  replace (c && negb c) with false in H by (destruct c; reflexivity). cbn [negb] in H.
  change (negb (L8W8JWT_SUCCESS =? L8W8JWT_SUCCESS)%Z) with false in H.
  minvas H as o w1 H1. destruct o as [b|].
  - minvas H as st w2 H2. minvas H as u1 w3 H3. minvas H as u2 w4 H4. minvas H as u3 w5 H5. minvas H as u4 w6 H6.
    inversion H; subst. eexists. reflexivity.
  - minvas H as u w2 H2. inversion H; subst. eexists. reflexivity.
Qed.
Lemma counted_lost p e dp w r w' c : wf w -> l8w8jwt_decode p e (Some dp) true c c w = Ret r w' ->
  grows w -> token_counted_right p e dp -> exists own, handed (dr_claims r) own /\ adds w w' own.
Proof.
  intros Hwf H Hg Hc. destruct (decode_own _ _ _ _ _ _ _ _ _ Hwf H) as (own & lost & Hh & A & G).
  rewrite G, app_nil_r in A; [eauto|exact Hg|]. intros dp' E. injection E as <-. apply counted_released, Hc.
Qed.
Lemma adds_nil_same w w' : adds w w' [] -> same_heap w w'.
Proof.
  intros (_ & _ & _ & H) i. specialize (H i). cbn [In] in H.
  destruct (w_live w' i), (w_live w i); intuition congruence.
Qed.
Lemma example_requests p e name jwt key :
  (I64_MIN + 60 <= e_time e <= I64_MAX - 60)%Z -> requests_ok p e (example_dp name jwt key).
Proof.
  intros Ht. unfold requests_ok, example_dp, example_params.
  cbn [dp_validate_sub dp_validate_sub_length dp_validate_aud dp_validate_aud_length dp_validate_iss dp_validate_iss_length
       dp_validate_jti dp_validate_jti_length].
  split; [right; eexists; apply literal_given; vm_compute; reflexivity|]. split; [left; reflexivity|].
  split; [right; eexists; apply literal_given; vm_compute; reflexivity|]. split; [left; reflexivity|]. split.
  - unfold times_ok. cbn. revert Ht. unfold I64_MIN, I64_MAX. lia.
  - unfold typ_ok, example_typ. cbn [dp_validate_typ]. destruct (name =? L8W8JWT_ALG_ED25519)%Z; [right|left; reflexivity].
    exists None, (lit "jwt"), []. split; [reflexivity|]. split; [apply literal_no_nul; reflexivity|].
    apply EncodeTotal.plain_name. reflexivity.
Qed.
Lemma example_text p name jwt key : no_nul jwt -> (N.of_nat (length jwt) < size_mod p)%N -> c_text p (example_dp name jwt key) jwt.
Proof. intros H1 H2. split; [exists None, []; reflexivity|]. split; [exact H1|]. split; [reflexivity|exact H2]. Qed.

(** With arguments that are rejected the program prints an uninitialised variable. Otherwise it runs
    into undefined behaviour only if decode does, which it does not under the conditions of C23. All is
    given back, if no push fails and the tokens are counted right (C32), except by the HS256 program
    when the token decodes: it asks for the claims and does not free them. *)
Theorem C67_decode_program_partial :
  forall p e name jwt key w,
    wf w ->
    let dp := example_dp name jwt key in
    let hs256 := (name =? L8W8JWT_ALG_HS256)%Z in
    (~ accepted_arguments p name jwt key -> example_decode p e name jwt key w = Undef UninitUse)
    /\ (accepted_arguments p name jwt key ->
          (forall u, example_decode p e name jwt key w = Undef u <-> l8w8jwt_decode p e (Some dp) true hs256 hs256 w = Undef u)
          /\ (uses_jsmn e -> (32 <= p_size_bits p)%N -> p_small_stack p = false \/ allocs w ->
              p_cb_init_clears p = true \/ w_alloc w (w_next w) = true ->
              no_nul jwt -> (N.of_nat (length jwt) < size_mod p)%N -> (Z.of_nat (length jwt) <= INT_MAX)%Z ->
              N.of_nat (length key) <> 8192%N -> (I64_MIN + 60 <= e_time e <= I64_MAX - 60)%Z ->
              tame_token p e dp jwt -> ends (example_decode p e name jwt key) w))
    /\ (forall rc v w', example_decode p e name jwt key w = Ret (rc, v) w' -> grows w -> token_counted_right p e dp ->
          (name = L8W8JWT_ALG_HS256 -> rc = L8W8JWT_SUCCESS -> exists i, w_live w i = false /\ w_live w' i = true)
          /\ (name <> L8W8JWT_ALG_HS256 \/ rc <> L8W8JWT_SUCCESS -> same_heap w w')).
Proof.
  intros p e name jwt key w Hwf dp hs256. split; [|split; [intros Ha; split|]].
  - intros Hn. unfold example_decode. fold hs256. fold dp. unfold mbind at 1. unfold l8w8jwt_decode.
    replace (hs256 && negb hs256) with false by (destruct hs256; reflexivity).
    destruct (Z.eqb_spec (l8w8jwt_validate_decoding_params p (Some dp)) L8W8JWT_SUCCESS) as [E|E].
    + exfalso. apply Hn. apply accepted_spec. exact E.
    + reflexivity.
  - intros u. unfold example_decode. fold hs256 dp. unfold mbind at 1.
    destruct (l8w8jwt_decode p e (Some dp) true hs256 hs256 w) as [r w1|u'] eqn:E; [|split; intros K; injection K as ->; reflexivity].
    destruct (decode_gives_verdict _ _ _ _ _ _ _ _ _ Ha E) as (v & Ev). rewrite Ev.
    split; intros K; discriminate K.
  - intros Hj Hp Hb Hi Hz Hs Hl Hk Ht Htame.
    destruct (C23_decode_defined_partial p e dp jwt true hs256 hs256 w) as (r & w' & E); auto.
    { apply example_text; auto. } { apply key_literal_given. exact Hk. } { apply example_requests. exact Ht. }
    destruct (decode_gives_verdict _ _ _ _ _ _ _ _ _ Ha E) as (v & Ev).
    unfold ends, example_decode. fold hs256 dp. unfold mbind at 1. rewrite E, Ev. do 2 eexists. reflexivity.
  - intros rc v w' H Hg Hc. unfold example_decode in H. fold hs256 dp in H. minvas H as r w1 H1.
    minvas H as v1 w2 H2. apply lift_inv in H2 as [_ ->]. inversion H; subst. clear H.
    destruct (counted_lost _ _ _ _ _ _ _ Hwf H1 Hg Hc) as (own & Hh & A). split.
    + intros En Hrc. apply decode_success in H1 as (dp' & st & w2 & E & _ & _ & _ & _ & _ & _ & Hcl); [|exact Hrc].
      replace hs256 with true in Hcl by (unfold hs256; rewrite En; reflexivity). cbn [andb] in Hcl. rewrite Hcl in Hh.
      destruct Hh as (id & cs & _ & _ & _ & ->). exists id.
      split; [eapply adds_fresh; [exact Hwf|exact A|left; reflexivity]|eapply adds_live; [exact A|left; reflexivity]].
    + intros Hn. apply adds_nil_same. assert (E : dr_claims r = None).
      { destruct (Z.eqb_spec (dr_rc r) L8W8JWT_SUCCESS) as [Hrc|Hrc].
        - destruct Hn as [Hn|Hn]; [|contradiction].
          apply decode_success in H1 as (dp' & st & w2 & E & _ & _ & _ & _ & _ & _ & Hcl); [|exact Hrc].
          replace hs256 with false in Hcl by (unfold hs256; symmetry; apply Z.eqb_neq, Hn). exact Hcl.
        - eapply decode_failure; eauto. }
      rewrite E in Hh. cbn in Hh. subst own. exact A.
Qed.
Print Assumptions C67_decode_program_partial.

Lemma raw_gives p e dp w r w' : l8w8jwt_validate_decoding_params p (Some dp) = L8W8JWT_SUCCESS ->
  l8w8jwt_decode_raw p e (Some dp) true true true true true true true w = Ret r w' ->
  exists h pl s v, rr_header r = Some h /\ rr_payload r = Some pl /\ rr_signature r = Some s /\ rr_valid r = Some v.
Proof.
  intros Ha H. unfold l8w8jwt_decode_raw in H. rewrite Ha in H. cbn [negb andb orb] in H.
  change (negb (L8W8JWT_SUCCESS =? L8W8JWT_SUCCESS)%Z) with false in H.
  minvas H as o w1 H1. minvas H as x w2 H2. destruct x as [[[rc sg] res] b].
  minvas H as h w3 H3. minvas H as pl w4 H4. minvas H as s w5 H5. minvas H as u w6 H6. inversion H; subst.
  inversion H3; subst. inversion H4; subst. inversion H5; subst. do 4 eexists. repeat split; reflexivity.
Qed.
Lemma raw_nv_gives p dp w r w' : l8w8jwt_validate_decoding_params p (Some dp) = L8W8JWT_SUCCESS ->
  l8w8jwt_decode_raw_no_validation p (Some dp) true true true true true true w = Ret r w' ->
  exists h pl s, rr_header r = Some h /\ rr_payload r = Some pl /\ rr_signature r = Some s.
Proof.
  intros Ha H. unfold l8w8jwt_decode_raw_no_validation in H. rewrite Ha in H. cbn [negb andb orb] in H.
  change (negb (L8W8JWT_SUCCESS =? L8W8JWT_SUCCESS)%Z) with false in H.
  minvas H as x w2 H2. destruct x as [rc sg].
  minvas H as h w3 H3. minvas H as pl w4 H4. minvas H as s w5 H5. inversion H; subst.
  inversion H3; subst. inversion H4; subst. inversion H5; subst. do 3 eexists. repeat split; reflexivity.
Qed.
Lemma print_quiet q w s w' : print_string q w = Ret s w' -> w' = w.
Proof.
  unfold print_string. destruct q as [|[id|] m]; [discriminate| |].
  - destruct (w_live w id); [|discriminate]. intros H. apply lift_inv in H as [_ ->]. reflexivity.
  - intros H. apply lift_inv in H as [_ ->]. reflexivity.
Qed.
Lemma free_three w0 w l h pl s : wf w0 -> seg_heap h -> seg_heap pl -> seg_heap s ->
  adds w0 w (seg_blocks h ++ seg_blocks pl ++ seg_blocks s ++ l) ->
  exists w1 w2 w3, free (s_ptr h) w = Ret tt w1 /\ free (s_ptr pl) w1 = Ret tt w2 /\ free (s_ptr s) w2 = Ret tt w3 /\ adds w0 w3 l.
Proof.
  intros Hwf H1 H2 H3 A.
  destruct (free_seg_ok w0 w h [] _ Hwf H1 A) as (w1 & F1 & A1).
  destruct (free_seg_ok w0 w1 pl [] _ Hwf H2 A1) as (w2 & F2 & A2).
  destruct (free_seg_ok w0 w2 s [] _ Hwf H3 A2) as (w3 & F3 & A3). exists w1, w2, w3. auto.
Qed.

Lemma raw_body_segs p e dp claims w st w' : decode_raw_body p e dp claims w = Ret st w' ->
  exists rc w1, l8w8jwt_decode_segments p dp w = Ret (rc, ds_segs st) w1.
Proof.
  unfold decode_raw_body. intros H. minvas H as x w1 H1. destruct x as [rc sg]. exists rc, w1. rewrite H1.
  cut (ds_segs st = sg); [congruence|]. clear H1.
  repeat match type of H with
  | (if ?b then _ else _) ?w = _ => destruct b
  | mret _ ?w = _ => inversion H; subst; reflexivity
  | (let '(_, _) := ?x in _) ?w = _ => destruct x
  | mbind _ _ _ = _ => let x := fresh "x" in let w2 := fresh "w" in let Hx := fresh "H" in minvas H as x w2 Hx
  end.
Qed.
Lemma text_at_in m : In x00 m -> exists s, text_at m = OK s.
Proof.
  intros H. apply in_split in H as (a & b & ->). destruct (text_at_nul a) as (s & E & _).
  unfold text_at in *. destruct (strlen (a ++ [x00])) as [n|] eqn:En; [|discriminate E].
  apply strlen_inv in En as (a' & r & E1 & H1 & _). assert (E2 : a ++ x00 :: b = a' ++ x00 :: r ++ b).
  { change (x00 :: b) with ([x00] ++ b). rewrite app_assoc, E1, <- app_assoc. reflexivity. }
  rewrite E2, strlen_cstr by exact H1. eexists. reflexivity.
Qed.
Lemma b64_decodes_nul t o tail : b64_decodes t o tail -> In x00 (o ++ tail).
Proof.
  intros (_ & Hb & lf & Hd & ->). pose proof (dec_room _ _ _ _ _ eq_refl Hb Hd) as L.
  apply in_or_app. right. apply in_or_app. right. destruct (_ - _)%nat eqn:E; [lia|]. left. reflexivity.
Qed.
Lemma print_seg w id m : w_live w id = true -> In x00 m -> exists s, print_string (Ptr (Some id) m) w = Ret s w.
Proof. intros Hl Hm. cbn [print_string]. rewrite Hl. destruct (text_at_in m Hm) as (s & ->). exists s. reflexivity. Qed.

(** ** C67: the RS256 decoder, which calls the three functions *)
(** When it runs to its end, it has given back what it got (same conditions). It does run to its end if
    in addition the three parts of the token decode and memory suffices; the next theorem shows that
    these are needed. *)
Theorem C67_rs256_program_partial :
  forall p e jwt key w,
    wf w ->
    let dp := example_dp L8W8JWT_ALG_RS256 jwt key in
    (forall x w', example_decode_rs256 p e jwt key w = Ret x w' -> grows w -> token_counted_right p e dp -> same_heap w w')
    /\ (forall h pl s hj ht pj pt sig st,
          accepted_arguments p L8W8JWT_ALG_RS256 jwt key ->
          uses_jsmn e -> (32 <= p_size_bits p)%N -> allocs w ->
          no_nul jwt -> (N.of_nat (length jwt) < size_mod p)%N -> (Z.of_nat (length jwt) <= INT_MAX)%Z ->
          N.of_nat (length key) <> 8192%N -> (I64_MIN + 60 <= e_time e <= I64_MAX - 60)%Z ->
          tame_token p e dp jwt ->
          jwt = h ++ lit "." ++ pl ++ lit "." ++ s -> no_dot h -> no_dot pl ->
          b64_decodes h hj ht -> b64_decodes pl pj pt -> b64_decodes s sig st ->
          ends (example_decode_rs256 p e jwt key) w).
Proof.
  intros p e jwt key w Hwf dp. split.
  - intros x w' H Hg Hc. unfold example_decode_rs256 in H. cbv zeta in H. fold dp in H.
    minvas H as r1 w1 H1. minvas H as v1 w1' Hv1. apply lift_inv in Hv1 as [Hv1 ->].
    assert (Ev : l8w8jwt_validate_decoding_params p (Some dp) = L8W8JWT_SUCCESS).
    { destruct (Z.eqb_spec (l8w8jwt_validate_decoding_params p (Some dp)) L8W8JWT_SUCCESS) as [E|E]; [exact E|exfalso].
      unfold l8w8jwt_decode in H1. cbn [andb] in H1. apply Z.eqb_neq in E. rewrite E in H1. inversion H1; subst. discriminate Hv1. }
    destruct (counted_lost _ _ _ _ _ _ _ Hwf H1 Hg Hc) as (own & Hh & A1).
    assert (E1 : dr_claims r1 = None).
    { destruct (Z.eqb_spec (dr_rc r1) L8W8JWT_SUCCESS) as [Hrc|Hrc].
      - apply decode_success in H1 as (dp' & st & w2 & E & _ & _ & _ & _ & _ & _ & Hcl); [exact Hcl|exact Hrc].
      - eapply decode_failure; eauto. }
    rewrite E1 in Hh. cbn in Hh. subst own. pose proof (adds_wf _ _ _ A1 Hwf) as Hwf1.
    minvas H as r2 w2 H2. destruct (raw_nv_gives _ _ _ _ _ Ev H2) as (h2 & p2 & s2 & F1 & F2 & F3).
    apply decode_raw_nv_own in H2 as [A2 R2]; [|exact Hwf1].
    assert (S1 : seg_heap h2) by (apply R2; auto). assert (S2 : seg_heap p2) by (apply R2; auto).
    assert (S3 : seg_heap s2) by (apply R2; auto).
    unfold handed_raw in A2. rewrite F1, F2, F3 in A2, H. cbn [handed_seg seg_var] in A2, H.
    minvas H as t1 w3 P1. apply print_quiet in P1 as ->. minvas H as t2 w3 P2. apply print_quiet in P2 as ->.
    minvas H as u1 w3 G1. minvas H as u2 w4 G2. minvas H as u3 w5 G3.
    apply (free_seg_inv w1 w2 h2 [] _ _ _ Hwf1 S1 A2) in G1. cbn [app] in G1.
    apply (free_seg_inv w1 w3 p2 [] _ _ _ Hwf1 S2 G1) in G2. cbn [app] in G2.
    rewrite <- (app_nil_r (seg_blocks s2)) in G2.
    apply (free_seg_inv w1 w4 s2 [] _ _ _ Hwf1 S3 G2) in G3. cbn [app] in G3.
    pose proof (adds_wf _ _ _ G3 Hwf1) as Hwf5.
    assert (Hg5 : grows w5).
    { intros k. destruct A1 as ((_ & E1' & _) & _). destruct G3 as ((_ & E2' & _) & _). rewrite E2', E1'. apply Hg. }
    minvas H as r3 w6 H3. destruct (raw_gives _ _ _ _ _ _ Ev H3) as (h3 & p3 & s3 & v & K1 & K2 & K3 & K4).
    apply decode_raw_own in H3 as (lost & A3 & R3 & G); [|exact Hwf5].
    rewrite G, app_nil_r in A3; [|exact Hg5|intros dp' E; injection E as <-; apply counted_released, Hc].
    assert (T1 : seg_heap h3) by (apply R3; auto). assert (T2 : seg_heap p3) by (apply R3; auto).
    assert (T3 : seg_heap s3) by (apply R3; auto).
    unfold handed_raw in A3. rewrite K1, K2, K3 in A3, H. cbn [handed_seg seg_var] in A3, H.
    minvas H as v3 w7 P0. apply lift_inv in P0 as [_ ->].
    minvas H as t3 w7 P3. apply print_quiet in P3 as ->. minvas H as t4 w7 P4. apply print_quiet in P4 as ->.
    minvas H as u4 w7 L1. minvas H as u5 w8 L2. minvas H as u6 w9 L3.
    apply (free_seg_inv w5 w6 h3 [] _ _ _ Hwf5 T1 A3) in L1. cbn [app] in L1.
    apply (free_seg_inv w5 w7 p3 [] _ _ _ Hwf5 T2 L1) in L2. cbn [app] in L2.
    rewrite <- (app_nil_r (seg_blocks s3)) in L2.
    apply (free_seg_inv w5 w8 s3 [] _ _ _ Hwf5 T3 L2) in L3. cbn [app] in L3.
    unfold mret in H. assert (w9 = w') by congruence. subst w9. intros i.
    rewrite (adds_nil_same _ _ L3), (adds_nil_same _ _ G3), (adds_nil_same _ _ A1). reflexivity.
  - intros h pl s hj ht pj pt sig st Ha Hj Hp Hal Hz Hsz Hl Hk Ht Htame -> N1 N2 D1 D2 D3.
    set (j := h ++ lit "." ++ pl ++ lit "." ++ s) in *.
    assert (Hcx : c_text p dp j) by (apply example_text; auto).
    assert (Hkg : key_given (dp_verification_key dp) (dp_verification_key_length dp)) by (apply key_literal_given; exact Hk).
    assert (Hrq : requests_ok p e dp) by (apply example_requests; exact Ht).
    assert (Ev : l8w8jwt_validate_decoding_params p (Some dp) = L8W8JWT_SUCCESS) by (apply accepted_spec; exact Ha).
    unfold ends, example_decode_rs256. cbv zeta. fold dp.
    destruct (C23_decode_defined_partial p e dp j true false false w) as (r1 & w1 & H1); auto; [right; auto|right; auto|].
    destruct (decode_gives_verdict _ _ _ _ _ _ _ _ _ Ha H1) as (v1 & Ev1).
    mstep H1. rewrite Ev1. unfold mbind at 1. cbn [print_verdict lift].
    destruct (decode_own _ _ _ _ _ _ _ _ _ Hwf H1) as (own & lost & _ & A1 & _).
    pose proof (adds_wf _ _ _ A1 Hwf) as Hwf1.
    assert (Hal1 : allocs w1) by (intros k; destruct A1 as ((E & _) & _); rewrite E; apply Hal).
    (* without validation *)
    destruct (decode_segments_ok p dp h pl s hj ht pj pt sig st w1 Hwf1 Hal1 Hcx N1 N2 D1 D2 D3)
      as (i1 & i2 & i3 & w2 & Hsg & Hwf2 & Hal2 & _).
    pose proof (decode_segments_inv _ _ _ _ _ _ Hwf1 Hsg) as (A2 & (S1 & S2 & S3) & _).
    unfold segs_blocks in A2. cbn [sg_header sg_payload sg_signature] in A2, S1, S2, S3.
    assert (H2 : l8w8jwt_decode_raw_no_validation p (Some dp) true true true true true true w1
      = Ret (RawRes L8W8JWT_SUCCESS None (Some (Seg (Ptr (Some i1) (hj ++ ht)) (N.of_nat (length hj))))
               (Some (Seg (Ptr (Some i2) (pj ++ pt)) (N.of_nat (length pj))))
               (Some (Seg (Ptr (Some i3) (sig ++ st)) (N.of_nat (length sig))))) w2).
    { unfold l8w8jwt_decode_raw_no_validation. rewrite Ev. cbn [negb andb orb].
      change (negb (L8W8JWT_SUCCESS =? L8W8JWT_SUCCESS)%Z) with false. mstep Hsg. reflexivity. }
    unfold mbind at 1. rewrite H2. cbn [rr_header rr_payload rr_signature seg_var s_ptr]. unfold mbind at 1.
    destruct (print_seg w2 i1 (hj ++ ht)) as (t1 & ->);
      [eapply adds_live; [exact A2|left; reflexivity]|eapply b64_decodes_nul; exact D1|].
    unfold mbind at 1. destruct (print_seg w2 i2 (pj ++ pt)) as (t2 & ->);
      [eapply adds_live; [exact A2|right; left; reflexivity]|eapply b64_decodes_nul; exact D2|].
    rewrite <- (app_nil_r (seg_blocks (Seg (Ptr (Some i3) _) _))) in A2.
    destruct (free_three w1 w2 [] _ _ _ Hwf1 S1 S2 S3 A2) as (x1 & x2 & w3 & F1 & F2 & F3 & A3).
    cbn [s_ptr] in F1, F2, F3. unfold mbind at 1. rewrite F1. unfold mbind at 1. rewrite F2. unfold mbind at 1. rewrite F3.
    pose proof (adds_wf _ _ _ A3 Hwf1) as Hwf3.
    assert (Hal3 : allocs w3) by (intros k; destruct A3 as ((E & _) & _); rewrite E; apply Hal1).
    (* with validation *)
    destruct (C23_decode_raw_defined_partial p e dp j true true true true true true true w3) as (r3 & w4 & H3); auto; [right; auto|right; auto|].
    destruct (raw_gives _ _ _ _ _ _ Ev H3) as (h3 & p3 & s3 & v3 & K1 & K2 & K3 & K4).
    assert (Hs : exists j1 j2 j3, h3 = Seg (Ptr (Some j1) (hj ++ ht)) (N.of_nat (length hj))
      /\ p3 = Seg (Ptr (Some j2) (pj ++ pt)) (N.of_nat (length pj)) /\ s3 = Seg (Ptr (Some j3) (sig ++ st)) (N.of_nat (length sig))).
    { clear H2. unfold l8w8jwt_decode_raw in H3. rewrite Ev in H3. cbn [negb andb orb] in H3.
      change (negb (L8W8JWT_SUCCESS =? L8W8JWT_SUCCESS)%Z) with false in H3.
      minvas H3 as o y1 Y1. rewrite cb_init_eq, Hal3 in Y1. inversion Y1; subst o y1. clear Y1.
      minvas H3 as q y2 Y2. destruct q as [[[rc sg] res] b]. minvas Y2 as st3 y3 Y3. inversion Y2; subst. clear Y2.
      apply raw_body_segs in Y3 as (rc0 & y4 & Y3).
      destruct (decode_segments_ok p dp h pl s hj ht pj pt sig st (w_ok w3)) as (j1 & j2 & j3 & y5 & Hsg3 & _); auto.
      { eapply adds_wf; [apply adds_ok|exact Hwf3]. }
      rewrite Hsg3 in Y3. injection Y3 as _ Y3 _. rewrite <- Y3 in H3. cbn [sg_header sg_payload sg_signature] in H3.
      minvas H3 as q1 y6 Z1. minvas H3 as q2 y7 Z2. minvas H3 as q3 y8 Z3. minvas H3 as q4 y9 Z4.
      inversion Z1; subst. inversion Z2; subst. inversion Z3; subst. inversion H3; subst. cbn in K1, K2, K3.
      exists j1, j2, j3. split; [congruence|]. split; congruence. }
    destruct Hs as (j1 & j2 & j3 & -> & -> & ->).
    destruct (decode_raw_own _ _ _ _ _ _ _ _ _ _ _ _ _ Hwf3 H3) as (lost3 & A4 & R3 & _).
    unfold handed_raw in A4. rewrite K1, K2, K3 in A4. cbn [handed_seg] in A4.
    unfold mbind at 1. rewrite H3, K1, K2, K3, K4. cbn [seg_var s_ptr]. unfold mbind at 1. cbn [print_verdict lift]. unfold mbind at 1.
    destruct (print_seg w4 j1 (hj ++ ht)) as (t3 & ->);
      [eapply adds_live; [exact A4|left; reflexivity]|eapply b64_decodes_nul; exact D1|].
    unfold mbind at 1. destruct (print_seg w4 j2 (pj ++ pt)) as (t4 & ->);
      [eapply adds_live; [exact A4|right; left; reflexivity]|eapply b64_decodes_nul; exact D2|].
    rewrite <- !app_assoc in A4.
    destruct (free_three w3 w4 lost3 _ _ _ Hwf3 (R3 _ (or_introl K1)) (R3 _ (or_intror (or_introl K2))) (R3 _ (or_intror (or_intror K3))) A4)
      as (z1 & z2 & w5 & G1 & G2 & G3 & _).
    cbn [s_ptr] in G1, G2, G3. unfold mbind at 1. rewrite G1. unfold mbind at 1. rewrite G2. unfold mbind at 1. rewrite G3.
    do 2 eexists. reflexivity.
Qed.
Print Assumptions C67_rs256_program_partial.

(** ** C67: what goes wrong *)
(** A world without memory. *)
Definition w_none : world := World (fun _ => false) (fun _ => true) (fun _ _ => xff) 1 0 (fun _ => false).
(** The token the HS256 encoder prints at time 1000. *)
Definition example_token : bytes :=
  match example_encode pe toy_num L8W8JWT_ALG_HS256 (lit "secret") 1000 1000 we with Ret (_, s) _ => s | Undef _ => [] end.
(** The encoders do not look at the return code: when memory runs out, or the key is of the wrong
    kind (a 2048-bit one for ES256), they print and free an uninitialised pointer. The RS256 decoder prints NULL for a token that does
    not decode. The HS256 decoder leaks the claims of a good token. *)
Theorem C67_programs_refuted :
  (exists p e alg key w, wf w /\ key <> [] /\ example_encode p e alg key 1000 1000 w = Undef UninitUse)
  /\ (exists p e alg key w, wf w /\ allocs w /\ grows w /\ key <> []
        /\ example_encode p e alg key 1000 1000 w = Undef UninitUse)
  /\ (exists p e jwt key w, wf w /\ allocs w /\ grows w /\ accepted_arguments p L8W8JWT_ALG_RS256 jwt key
        /\ example_decode_rs256 p e jwt key w = Undef NullDeref)
  /\ (exists p e jwt key w w' i, wf w /\ allocs w /\ grows w
        /\ example_decode p e L8W8JWT_ALG_HS256 jwt key w = Ret (L8W8JWT_SUCCESS, L8W8JWT_VALID) w'
        /\ w_live w i = false /\ w_live w' i = true).
Proof.
  split; [|split; [|split]].
  - exists pe, toy, 0%Z, (lit "secret"), w_none. split; [intros i _; reflexivity|]. split; [discriminate|vm_compute; reflexivity].
  - exists pe, toy, 9%Z, (lit "secret"), we. split; [apply we_wf|]. split; [intros k; reflexivity|]. split; [intros k; reflexivity|].
    split; [discriminate|vm_compute; reflexivity].
  - exists pe, toy, (lit "abc"), (lit "secret"), we. split; [apply we_wf|]. split; [intros k; reflexivity|]. split; [intros k; reflexivity|].
    split; [repeat split; try discriminate|vm_compute; reflexivity].
  - exists pe, (at_time toy_num 1000), example_token, (lit "any"), we. eexists. exists 1%nat. split; [apply we_wf|].
    split; [intros k; reflexivity|]. split; [intros k; reflexivity|].
    split; [vm_compute; reflexivity|]. split; vm_compute; reflexivity.
Qed.
Print Assumptions C67_programs_refuted.

(** ** C68: encoder and decoder *)
(** The verdict as a sum: the token has expired, it is not valid yet, it was issued in the future.
    The encoders set no nbf claim, so the RS512 decoder, which asks for one, misses it. *)
Definition flag (b : bool) (n : N) : N := if b then n else 0%N.
Definition example_verdict (name now1 now2 t : Z) : N :=
  (flag (now2 + 600 <? t - 60)%Z 16 + flag (name =? L8W8JWT_ALG_RS512)%Z 32 + flag (t + 60 <? now1)%Z 64)%N.

Lemma decode_same_verdict p e dp c w r w' : wf w ->
  l8w8jwt_decode p e (Some dp) true true true w = Ret r w' -> dr_rc r = L8W8JWT_SUCCESS ->
  exists r2 w2, l8w8jwt_decode p e (Some dp) true c c w = Ret r2 w2 /\ dr_rc r2 = dr_rc r /\ dr_valid r2 = dr_valid r.
Proof.
  intros Hwf H Hrc. pose proof H as H0. apply decode_success in H0 as (dp' & _ & _ & E & _ & _ & Ev & Ea & _); [|exact Hrc].
  injection E as <-. unfold l8w8jwt_decode in H. rewrite Ev in H. cbn [andb negb] in H.
  change (negb (L8W8JWT_SUCCESS =? L8W8JWT_SUCCESS)%Z) with false in H. minvas H as o w1 Hi.
  rewrite cb_init_eq, Ea in Hi. inversion Hi; subst o w1. clear Hi. minvas H as st w1 Hb.
  destruct (decode_finish p e dp c c w st w1 Hwf) as (w2 & F); auto; [destruct c; reflexivity|].
  minvas H as u2 x2 H2. minvas H as u3 x3 H3. minvas H as u4 x4 H4. minvas H as u5 x5 H5. inversion H; subst r.
  do 2 eexists. split; [exact F|]. split; reflexivity.
Qed.
Definition example_keyed : list claim := example_header_claims ++ example_payload_claims.
Lemma example_raw_ok : raw_values_ok example_header_claims /\ raw_values_ok example_payload_claims.
Proof.
  assert (G : forall s v, (0 <? length (lit s))%nat = true -> given (literal s) (literal_length s) v -> v = lit s).
  { intros s v Hs Hv. eapply given_det; [exact Hv|apply literal_given, Hs]. }
  split.
  - constructor; [|constructor]. intros E. exfalso. apply E. reflexivity.
  - constructor; [intros E; exfalso; apply E; reflexivity|].
    constructor; [|constructor; [|constructor; [|constructor; [|constructor]]]]; intros _ v Hv; apply G in Hv; try reflexivity; subst v.
    + exists [], KNumber, (lit "27"), []. split; [constructor|]. split; [constructor|split; [constructor|reflexivity]].
      apply (JN [] (lit "27") [] []); [left; reflexivity| |constructor|constructor].
      constructor; [vm_compute; tauto|discriminate|]. constructor; [vm_compute; tauto|constructor].
    + exists [], KNumber, (lit "1.85"), []. split; [constructor|]. split; [constructor|split; [constructor|reflexivity]].
      apply (JN [] (lit "1") (lit ".85") []); [left; reflexivity| |constructor|constructor].
      * constructor; [vm_compute; tauto|discriminate|constructor].
      * split; [discriminate|]. repeat constructor; vm_compute; tauto.
    + exists [], KTrue, (lit "true"), []. split; [constructor|]. split; [constructor|split; [constructor|reflexivity]].
    + exists [], KNull, (lit "null"), []. split; [constructor|]. split; [constructor|split; [constructor|reflexivity]].
Qed.
Lemma example_unshadowed name : In name [lit "sub"; lit "iss"; lit "exp"; lit "nbf"; lit "iat"] -> unshadowed name example_keyed.
Proof.
  intros Hn c k rest Hc Hk ->.
  assert (Ek : exists s, c_key c = literal s /\ c_key_length c = literal_length s /\ (0 <? length (lit s))%nat = true
     /\ In s ["kid"; "ctx"; "age"; "size"; "alive"; "nulltest"]%string).
  { cbn [example_keyed example_header_claims example_payload_claims app In] in Hc.
    decompose [or] Hc; try contradiction; subst c; eexists; cbn [example_claim c_key c_key_length];
      (split; [reflexivity|]; split; [reflexivity|]; split; [reflexivity|cbn; tauto]). }
  destruct Ek as (s & E1 & E2 & E3 & Hs). rewrite E1, E2 in Hk.
  pose proof (given_det _ _ _ _ Hk (literal_given s E3)) as E. cbn [In] in Hn, Hs.
  decompose [or] Hs; try contradiction; subst s; decompose [or] Hn; try contradiction; subst name; discriminate E.
Qed.
Lemma example_readable_texts ht pt : PropRoundTrip.readable ht example_header_claims /\ PropRoundTrip.readable pt example_payload_claims.
Proof.
  split; right; intros cs' c E.
  - left. destruct cs' as [|x [|]]; inversion E; subst; reflexivity.
  - right. assert (c = example_claim "nulltest" "null" L8W8JWT_CLAIM_TYPE_NULL) as ->.
    { apply (f_equal (fun l => last l c)) in E. rewrite last_last in E. symmetry. exact E. }
    intros v k t w1 w2 Hv E1 Hw1 Hw2 Hk.
    apply given_det with (s2 := lit "null") in Hv; [|apply literal_given; reflexivity]. subst v.
    assert (N : forall x, In x t -> In x (lit "null")) by (intros x Hx; rewrite E1, !in_app_iff; auto).
    split; intros ->; inversion Hk; subst t;
      [specialize (N x5b)|specialize (N x5b)|specialize (N x7b)|specialize (N x7b)];
      (destruct N as [N|[N|[N|[N|[]]]]]; [left; reflexivity|discriminate N..]).
Qed.
(** The key given to the decoder verifies what the key given to the encoder signs (C18). *)
Definition example_keys_match (p' : platform) (e e' : env) (alg : Z) (key key' : bytes) : Prop :=
  forall j, supported alg j -> key_usable p' e' j key' /\ same_hashes e e' /\ matching_keys e e' j key Null 0 key'.
(** The token is far from any limit of the decoder (C72). *)
Lemma example_token_short p e alg key now1 now2 w rc token w' p' :
  (6 <= p_size_bits p)%N -> wf w -> grows w -> (32 <= p_size_bits p')%N ->
  example_encode p e alg key now1 now2 w = Ret (rc, token) w' ->
  (N.of_nat (length token) < size_mod p')%N /\ (Z.of_nat (length token) <= INT_MAX)%Z.
Proof.
  intros Hp Hwf Hg Hp' H.
  destruct (C67_encode_program_partial p e alg key now1 now2 w Hp Hwf) as (_ & K & _).
  destruct (K _ _ _ H) as (_ & _ & Hs). destruct (Hs Hg) as (r & w1 & id & E & Eo & El).
  destruct (C72_token_length _ _ _ _ _ _ _ _ Hp E Eo El) as [L _].
  change (request_bytes (example_request alg key now1 now2)) with (request_bytes (example_request 0 [] 0 0)) in L.
  assert (R : request_bytes (example_request 0 [] 0 0) = 128%N) by (vm_compute; reflexivity). rewrite R in L.
  assert (P : (2 ^ 32 <= size_mod p')%N) by (unfold size_mod; apply N.pow_le_mono_r; lia).
  change (2 ^ 32)%N with 4294967296%N in P. unfold INT_MAX. lia.
Qed.
(** What the decoder [name] says of the token the encoder for [alg] printed, at any time and with the
    matching key; the HS256 decoder takes any algorithm and any key (it passes -1). *)
Theorem C68_example_verdict :
  forall p e alg key now1 now2 w rc token w',
    (6 <= p_size_bits p)%N -> wf w -> grows w -> allocs w ->
    (0 < now1 <= I64_MAX)%Z -> (0 < now2 + 600 <= I64_MAX)%Z ->
    example_encode p e alg key now1 now2 w = Ret (rc, token) w' ->
    forall p' e' name key' w1,
      wf w1 -> grows w1 -> allocs w1 -> (32 <= p_size_bits p')%N -> uses_jsmn e' -> checknum_right e' ->
      key' <> [] -> (N.of_nat (length key') < 8192)%N ->
      name = L8W8JWT_ALG_HS256 \/ name = alg /\ example_keys_match p' e e' alg key key' ->
      (I64_MIN + 60 < e_time e' < I64_MAX - 60)%Z ->
      exists w2, example_decode p' e' name token key' w1
        = Ret (L8W8JWT_SUCCESS, example_verdict name now1 now2 (e_time e')) w2.
Proof.
  intros p e alg key now1 now2 w rc token w' Hp Hwf Hg Ha Hn1 Hn2 H p' e' name key' w1 Hwf1 Hg1 Ha1 Hp' Huj Hcn Hk1 Hk2 Hname Ht.
  destruct (example_token_short p e alg key now1 now2 w rc token w' p') as [Hsz Hln]; auto.
  destruct (C67_encode_program_partial p e alg key now1 now2 w Hp Hwf) as (_ & Henc & _).
  destruct (Henc _ _ _ H) as (_ & _ & Hout). destruct (Hout Hg) as (r & wr & id & He & Ho & _).
  assert (Hrc : er_rc r = L8W8JWT_SUCCESS).
  { destruct (encode_inv _ _ _ _ _ _ Hp Hwf He) as [(_ & [K|K] & _)|(K & _)]; [congruence|congruence|exact K]. }
  set (ep := example_request alg key now1 now2) in *.
  destruct example_raw_ok as [R1 R2].
  destruct (C51_issued_tokens p e ep w r wr Hp Hwf (LocalProofs.grows_appended _ _ Hg) (LocalProofs.allocs_allocated _ _ Ha) He Hrc) as (id' & t & ht & pt & j & k & Ho' & Hj & Hk & _ & HD).
  { intros _. discriminate. }
  { intros _. split; [|intros _; left; right; right; cbn; lia].
    intros _. split; [|discriminate]. left. left. cbn. lia. }
  { exact R1. } { exact R2. }
  assert (t = token) as ->. { rewrite Ho in Ho'. inversion Ho' as [[K1 K2]]. apply app_inj_tail in K2 as [K2 _]. congruence. }
  assert (k = key) as ->.
  { destruct Hk as (b & m & Eq & _ & ->). injection Eq as _ <-. cbn. rewrite Nat2N.id. apply firstn_app_exact. }
  set (dp := example_dp name token key').
  destruct (example_readable_texts ht pt) as [Q1 Q2].
  assert (Hnz : no_nul token).
  { destruct (encode_inv _ _ _ _ _ _ Hp Hwf He) as [(_ & [K|K] & _)|(_ & _ & i2 & t2 & K & _ & _ & _ & _ & _ & Ht2)]; [congruence|congruence|].
    rewrite Ho in K. inversion K as [[K1 K2]]. apply app_inj_tail in K2 as [-> _].
    destruct (Ht2 Hg) as (ht2 & pt2 & sig & _ & _ & _ & _ & ->). unfold b64url, no_nul. rewrite !in_app_iff.
    intros [K3|[[K3|[]]|[K3|[[K3|[]]|K3]]]]; try discriminate K3; revert K3; apply unpadded_clean. }
  destruct (HD p' e' dp w1 Hwf1 Hg1 Ha1 Hp' Huj Hcn Q1 Q2) as (r' & w2 & v & Hd & Hdr & Hv & P1 & P2 & P3 & P4 & _).
  { apply example_text; auto. } { exact Hln. }
  { split; [|exists key'; split; [apply key_caller|left; exact Hk2]].
    cbn. split; [|lia]. destruct key'; [contradiction|cbn [length]; lia]. }
  { destruct Hname as [->|(-> & Hm)]; [left; reflexivity|].
    destruct (Z.eqb_spec alg L8W8JWT_ALG_HS256) as [E|E].
    - left. cbn. unfold example_alg. rewrite E. reflexivity.
    - right. split; [cbn; unfold example_alg; apply Z.eqb_neq in E; rewrite E; reflexivity|].
      exists key'. split; [apply key_caller|]. destruct (Hm j Hj) as (M1 & M2 & M3). auto. }
  { apply example_requests. lia. }
  change (keyed_claims _ _ ++ keyed_claims _ _) with example_keyed in P1, P2.
  destruct (decode_same_verdict p' e' dp (name =? L8W8JWT_ALG_HS256)%Z w1 r' w2 Hwf1 Hd Hdr) as (r2 & w3 & Hd2 & Er & Ev).
  exists w3. unfold example_decode. fold dp. unfold mbind at 1. rewrite Hd2, Ev, Hv. cbn [print_verdict lift].
  unfold mbind, mret, lift. rewrite Er, Hdr. cbn beta iota.
  cut (v = example_verdict name now1 now2 (e_time e')); [intros ->; reflexivity|].
  (* the verdict, bit by bit *)
  assert (B1 : N.testbit v 0 = false).
  { destruct (P1 0%N (lit "iss") _ _ _ _ (lit "Black Mesa") (or_intror (or_intror (or_introl eq_refl)))) as (_ & K & _).
    - apply literal_given. reflexivity.
    - apply example_unshadowed. cbn; tauto.
    - apply (K (lit "Black Mesa")); [apply literal_given; reflexivity| |reflexivity].
      apply Forall_forall. intros c Hc. apply survivesb_spec. revert c Hc. apply forallb_forall. reflexivity. }
  assert (B2 : N.testbit v 1 = false).
  { destruct (P1 1%N (lit "sub") _ _ _ _ (lit "Gordon Freeman") (or_introl eq_refl)) as (_ & K & _).
    - apply literal_given. reflexivity.
    - apply example_unshadowed. cbn; tauto.
    - apply (K (lit "Gordon Freeman")); [apply literal_given; reflexivity| |reflexivity].
      apply Forall_forall. intros c Hc. apply survivesb_spec. revert c Hc. apply forallb_forall. reflexivity. }
  assert (T : forall c, time_requested dp c = true -> ordinary_time (limit e' dp c) ->
    (N.testbit v (time_bit c) = false <-> issued_time ep c <> 0%Z /\ ~ out_of_time c (limit e' dp c) (issued_time ep c mod 2 ^ 64))).
  { intros c Hq Hl. apply P2; auto. apply example_unshadowed. destruct c; cbn; tauto. }
  clear P1 P2.
  assert (B4 : N.testbit v 4 = (now2 + 600 <? e_time e' - 60)%Z).
  { destruct (T Exp eq_refl) as [K1 K2]; [unfold ordinary_time; cbn; lia|]. cbn in K1, K2.
    rewrite Z.mod_small in K1, K2 by (unfold I64_MAX in *; lia).
    destruct (Z.ltb_spec (now2 + 600) (e_time e' - 60)), (N.testbit v 4); auto.
    - destruct (K1 eq_refl). lia.
    - apply K2. lia. }
  assert (B6 : N.testbit v 6 = (e_time e' + 60 <? now1)%Z).
  { destruct (T Iat eq_refl) as [K1 K2]; [unfold ordinary_time; cbn; lia|]. cbn in K1, K2.
    rewrite Z.mod_small in K1, K2 by (unfold I64_MAX in *; lia).
    destruct (Z.ltb_spec (e_time e' + 60) now1), (N.testbit v 6); auto.
    - destruct (K1 eq_refl). lia.
    - apply K2. lia. }
  assert (B5 : N.testbit v 5 = (name =? L8W8JWT_ALG_RS512)%Z).
  { destruct (name =? L8W8JWT_ALG_RS512)%Z eqn:En.
    - destruct (N.testbit v 5) eqn:E5; [reflexivity|exfalso]. destruct (T Nbf) as [K1 _];
        [exact En|unfold ordinary_time; cbn; lia|]. destruct (K1 E5) as [K _]. apply K. reflexivity.
    - destruct (N.testbit v 5) eqn:E5; [exfalso|reflexivity]. apply (P4 5%N E5). cbn. unfold example_nbf. rewrite En. reflexivity. }
  assert (B8 : N.testbit v 8 = false).
  { destruct (N.testbit v 8) eqn:E8; [exfalso|reflexivity]. pose proof (P4 8%N E8) as K. cbn in K. unfold example_typ in K.
    destruct (name =? L8W8JWT_ALG_ED25519)%Z eqn:En; [|apply K; reflexivity].
    destruct (P3 None (lit "jwt") []) as [_ K2]; [cbn; unfold example_typ; rewrite En; reflexivity|apply literal_no_nul; reflexivity|].
    discriminate K2. cbn. unfold example_typ. rewrite En. split; reflexivity. }
  assert (Z0 : forall bit, request_for dp bit = NoRequest -> N.testbit v bit = false).
  { intros bit K. destruct (N.testbit v bit) eqn:E; [exfalso; exact (P4 _ E K)|reflexivity]. }
  unfold example_verdict. rewrite <- B4, <- B5, <- B6. clear B4 B5 B6 T P3 P4.
  apply N.bits_inj. intros bit.
  assert (C : (bit < 9)%N \/ (9 <= bit)%N) by lia. destruct C as [C|C].
  - assert (D : In bit [0; 1; 2; 3; 4; 5; 6; 7; 8]%N) by (cbn [In]; lia). clear C. cbn [In] in D.
    decompose [or] D; try contradiction; subst bit; rewrite ?B1, ?B2, ?B8, ?(Z0 2%N eq_refl), ?(Z0 3%N eq_refl), ?(Z0 7%N eq_refl);
      destruct (N.testbit v 4), (N.testbit v 5), (N.testbit v 6); reflexivity.
  - rewrite Z0.
    + symmetry. destruct (N.testbit v 4), (N.testbit v 5), (N.testbit v 6); cbn [flag];
        match goal with |- N.testbit ?n _ = false => apply N.bits_above_log2; apply N.lt_le_trans with (m := 9%N); [reflexivity|exact C] end.
    + unfold request_for. destruct bit as [|[[[[]|[]|]|[[]|[]|]|]|[[[]|[]|]|[[]|[]|]|]|]]; try reflexivity; lia.
Qed.
Print Assumptions C68_example_verdict.
(** So the token is good from a minute before it was issued to a minute after its ten minutes, for all
    decoders but the RS512 one. *)
Theorem C68_accepted_in_time :
  forall name now1 now2 t,
    example_verdict name now1 now2 t = L8W8JWT_VALID <->
    (now1 - 60 <= t <= now2 + 660)%Z /\ name <> L8W8JWT_ALG_RS512.
Proof.
  intros name now1 now2 t. unfold example_verdict, flag. change L8W8JWT_VALID with 0%N.
  destruct (Z.ltb_spec (now2 + 600) (t - 60)), (Z.ltb_spec (t + 60) now1), (Z.eqb_spec name L8W8JWT_ALG_RS512); split; intros; lia.
Qed.
Print Assumptions C68_accepted_in_time.

(** Every decoder but the HS256 one takes only tokens whose signature verifies with the key in it. *)
Theorem C68_only_signed_partial :
  forall p e name jwt key w w' j,
    wf w -> name <> L8W8JWT_ALG_HS256 -> supported name j -> hex_if_ed j key ->
    example_decode p e name jwt key w = Ret (L8W8JWT_SUCCESS, L8W8JWT_VALID) w' ->
    exists h pl rest third sig tail looked,
      three_parts (jwt ++ [x00]) h pl rest /\ third_segment p (example_dp name jwt key) h pl rest third
      /\ url_decodes third sig tail /\ signature_read e j key sig tail looked
      /\ verified_by e j key (h ++ lit "." ++ pl) looked.
Proof.
  intros p e name jwt key w w' j Hwf Hn Hs Hh H. unfold example_decode in H. minvas H as r w1 H1.
  minvas H as v w2 H2. apply lift_inv in H2 as [Hv ->].
  assert (Erc : dr_rc r = L8W8JWT_SUCCESS) by (inversion H; auto). assert (v = L8W8JWT_VALID) as -> by (inversion H; auto).
  assert (Ev : dr_valid r = Some L8W8JWT_VALID) by (destruct (dr_valid r); [inversion Hv; reflexivity|discriminate Hv]).
  destruct (C19_signature_enforced_partial p e _ _ _ _ _ _ _ j key Hwf H1 Erc Ev)
    as (t & h & pl & rest & third & sig & tail & Tx & T3 & Th & Ud & Q); [|apply key_caller|exact Hh|].
  { cbn. unfold example_alg. apply Z.eqb_neq in Hn. rewrite Hn. exact Hs. }
  destruct (proj1 Q eq_refl) as (looked & Q1 & Q2). exists h, pl, rest, third, sig, tail, looked.
  split; [|auto]. destruct Tx as (b & Tx). injection Tx as _ <-. exact T3.
Qed.
Print Assumptions C68_only_signed_partial.

(** ** Examples *)
Definition example_env (t : Z) : env := at_time toy_num t.
Definition hs384_token : bytes :=
  match example_encode pe toy_num L8W8JWT_ALG_HS384 (lit "secret") 1000 1000 we with Ret (_, s) _ => s | Undef _ => [] end.
Example C67_C68_example :
  (* the hypotheses of C68_example_verdict *)
  wf we /\ grows we /\ allocs we /\ uses_jsmn (example_env 1100) /\ checknum_right (example_env 1100)
  /\ example_keys_match pe toy_num (example_env 1100) L8W8JWT_ALG_HS384 (lit "secret") (lit "secret")
  /\ (exists w', example_encode pe toy_num L8W8JWT_ALG_HS384 (lit "secret") 1000 1000 we = Ret (L8W8JWT_SUCCESS, hs384_token) w')
  /\ (1000 < length hs384_token + 700)%nat /\ lawful_keys toy_num
  /\ supported L8W8JWT_ALG_HS384 (Jwa 1 (lit "HS384") HS SHA384)
  (* the verdicts *)
  /\ map (fun t => example_verdict L8W8JWT_ALG_HS384 1000 1000 t) [939; 940; 1660; 1661]%Z = [64; 0; 0; 16]%N.
Proof.
  split; [apply we_wf|]. split; [intros k; reflexivity|]. split; [intros k; reflexivity|]. split; [intros js cap; reflexivity|].
  split; [apply toy_num_right|]. split.
  { intros j Hj. rewrite (supported_unique 1 j (Jwa 1 (lit "HS384") HS SHA384) Hj) by (split; [right; left; reflexivity|reflexivity]).
    split; [|split].
    - split; [|exact I]. intros _. discriminate.
    - repeat split.
    - reflexivity. }
  split; [eexists; vm_compute; reflexivity|]. split; [apply Nat.ltb_lt; vm_compute; reflexivity|]. split.
  { intros k pw n key _. split; intros _; repeat split; discriminate. }
  split; [split; [right; left; reflexivity|reflexivity]|]. vm_compute. reflexivity.
Qed.
(** The HS256 decoder takes a token signed with another key, one signed by another algorithm and a forged
    one; the RS512 decoder finds fault with the token of the RS512 encoder. *)
Definition forged_payload : string := "{""iss"":""Black Mesa"",""sub"":""Gordon Freeman"",""exp"":2000,""iat"":1000}"%string.
Definition rs512_token : bytes :=
  match example_encode pe toy_num L8W8JWT_ALG_RS512 (lit "secret") 1000 1000 we with Ret (_, s) _ => s | Undef _ => [] end.
Theorem C68_examples_refuted :
  (exists p e h pl s sig tail key w w', wf w /\ allocs w /\ grows w
     /\ url_decodes s sig tail
     /\ (forall k, ~ verified_by e (Jwa 0 (lit "HS256") HS SHA256) k (h ++ lit "." ++ pl) sig)
     /\ example_decode p e L8W8JWT_ALG_HS256 (h ++ lit "." ++ pl ++ lit "." ++ s) key w = Ret (L8W8JWT_SUCCESS, L8W8JWT_VALID) w')
  /\ (exists p e jwt key w w1 w2, wf w /\ allocs w /\ grows w /\ e_time e = 1000%Z
     /\ example_encode p e L8W8JWT_ALG_RS512 key 1000 1000 w = Ret (L8W8JWT_SUCCESS, jwt) w1
     /\ example_decode p e L8W8JWT_ALG_RS512 jwt key w = Ret (L8W8JWT_SUCCESS, L8W8JWT_NBF_FAILURE) w2).
Proof.
  split.
  - destruct (text_decodes (lit "forged")) as (tail & D); [discriminate|].
    exists pe, (example_env 1000), (rfc4648_unpadded true (lit plain_header)), (rfc4648_unpadded true (lit forged_payload)),
      (rfc4648_unpadded true (lit "forged")), (lit "forged"), tail, (lit "any"), we.
    eexists. split; [apply we_wf|]. split; [intros k; reflexivity|]. split; [intros k; reflexivity|]. split; [exact D|].
    split; [|vm_compute; reflexivity]. intros k (mac & _ & V). apply (f_equal (@length byte)) in V. rewrite fit_length in V. discriminate V.
  - exists pe, (example_env 1000), rs512_token, (lit "secret"), we. do 2 eexists. split; [apply we_wf|].
    split; [intros k; reflexivity|]. split; [intros k; reflexivity|]. split; [reflexivity|]. split; vm_compute; reflexivity.
Qed.
Print Assumptions C68_examples_refuted.
(** The forged token with the RS256 decoder: the hypotheses of C67_decode_program_partial and
    C67_rs256_program_partial, and what the programs print. *)
Definition forged_token : bytes := token_text plain_header forged_payload (lit "forged").
Example C67_example :
  let dp := example_dp L8W8JWT_ALG_RS256 forged_token (lit "secret") in
  accepted_arguments pe L8W8JWT_ALG_RS256 forged_token (lit "secret")
  /\ no_nul forged_token /\ (N.of_nat (length forged_token) < size_mod pe)%N /\ (Z.of_nat (length forged_token) <= INT_MAX)%Z
  /\ (I64_MIN + 60 <= e_time (example_env 1000) <= I64_MAX - 60)%Z
  /\ tame_token pe (example_env 1000) dp forged_token
  /\ (exists h pl s hj ht pj pt sig st, forged_token = h ++ lit "." ++ pl ++ lit "." ++ s /\ no_dot h /\ no_dot pl
        /\ b64_decodes h hj ht /\ b64_decodes pl pj pt /\ b64_decodes s sig st)
  (* the toy backend verifies every RSA signature *)
  /\ match example_decode_rs256 pe (example_env 1000) forged_token (lit "secret") we with
     | Ret ((rc1, v1), (rc2, h2, p2), (rc3, v3, h3, p3)) w' =>
         [rc1; rc2; rc3] = [0; 0; 0]%Z /\ v1 = 0%N /\ v3 = 0%N /\ h2 = lit plain_header /\ p3 = lit forged_payload
         /\ existsb (w_live w') (seq 0 60) = false
     | Undef _ => False end
  (* the RS384 decoder and the HS256 encoder *)
  /\ match example_decode pe (example_env 1000) L8W8JWT_ALG_RS384 forged_token (lit "secret") we with
     | Ret (rc, v) w' => rc = 0%Z /\ v = 0%N /\ existsb (w_live w') (seq 0 60) = false | Undef _ => False end
  /\ match example_encode pe (example_env 1000) L8W8JWT_ALG_HS256 (lit "secret") 1000 1000 we with
     | Ret (rc, s) w' => rc = 0%Z /\ s = example_token /\ s <> [] /\ existsb (w_live w') (seq 0 60) = false | Undef _ => False end.
Proof.
  cbv zeta. split; [repeat split; discriminate|]. split; [apply no_nul_b; vm_compute; reflexivity|].
  split; [vm_compute; reflexivity|]. split; [vm_compute; discriminate|]. split; [split; vm_compute; discriminate|]. split.
  { split; [|discriminate]. intros h pl s P.
    destruct (parts3_fun _ _ _ _ _ _ _ P (parts3_of _ _ _ (unpadded_acc true (lit plain_header)) (unpadded_acc true _))) as (-> & -> & ->).
    split; [apply few_tokens_text; vm_compute; discriminate|]. split; [apply few_tokens_text; vm_compute; discriminate|].
    split; [left; reflexivity|]. intros jw k sig tail Hs _ Hd.
    rewrite (supported_unique 3 jw (Jwa 3 (lit "RS256") RS SHA256) Hs); [exact I|]. split; [vm_compute; tauto|reflexivity]. }
  split.
  { destruct (text_b64_decodes (lit plain_header)) as (t1 & D1); [discriminate|].
    destruct (text_b64_decodes (lit forged_payload)) as (t2 & D2); [discriminate|].
    destruct (text_b64_decodes (lit "forged")) as (t3 & D3); [discriminate|].
    do 9 eexists. split; [reflexivity|]. split; [apply unpadded_clean|]. split; [apply unpadded_clean|]. split; [exact D1|]. split; [exact D2|exact D3]. }
  split; [vm_compute; repeat split|]. split; [vm_compute; repeat split|]. vm_compute. repeat split. discriminate.
Qed.
