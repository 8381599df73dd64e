(** * Lemmas: the tokenizer and decode on an object without its closing brace *)
From Verif Require Import Base BaseProofs HeapProofs Util UtilProofs Claim Base64 SpecB64
  Base64EncProofs Base64EncApi Base64DecProofs Base64Api Jsmn Env Encode Decode SpecJson SpecJwa ClaimProofs UnescapeProofs
  SignProofs EncodeTotal DecodeProofs DecodeInv JsmnProofs ParseProofs ReadProofs JsmnJson JsmnSize DecodeTotal DecodeOk OverRead.
From Coq Require Import ZifyBool ZifyNat ZifyN.
Ltac Zify.zify_post_hook ::= Z.div_mod_to_equations.
Local Opaque L8W8JWT_MAX_KEY_SIZE.

(** The members of an object after the opening brace, but no closing brace; [n] values and names,
    the object itself included. *)
Definition unclosed (js : bytes) (n : N) : Prop :=
  exists w ms t m, json_ws w /\ json_members ms t /\ members_size t m /\ js = w ++ lit "{" ++ t /\ n = (1 + m)%N.

(** The counting pass finds nothing wrong; the second pass does. *)
Lemma unclosed_passes js n : unclosed js n ->
  fst (jsmn_parse js None) = Z.of_N n /\ fst (jsmn_parse js (Some (Z.of_N n))) = JSMN_ERROR_PART.
Proof.
  intros (w & ms & t & m & Hw & Hm & Hs & -> & ->).
  destruct (proj2 (proj2 json_tokenized) _ _ Hm (Z.of_nat (length w) + 1)%Z ltac:(lia)) as (tl & _ & Ha & _).
  assert (R : forall cap, room cap [] (S (length tl)) ->
    jrun cap (w ++ lit "{" ++ t) 0 [] 0
    = (Z.of_nat (S (length tl)), padd cap [] (Tok JObject (Z.of_nat (length w)) (-1) :: tl))).
  { intros cap Hr. rewrite jrun_ws by exact Hw. change (lit "{" ++ t) with (x7b :: t).
    rewrite jrun_open; [|reflexivity|eapply room_le; [exact Hr|lia]].
    rewrite <- (app_nil_r t). change (Byte.eqb x7b x7b) with true. cbv iota. rewrite Z.add_0_l.
    rewrite Ha; [|exact I|apply room_padd; exact Hr].
    rewrite jmain_rest by auto. rewrite padd_app. f_equal. cbn [app]. lia. }
  pose proof (proj2 (proj2 sizes_counted) _ _ Hs [] (0 + Z.of_nat (length w) + 1)%Z [] 1%Z I) as C.
  rewrite app_nil_r, (jmain_rest None []) in C by auto.
  assert (En : Z.of_nat (S (length tl)) = Z.of_N (1 + m)).
  { pose proof (R None I) as R0. rewrite jrun_ws in R0 by exact Hw. change (lit "{" ++ t) with (x7b :: t) in R0.
    rewrite jrun_open in R0; [|reflexivity|exact I]. cbn [padd] in R0. rewrite Z.add_0_l in R0.
    change (0 + Z.of_nat (length w) + 1)%Z with (Z.of_nat (length w) + 1)%Z in C.
    change (0 + 1)%Z with 1%Z in R0. rewrite C in R0. assert ((1 + Z.of_N m)%Z = Z.of_nat (S (length tl))) by congruence. lia. }
  unfold jsmn_parse. change (jmain (S (length (w ++ lit "{" ++ t)))) with (fun cap (r : bytes) => jmain (S (length (w ++ lit "{" ++ t))) cap r).
  cbv beta. fold (jrun None (w ++ lit "{" ++ t) 0 [] 0) (jrun (Some (Z.of_N (1 + m))) (w ++ lit "{" ++ t) 0 [] 0).
  rewrite R by exact I. rewrite R by (cbn [room length]; lia).
  destruct (Z.ltb_spec (Z.of_nat (S (length tl))) 0); [lia|]. cbn [fst]. split; [exact En|].
  cbn [padd]. rewrite app_nil_r.
  replace (existsb tok_open (rev (Tok JObject (Z.of_nat (length w)) (-1) :: tl))) with true; [reflexivity|].
  symmetry. apply existsb_exists. exists (Tok JObject (Z.of_nat (length w)) (-1)). split; [apply in_rev; rewrite rev_involutive; left; reflexivity|].
  unfold tok_open. cbn [t_start t_end]. destruct (Z.eqb_spec (Z.of_nat (length w)) (-1)); [lia|reflexivity].
Qed.

(** Parsing fails and leaves the token array. *)
Lemma parse_claims_unclosed p e c b js post n w :
  uses_jsmn e -> allocs w -> (Z.of_nat (length js) <= INT_MAX)%Z -> unclosed js n -> (64 < n)%N ->
  l8w8jwt_parse_claims p e c (Ptr b (js ++ post)) (N.of_nat (length js)) w
  = Ret (L8W8JWT_DECODE_FAILED_INVALID_TOKEN_FORMAT, c) (w_ok w).
Proof.
  intros Hj Ha Hl Hu Hn. destruct (unclosed_passes _ _ Hu) as [P1 P2].
  unfold l8w8jwt_parse_claims. unfold mbind at 1. cbn [deref lift].
  unfold mbind at 1. rewrite take_ok by (rewrite app_length; lia). cbn [lift].
  destruct (Z.ltb_spec INT_MAX (Z.of_N (N.of_nat (length js)))); [lia|]. cbv zeta. rewrite !Hj, Nat2N.id, firstn_app_exact, P1.
  destruct (Z.eqb_spec (Z.of_N n) 0); [lia|]. destruct (Z.ltb_spec (Z.of_N n) 0); [lia|]. destruct (Z.leb_spec (Z.of_N n) 64); [lia|].
  unfold mbind at 1. unfold mbind at 1. rewrite alloc_eq, (Ha _). cbn [option_map]. unfold mret at 1. cbv iota.
  destruct (jsmn_parse js (Some (Z.of_N n))) as [r2 toks]. cbn [fst] in P2. subst r2. reflexivity.
Qed.

(** What remains of the heap when the body of decode fails. *)
Lemma decode_rejects p e dp cn w st w1 i1 i2 i3 h pl s lost :
  wf w -> l8w8jwt_validate_decoding_params p (Some dp) = L8W8JWT_SUCCESS -> w_alloc w (w_next w) = true ->
  decode_body p e dp (CB (w_next w) []) (w_ok w) = Ret st w1 -> ds_rc st <> L8W8JWT_SUCCESS ->
  s_ptr (sg_header (ds_segs st)) = Ptr (Some i1) h -> s_ptr (sg_payload (ds_segs st)) = Ptr (Some i2) pl ->
  s_ptr (sg_signature (ds_segs st)) = Ptr (Some i3) s ->
  cb_id (ds_claims st) = w_next w -> Forall heap_claim (cb_elems (ds_claims st)) ->
  adds (w_ok w) w1 ([i1; i2; i3] ++ array_blocks (cb_elems (ds_claims st)) ++ lost) ->
  exists w', l8w8jwt_decode p e (Some dp) true cn true w = Ret (DecRes (ds_rc st) (Some NOT_VALID) None) w' /\ adds w w' lost.
Proof.
  intros Hwf Hv Ha H Hrc E1 E2 E3 Hid Hh A. unfold l8w8jwt_decode. change (negb true) with false. rewrite andb_false_r, Hv.
  change (negb (L8W8JWT_SUCCESS =? L8W8JWT_SUCCESS)%Z) with false. cbv iota.
  unfold mbind at 1. rewrite cb_init_eq, Ha. mstep H. rewrite E1, E2, E3. cbn [free].
  pose proof (adds_trans _ _ _ _ _ (adds_ok w) A) as A1. cbn [app] in A1.
  destruct (adds_free w w1 [w_next w] i1 _ Hwf A1) as [L1 A2]. unfold mbind at 1. rewrite free_id_eq by exact L1.
  destruct (adds_free w _ [w_next w] i2 _ Hwf A2) as [L2 A3]. unfold mbind at 1. rewrite free_id_eq by exact L2.
  destruct (adds_free w _ [w_next w] i3 _ Hwf A3) as [L3 A4]. unfold mbind at 1. rewrite free_id_eq by exact L3.
  destruct (free_claims_adds w _ (w_next w) _ lost Hwf Hh A4) as (w6 & E6 & A6).
  destruct (Z.eqb_spec (ds_rc st) L8W8JWT_SUCCESS); [contradiction|]. cbn [negb andb]. rewrite orb_true_r.
  unfold mbind at 1. cbn [free_claims_buffer]. unfold cb_len. rewrite Hid, E6. eexists. split; [reflexivity|exact A6].
Qed.
