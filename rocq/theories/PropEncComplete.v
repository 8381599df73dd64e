(** * Property C76: what encoding does, for every request *)
From Verif Require Import Base BaseProofs HeapProofs Util UtilProofs Claim Base64 SpecB64
  Base64EncProofs Base64EncApi Base64DecProofs Base64Api Jsmn Env Encode Decode SpecJson SpecJwa ClaimProofs UnescapeProofs
  EncodeProofs SignProofs EncodeTotal SpecEnc JsonProofs PropEncode DecodeProofs DecodeInv
  CodeProofs EncCodeProofs Complete EncComplete EncRun EncSign PropSafe PropEncCodes.
From Coq Require Import ZifyBool ZifyNat ZifyN.
Ltac Zify.zify_post_hook ::= Z.div_mod_to_equations.
Local Opaque L8W8JWT_MAX_KEY_SIZE SIGBUF.

(** If memory does not run out and what is handed in can be read, the specification [encoding] has exactly one
    outcome for the request, and that is what the call does: it returns that token and its length, or that code
    and no token, or is undefined in that way. *)
Theorem C76_encode_complete :
  forall p e ep w,
    (15 <= p_size_bits p)%N -> wf w -> allocs w -> grows w -> enc_given ep ->
    exists o, encoding p e ep o /\ (forall o', encoding p e ep o' -> o' = o)
      /\ match o with
         | Made t => exists id w', l8w8jwt_encode p e (Some ep) w
                       = Ret (EncRes 0 (Some (Ptr (Some id) (t ++ [x00]))) (Some (N.of_nat (length t)))) w'
         | Fails rc => rc <> 0%Z /\ exists w', l8w8jwt_encode p e (Some ep) w = Ret (EncRes rc None None) w'
         | Breaks u => l8w8jwt_encode p e (Some ep) w = Undef u
         end.
Proof.
  intros p e ep w Hp Hw A G Hr. destruct (encode_does p e ep w Hp Hw A G Hr) as (o & E & D). exists o. split; [exact E|].
  split; [intros o' E'; eapply encoding_only; eauto|]. destruct o as [t|rc|u]; cbn [appends] in D.
  - destruct D as (r & w' & D & id & ->). exists id, w'. exact D.
  - destruct D as (r & w' & D & Nz & ->). split; [exact Nz|]. exists w'. exact D.
  - exact D.
Qed.
Print Assumptions C76_encode_complete.

(** A token is returned exactly if the specification makes it. *)
Theorem C76_issues_iff :
  forall p e ep w t,
    (15 <= p_size_bits p)%N -> wf w -> allocs w -> grows w -> enc_given ep ->
    (encoding p e ep (Made t)
     <-> exists id w', l8w8jwt_encode p e (Some ep) w = Ret (EncRes 0 (Some (Ptr (Some id) (t ++ [x00]))) (Some (N.of_nat (length t)))) w').
Proof.
  intros p e ep w t Hp Hw A G Hr. destruct (C76_encode_complete p e ep w Hp Hw A G Hr) as (o & E & U & D). split.
  - intros H. rewrite <- (U _ H) in D. exact D.
  - intros (id & w' & H). destruct o as [t'|rc|u].
    + destruct D as (id' & w2 & D). rewrite H in D. injection D as _ D _ _.
      apply app_inj_tail in D as (-> & _). exact E.
    + destruct D as (Nz & w2 & D). rewrite H in D. injection D as D _ _. congruence.
    + rewrite H in D. discriminate D.
Qed.
Print Assumptions C76_issues_iff.

(** And the call is undefined exactly if the specification breaks. *)
Theorem C76_undefined_iff :
  forall p e ep w u,
    (15 <= p_size_bits p)%N -> wf w -> allocs w -> grows w -> enc_given ep ->
    (encoding p e ep (Breaks u) <-> l8w8jwt_encode p e (Some ep) w = Undef u).
Proof.
  intros p e ep w u Hp Hw A G Hr. destruct (C76_encode_complete p e ep w Hp Hw A G Hr) as (o & E & U & D). split.
  - intros H. rewrite <- (U _ H) in D. exact D.
  - intros H. destruct o as [t|rc|u'].
    + destruct D as (id & w' & D). congruence.
    + destruct D as (_ & w' & D). congruence.
    + rewrite H in D. injection D as ->. exact E.
Qed.
Print Assumptions C76_undefined_iff.

(** The signatures of the specification are those of the standard's algorithms. *)
Theorem C76_signing_standard :
  forall p e j k pw pwl msg s, signing p e j k pw pwl msg (Made s) -> signed_by e j k pw pwl msg s.
Proof.
  intros p e j k pw pwl msg s H. unfold signing in H. unfold signed_by.
  assert (D : forall d, digest_of e j msg = Some d -> exists d0, e_md e (j_hash j) msg = Some d0 /\ d = fit (md_size (j_hash j)) d0).
  { unfold digest_of. intros d Hd. destruct (e_md e (j_hash j) msg) as [d0|]; [|discriminate]. injection Hd as <-. eauto. }
  destruct (j_family j) as [| | |curve bits width|].
  - inversion H; subst. eauto.
  - inversion H as [| |q o L P R]; subst. inversion R as [| | |d s0 (K & B) Hd Hs Ne]; subst. exists q, d, s0. auto 10.
  - inversion H as [| |q o L P R]; subst. inversion R as [| | | | | | |d s0 (K & B) Hd Hq Hl Hs]; subst. exists q, d, s0. auto 10.
  - inversion H as [| |q o L P R]; subst. inversion R as [| | | | | | |d r s0 br bs K Ke Kp Hd Hg Hb Hs L1 V1 L2 V2]; subst.
    exists q, d, (big_endian br), (big_endian bs). repeat (split; [auto; fail|]).
    split; [rewrite app_length; lia|]. split; [f_equal; apply firstn_app_exact|].
    f_equal. rewrite skipn_app, skipn_all, Nat.sub_diag. reflexivity.
  - inversion H; subst. exists (hmac_key k). split.
    + unfold hmac_key. destruct (is_nul (last k x01)) eqn:E; [|auto]. right.
      assert (Ne : k <> []) by (intros ->; discriminate). destruct (exists_last Ne) as (k0 & z & ->). rewrite last_last in E.
      rewrite removelast_last. apply is_nul_true in E. subst z. reflexivity.
    + split; [assumption|]. split; [rewrite fit_length; reflexivity|]. intros kb Hu. rewrite (loose_hex _ _ _ Hu). reflexivity.
Qed.
Print Assumptions C76_signing_standard.

(** ** Examples *)
Lemma given_zstr s n : n = N.of_nat (length (lit s)) -> (0 < n)%N -> given (zstr s) n (lit s).
Proof.
  intros -> Hn. cbn [zstr given]. destruct (N.eqb_spec (N.of_nat (length (lit s))) 0); [lia|].
  unfold clit. rewrite app_length. split; [lia|]. rewrite Nat2N.id. symmetry. apply firstn_app_exact.
Qed.
Lemma given_cstr s : forallb (fun c => negb (is_nul c)) (lit s) = true -> given (zstr s) 0 (lit s).
Proof.
  intros Hs. exists []. split; [reflexivity|]. intros Hin. rewrite forallb_forall in Hs. specialize (Hs _ Hin). discriminate.
Qed.
Example C76_example :
  enc_given ep_sample /\ wf we /\ allocs we /\ grows we /\ (15 <= p_size_bits pe)%N
  /\ encoding pe toy ep_sample (Made
       (rfc4648_unpadded true (lit "{""alg"":""HS256"",""typ"":""JWT"",""kid"":""k1""}") ++ lit "."
        ++ rfc4648_unpadded true (lit "{""iat"":1000,""exp"":2000,""sub"":""Gordon\""F"",""iss"":""Black Mesa"",""ctx"":{""a"":[1, 2]},""age"":27}")
        ++ lit "." ++ rfc4648_unpadded true (lit "secreteyJhbGciOiJIUzI1NiIsInR5cC"))).
Proof.
  assert (Hr : enc_given ep_sample).
  { split; [|split; [|split; [|split; [|split; [|split]]]]].
    - split; [discriminate|]. constructor; [|constructor]. right. exists (lit "kid"), (lit "k1"). split; [apply given_cstr; reflexivity|apply given_zstr; reflexivity].
    - split; [discriminate|]. constructor; [|constructor; [left; reflexivity|constructor; [|constructor]]].
      + right. exists (lit "ctx"), (lit "{""a"":[1, 2]}"). split; [apply given_zstr; reflexivity|apply given_cstr; reflexivity].
      + right. exists (lit "age"), (lit "27"). split; apply given_zstr; reflexivity.
    - right. exists (lit "Gordon""F"). apply given_zstr; reflexivity.
    - right. exists (lit "Black Mesa"). apply given_zstr; reflexivity.
    - left. reflexivity.
    - left. reflexivity.
    - right. exists (lit "secret"). exists None. eexists. split; [reflexivity|]. split; [discriminate|reflexivity]. }
  assert (Ha : allocs we) by (intros k; reflexivity). assert (Hg : grows we) by (intros k; reflexivity).
  split; [exact Hr|]. split; [apply we_wf|]. split; [exact Ha|]. split; [exact Hg|]. split; [discriminate|].
  destruct (C76_encode_complete pe toy ep_sample we ltac:(discriminate) we_wf Ha Hg Hr) as (o & E & _ & D).
  pose proof C11_example as X. destruct o as [t|rc|u].
  - destruct D as (id & w' & D). rewrite D in X. cbn [PropEncode.outcome er_rc er_out] in X.
    apply (f_equal (fun o => match o with Some (_, s) => s | None => [] end)) in X. cbv beta iota in X. rewrite !app_assoc in X. apply app_inj_tail in X as (X & _). rewrite X in E. rewrite <- !app_assoc in E. exact E.
  - destruct D as (Nz & w' & D). rewrite D in X. cbn [PropEncode.outcome er_rc er_out] in X. injection X as X. congruence.
  - rewrite D in X. discriminate X.
Qed.
(** One request for each way to fail or break. *)
Lemma ep_with_given q n key kn alg k : string_given q n -> caller_key key kn k -> enc_given (ep_with q n key kn alg).
Proof.
  intros Hq Hk. split; [exact I|]. split; [exact I|]. split; [left; reflexivity|]. split; [exact Hq|].
  split; [left; reflexivity|]. split; [left; reflexivity|]. right. exists k. exact Hk.
Qed.
Definition outcome_of (m : res enc_res) : option product :=
  match m with
  | Undef u => Some (Breaks u)
  | Ret (EncRes rc None None) _ => Some (Fails rc)
  | _ => None
  end.
Lemma outcome_encoding p e ep o : (15 <= p_size_bits p)%N -> enc_given ep -> outcome_of (l8w8jwt_encode p e (Some ep) we) = Some o -> encoding p e ep o.
Proof.
  intros Hp Hr H. assert (Ha : allocs we) by (intros k; reflexivity). assert (Hg : grows we) by (intros k; reflexivity).
  destruct (C76_encode_complete p e ep we Hp we_wf Ha Hg Hr) as (o' & E & _ & D). destruct o' as [t|rc|u].
  - destruct D as (id & w' & D). rewrite D in H. discriminate H.
  - destruct D as (Nz & w' & D). rewrite D in H. injection H as <-. exact E.
  - rewrite D in H. injection H as <-. exact E.
Qed.
Lemma key_zstr s n : n = N.of_nat (length (lit s)) -> caller_key (zstr s) n (lit s).
Proof.
  intros ->. exists None, (clit s). split; [reflexivity|]. unfold clit. rewrite app_length. split; [lia|]. rewrite Nat2N.id.
  symmetry. apply firstn_app_exact.
Qed.
Lemma key_repeat m n : (n <= N.of_nat m)%N -> caller_key (Ptr None (repeat x41 m)) n (firstn (N.to_nat n) (repeat x41 m)).
Proof. intros H. exists None. eexists. split; [reflexivity|]. rewrite repeat_length. split; [exact H|reflexivity]. Qed.
Example C76_outcomes_example :
  encoding pe toy (ep_with Null 0 (zstr "secret") 0 0) (Fails 200)
  /\ encoding pe toy (ep_with Null 0 (zstr "secret") 6 (-1)) (Fails 200)
  /\ encoding pe mute (ep_with Null 0 (zstr "secret") 6 0) (Fails 400)
  /\ encoding pe mute (ep_with Null 0 (zstr "secret") 6 3) (Fails 420)
  /\ encoding pe mute (ep_with Null 0 (Ptr None (repeat x41 200)) 200 3) (Fails 410)
  /\ encoding pe toy (ep_with Null 0 (zstr "secret") 6 9) (Fails 450)
  /\ encoding pe toy (ep_with Null 0 (zstr "secret") 6 13) (Fails 450)
  /\ encoding (Platform 64 true false false true) toy (ep_with Null 0 (zstr "secret") 6 13) (Fails 800)
  /\ encoding pe (toy_keys false false) (ep_with Null 0 (zstr "secret") 6 6) (Breaks NullDeref)
  /\ encoding pe (toy_keys false false) (ep_with Null 0 (zstr "secret") 6 9) (Breaks NullDeref)
  /\ encoding pe toy (ep_with (Ptr None [xc3; xa9; x00]) 2 (zstr "secret") 6 0) (Breaks BadIndex)
  /\ encoding pe toy (ep_with Null 0 (Ptr None (repeat x41 (N.to_nat 8192))) 8192 3) (Breaks OOBRead).
Proof.
  assert (K : forall alg q n, string_given q n -> enc_given (ep_with q n (zstr "secret") 6 alg)).
  { intros alg q n Hq. eapply ep_with_given; [exact Hq|apply key_zstr; reflexivity]. }
  assert (Nl : string_given Null 0) by (left; reflexivity).
  repeat split; apply outcome_encoding; try discriminate; try (vm_compute; reflexivity); try (apply K; exact Nl).
  - eapply ep_with_given; [exact Nl|]. exists None. eexists. split; [reflexivity|]. split; [cbn; lia|reflexivity].
  - eapply ep_with_given; [exact Nl|]. apply key_repeat. lia.
  - apply K. right. exists [xc3; xa9]. cbn. split; [lia|reflexivity].
  - eapply ep_with_given; [exact Nl|]. apply key_repeat. lia.
Qed.
