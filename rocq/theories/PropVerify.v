(** * Properties C19-C22, C29, C30, C40 (verification), C43 *)
From Verif Require Import Base BaseProofs HeapProofs Util UtilProofs Claim Base64 SpecB64
  Base64EncApi Base64DecProofs Base64Api Jsmn Env Encode Decode SpecJson SpecJwa ClaimProofs UnescapeProofs
  SignProofs PropEncode DecodeProofs DecodeInv.
From Coq Require Import ZifyBool ZifyNat ZifyN.
Ltac Zify.zify_post_hook ::= Z.div_mod_to_equations.
Local Opaque L8W8JWT_MAX_KEY_SIZE.

(** ** Samples *)
(** Decoding parameters that ask for nothing but a signature check. *)
Definition dp_plain (tok : bytes) (alg : Z) (key : ptr) (klen : N) : dec_params :=
  DecParams (Ptr None (tok ++ [x00])) (N.of_nat (length tok)) alg Null 0 Null 0 Null 0 Null 0
    false false false 0 0 0 key klen Null 0.
(** Return code, flags and claims count. *)
Definition verdict_of (m : res dec_res) : option (Z * option N * option N) :=
  match m with
  | Ret r _ => Some (dr_rc r, dr_valid r, option_map snd (dr_claims r))
  | Undef _ => None
  end.
(** The token made by the encoding example: HS256, key "secret". *)
Definition sample_token : bytes :=
  match l8w8jwt_encode pe toy (Some ep_sample) we with
  | Ret (EncRes _ (Some (Ptr _ m)) (Some n)) _ => firstn (N.to_nat n) m
  | _ => []
  end.

(** ** Notions *)
(** [url_decodes t o tail]: l8w8jwt_base64_decode (base64url) turns the text [t] into the bytes
    [o], in a block where they are followed by [tail]. *)
Definition url_decodes (t o tail : bytes) : Prop :=
  forall w, wf w -> w_alloc w (w_next w) = true ->
  exists id w', l8w8jwt_base64_decode true (Ptr None t) (N.of_nat (length t)) true true w
    = Ret (B64 L8W8JWT_SUCCESS (Some (Ptr (Some id) (o ++ tail))) (Some (N.of_nat (length o)))) w'.

Lemma b64_decodes_url t o tail : b64_decodes t o tail -> url_decodes t o tail.
Proof.
  intros Hd w Hwf Ha.
  destruct (decode_cases true None t (N.of_nat (length t)) w Hwf (N.le_refl _)) as (r & w' & H & _ & Hc).
  rewrite Nat2N.id, firstn_all, syms_strip in Hc. destruct Hd as (Ht & Hb & lf & Hd & ->).
  rewrite H. destruct Hc as [(Hrc & Ho & Hn & Hlv)|(Hrc & _ & -> & _ & _ & o' & lf' & z & Hd' & -> & Ho & Hn)].
  - exfalso. revert H Hrc. assert (Hl0 : (0 < length t)%nat) by (destruct t; [congruence|simpl; lia]).
    rewrite base64_decode_fun by (auto; lia).
    cbv zeta. rewrite Nat2N.id, firstn_all, syms_strip, Hb, Ha. cbn [negb]. rewrite Hd.
    intros H. inversion H; subst. cbn. congruence.
  - rewrite Hd in Hd'. inversion Hd'; subst. destruct r; simpl in Hrc, Ho, Hn. subst. eauto.
Qed.

(** [text dp jwt]: the token text object the caller passed. *)
Definition text (dp : dec_params) (jwt : bytes) : Prop := exists b, dp_jwt dp = Ptr b jwt.
(** The third segment as the decoder cuts it: what remains of jwt_length after the second dot. *)
Definition third_segment (p : platform) (dp : dec_params) (h pl rest third : bytes) : Prop :=
  exists n, n = to_size p (Z.of_N (dp_jwt_length dp) - Z.of_nat (length h + length pl + 2))
    /\ (n <= N.of_nat (length rest))%N /\ third = firstn (N.to_nat n) rest.

(** ** C19 *)
Lemma decode_signature p e dp cn ln w r w' v j k :
  wf w -> l8w8jwt_decode p e (Some dp) true cn ln w = Ret r w' ->
  dr_rc r = L8W8JWT_SUCCESS -> dr_valid r = Some v ->
  supported (dp_alg dp) j -> caller_key (dp_verification_key dp) (dp_verification_key_length dp) k ->
  hex_if_ed j k ->
  exists jwt h pl rest third sig tail,
    text dp jwt /\ three_parts jwt h pl rest /\ third_segment p dp h pl rest third
    /\ b64_decodes third sig tail
    /\ (N.testbit v 7 = false <->
        exists looked, signature_read e j k sig tail looked /\ verified_by e j k (h ++ lit "." ++ pl) looked).
Proof.
  intros Hwf H Hrc Hv Hj Hk Hx. apply decode_success in H; auto.
  destruct H as (dp' & st & w1 & E & _ & _ & _ & Ha & Hs & Hv' & _). inversion E; subst dp'. clear E.
  destruct Hs as (sg & w2 & res1 & w3 & c1 & w4 & c2 & res2 & H1 & H2 & _ & _ & H5 & ->).
  cbn [ds_res] in Hv'. assert (v = res2) by congruence. subst res2.
  assert (Hwf1 : wf (w_ok w)) by (eapply adds_wf; [apply adds_ok|exact Hwf]).
  destruct (decode_segments_inv _ _ _ _ _ _ Hwf1 H1) as (Hadd & _ & Hok). specialize (Hok eq_refl).
  assert (Ralg : dp_alg dp <> (-1)%Z).
  { destruct (supported_range _ _ Hj). lia. }
  destruct Hok as (b & jwt & Ej & [(h & pl & rest & n & H3 & En & Hn & _ & _ & Hsig)|(Ea & _)]); [|contradiction].
  destruct Hsig as (id & sig & tail & Hd & Es).
  assert (Hwf2 : wf w2) by (eapply adds_wf; eauto).
  rewrite Es in H2. cbn [s_ptr s_len] in H2.
  destruct (verify_signature_inv _ _ _ _ _ _ _ _ _ _ Hwf2 H2) as (_ & [([C|[C|C]] & _)|(b' & s' & vd & _ & E & _ & Hb & Er)]).
  - contradiction.
  - discriminate.
  - apply b64_decodes_len in Hd as [L _]. lia.
  - inversion E; subst b' s'. destruct vd as [rc|f].
    { exfalso. cbn [verdict_result] in Er. assert (rc = L8W8JWT_SUCCESS) by congruence. subst rc.
      revert Hb. clear. unfold verify_body. intros H.
      apply ubind_inv in H as (key & _ & H). apply ubind_inv in H as (kl & _ & H).
      apply ubind_inv in H as (o & _ & H). destruct o as [crt|]; [|discriminate].
      apply ubind_inv in H as (jwt & _ & H). apply ubind_inv in H as (n1 & _ & H).
      destruct n1; [|discriminate]. apply ubind_inv in H as (n2 & _ & H). destruct n2; [|discriminate].
      destruct (verify_hash _ _ _); [|discriminate]. unfold verify_switch in H.
      destruct (dec_md_info_from_alg (dp_alg dp)); [|discriminate].
      assert (P : forall (x : U (option pk)) g, (o <-u x;; match o with Some pk => g pk
        | None => OK (VExit L8W8JWT_KEY_PARSE_FAILURE) end) = OK (VExit L8W8JWT_SUCCESS) ->
        exists pk, g pk = OK (VExit L8W8JWT_SUCCESS)).
      { intros x g Hx. apply ubind_inv in Hx as (o & _ & Hx). destruct o; [eauto|discriminate]. }
      destruct (dp_alg dp) as [|a|a].
      - apply ubind_inv in H as (s & _ & H). destruct (e_hmac _ _ _ _); [|discriminate].
        apply ubind_inv in H as (q & _ & H). discriminate.
      - do 4 (try (destruct a as [a|a|]; try discriminate H));
        first
        [ (apply ubind_inv in H as (s & _ & H); destruct (e_hmac _ _ _ _); [|discriminate];
           apply ubind_inv in H as (q & _ & H); discriminate)
        | (apply P in H as (pk & H); apply ubind_inv in H as (s & _ & H); discriminate)
        | (apply P in H as (pk & H); destruct (negb (e_pk_rsa e pk)); [discriminate|];
           apply ubind_inv in H as (s & _ & H); discriminate)
        | (apply P in H as (pk & H); cbv zeta in H; destruct (negb (e_pk_ec e pk)); [discriminate|];
           destruct (negb (e_ecdsa_from_keypair e pk)); [discriminate|];
           apply ubind_inv in H as (s & _ & H); apply ubind_inv in H as (q & _ & H); discriminate)
        | (destruct (negb (p_eddsa p)); [discriminate|];
           apply ubind_inv in H as (ok & _ & H); destruct (negb ok); [discriminate|];
           apply ubind_inv in H as ([[r out] x] & _ & H); destruct (negb (r =? 0)%Z); [discriminate|];
           destruct out; [|discriminate]; apply ubind_inv in H as (s & _ & H); discriminate) ].
      - discriminate. }
    apply (verify_body_inv p e dp j b jwt h pl rest k sig tail f) in Hb; auto.
    exists jwt, h, pl, rest, (firstn (N.to_nat n) rest), sig, tail.
    split; [exists b; exact Ej|]. split; [exact H3|]. split; [exists n; auto|]. split; [exact Hd|].
    apply validate_claims_bit7 in H5. rewrite H5. unfold verified_iff in Hb. rewrite <- Hb.
    cbn [verdict_result] in Er. replace res1 with (if f then N.lor L8W8JWT_VALID L8W8JWT_SIGNATURE_VERIFICATION_FAILURE
      else L8W8JWT_VALID) by congruence. destruct f; vm_compute; intuition discriminate.
Qed.

(** For every supported algorithm: if l8w8jwt_decode succeeds, the token text is h.p.rest, its
    third segment decodes to some [sig], and the signature flag is clear if and only if the
    algorithm's verification with the caller's key over h.p accepts the bytes it looked at.
    [signature_read] says which these are: [sig] itself for RS*, for the others a number of bytes
    fixed by algorithm and key, read from the start of [sig] and its buffer. (For Ed25519 the key is
    assumed to be hex digits; what the library does with others is not a verification.)
    Missing with respect to the claim: that the bytes looked at are exactly [sig]; the next theorem
    says when they are, the refutation shows that it is false in general. *)
Theorem C19_signature_enforced_partial :
  forall p e dp cn ln w r w' v j k,
    wf w -> l8w8jwt_decode p e (Some dp) true cn ln w = Ret r w' ->
    dr_rc r = L8W8JWT_SUCCESS -> dr_valid r = Some v ->
    supported (dp_alg dp) j -> caller_key (dp_verification_key dp) (dp_verification_key_length dp) k ->
    hex_if_ed j k ->
    exists jwt h pl rest third sig tail,
      text dp jwt /\ three_parts jwt h pl rest /\ third_segment p dp h pl rest third
      /\ url_decodes third sig tail
      /\ (N.testbit v 7 = false <->
          exists looked, signature_read e j k sig tail looked /\ verified_by e j k (h ++ lit "." ++ pl) looked).
Proof.
  intros p e dp cn ln w r w' v j k Hwf H Hrc Hv Hj Hk Hx.
  destruct (decode_signature p e dp cn ln w r w' v j k Hwf H Hrc Hv Hj Hk Hx)
    as (jwt & h & pl & rest & third & sig & tail & H1 & H2 & H3 & H4 & H5).
  exists jwt, h, pl, rest, third, sig, tail. apply b64_decodes_url in H4. auto.
Qed.
Print Assumptions C19_signature_enforced_partial.

(** The number of signature bytes algorithm [j] works with under the caller's key. *)
Definition right_length (e : env) (j : jwa) (k sig : bytes) : Prop :=
  match j_family j with
  | HS => N.of_nat (length sig) = md_size (j_hash j)
  | RS => True
  | PS => forall key, public_key_of e k key -> N.of_nat (length sig) = e_rsa_len e key
  | ES _ _ _ => Nat.even (length sig) = true
  | ED => length sig = 64%nat
  end.
Lemma right_length_read e j k sig tail looked :
  right_length e j k sig -> signature_read e j k sig tail looked -> looked = sig.
Proof.
  unfold right_length, signature_read. destruct (j_family j).
  - intros <- ->. rewrite Nat2N.id. apply firstn_app_exact.
  - auto.
  - intros Hr (key & Hk & ->). rewrite <- (Hr _ Hk), Nat2N.id. apply firstn_app_exact.
  - intros Hr ->. apply Nat.even_spec in Hr as (m & Em).
    replace (2 * (length sig / 2))%nat with (length sig) by lia. apply firstn_all.
  - intros <- ->. apply firstn_app_exact.
Qed.
(** With a signature of the length the algorithm works with, the flag is clear if and only if the
    decoded third segment itself verifies. *)
Theorem C19_signature_exact_partial :
  forall p e dp cn ln w r w' v j k,
    wf w -> l8w8jwt_decode p e (Some dp) true cn ln w = Ret r w' ->
    dr_rc r = L8W8JWT_SUCCESS -> dr_valid r = Some v ->
    supported (dp_alg dp) j -> caller_key (dp_verification_key dp) (dp_verification_key_length dp) k ->
    hex_if_ed j k ->
    exists jwt h pl rest third sig tail,
      text dp jwt /\ three_parts jwt h pl rest /\ third_segment p dp h pl rest third
      /\ url_decodes third sig tail
      /\ (right_length e j k sig -> N.testbit v 7 = false -> verified_by e j k (h ++ lit "." ++ pl) sig).
Proof.
  intros p e dp cn ln w r w' v j k Hwf H Hrc Hv Hj Hk Hx.
  destruct (C19_signature_enforced_partial p e dp cn ln w r w' v j k Hwf H Hrc Hv Hj Hk Hx)
    as (jwt & h & pl & rest & third & sig & tail & H1 & H2 & H3 & H4 & H5).
  exists jwt, h, pl, rest, third, sig, tail. split; [exact H1|]. split; [exact H2|]. split; [exact H3|].
  split; [exact H4|]. intros Hr Hb. apply H5 in Hb as (looked & Hl & Hver).
  rewrite (right_length_read _ _ _ _ _ _ Hr Hl) in Hver. exact Hver.
Qed.
Print Assumptions C19_signature_exact_partial.

(** The sample token is accepted with its key; its signature is the MAC. *)
Example C19_example :
  verdict_of (l8w8jwt_decode pe toy (Some (dp_plain sample_token 0 (zstr "secret") 6)) true true true we)
  = Some (L8W8JWT_SUCCESS, Some 0%N, Some 9%N)
  /\ verdict_of (l8w8jwt_decode pe toy (Some (dp_plain sample_token 0 (zstr "Secret") 6)) true true true we)
     = Some (L8W8JWT_SUCCESS, Some 128%N, Some 9%N).
Proof. split; vm_compute; reflexivity. Qed.

Lemma jwa_eq alg j j' : supported alg j -> supported alg j' -> j = j'.
Proof. intros H H'. exact (supported_unique _ _ _ H H'). Qed.
Definition hs256 : jwa := Eval vm_compute in nth 0 jwa_table (Jwa 0 [] HS SHA256).
Lemma hs256_supported : supported 0 hs256 /\ j_family hs256 = HS /\ j_hash hs256 = SHA256.
Proof. repeat split. left. reflexivity. Qed.
Lemma hmac_key_secret : caller_key (zstr "secret") 6 (lit "secret") /\ hmac_key (lit "secret") = lit "secret".
Proof.
  split; [|reflexivity]. exists None, (clit "secret"). split; [reflexivity|]. split; [|reflexivity].
  vm_compute. discriminate.
Qed.

(** False as stated: with four characters appended to its third segment the sample token is still
    valid, although the decoded segment is not the MAC. *)
Theorem C19_signature_enforced_refuted :
  exists p e dp w r w' j k h pl third sig tail,
    wf w /\ l8w8jwt_decode p e (Some dp) true true true w = Ret r w'
    /\ dr_rc r = L8W8JWT_SUCCESS /\ dr_valid r = Some L8W8JWT_VALID
    /\ supported (dp_alg dp) j /\ caller_key (dp_verification_key dp) (dp_verification_key_length dp) k
    /\ text dp ((h ++ lit "." ++ pl ++ lit "." ++ third) ++ [x00]) /\ no_dot h /\ no_dot pl /\ no_dot third
    /\ url_decodes third sig tail
    /\ ~ verified_by e j k (h ++ lit "." ++ pl) sig.
Proof.
  set (h := firstn 51 sample_token). set (pl := firstn 118 (skipn 52 sample_token)).
  set (third := skipn 171 sample_token ++ lit "AAAA").
  set (o := match dec_all true (syms true third) with Some (o, _) => o | None => [] end).
  set (lf := match dec_all true (syms true third) with Some (_, lf) => lf | None => [] end).
  exists pe, toy, (dp_plain (sample_token ++ lit "AAAA") 0 (zstr "secret") 6), we.
  eexists. eexists. exists hs256, (lit "secret"), h, pl, third, o,
    (lf ++ repeat x00 (dec_size (length (syms true third)) - (length o + length lf))).
  split; [apply we_wf|]. split; [vm_compute; reflexivity|].
  split; [reflexivity|]. split; [reflexivity|]. split; [apply hs256_supported|].
  split; [apply hmac_key_secret|]. split; [exists None; vm_compute; reflexivity|].
  split; [vm_compute; intuition discriminate|]. split; [vm_compute; intuition discriminate|].
  split; [vm_compute; intuition discriminate|].
  split.
  - apply b64_decodes_url. split; [vm_compute; discriminate|]. split; [vm_compute; reflexivity|].
    exists lf. split; [vm_compute; reflexivity|reflexivity].
  - intros H. assert (E : length o = 35%nat) by (vm_compute; reflexivity). unfold verified_by in H.
    destruct hs256_supported as (_ & Hf & Hh). rewrite Hf, Hh in H. destruct H as (mac & _ & Em).
    rewrite Em, fit_length in E. discriminate.
Qed.
Print Assumptions C19_signature_enforced_refuted.

(** ** C20 *)
(** [e1] treats the message [m1] exactly as [e2] treats [m2], and they agree on everything else
    signature verification uses. *)
Record same_treatment (e1 : env) (m1 : bytes) (e2 : env) (m2 : bytes) : Prop := {
  st_hmac : forall h k, e_hmac e1 h k m1 = e_hmac e2 h k m2;
  st_md : forall h, e_md e1 h m1 = e_md e2 h m2;
  st_ed : forall s k, e_ed_verify e1 s m1 k = e_ed_verify e2 s m2 k;
  st_x509 : forall k, e_x509_parse e1 k = e_x509_parse e2 k;
  st_pub : forall k, e_parse_public_key e1 k = e_parse_public_key e2 k;
  st_verify : forall k h d s, e_pk_verify e1 k h d s = e_pk_verify e2 k h d s;
  st_rsa : forall k, e_pk_rsa e1 k = e_pk_rsa e2 k;
  st_rsalen : forall k, e_rsa_len e1 k = e_rsa_len e2 k;
  st_pss : forall k h d s, e_pss_verify e1 k h d s = e_pss_verify e2 k h d s;
  st_ec : forall k, e_pk_ec e1 k = e_pk_ec e2 k;
  st_kp : forall k, e_ecdsa_from_keypair e1 k = e_ecdsa_from_keypair e2 k;
  st_ecdsa : forall k d r s, e_ecdsa_verify e1 k d r s = e_ecdsa_verify e2 k d r s }.

Lemma ubind_ext {A B} (x : U A) (f g : A -> U B) : (forall a, f a = g a) -> ubind x f = ubind x g.
Proof. intros H. destruct x; cbn [ubind]; auto. Qed.
Lemma mbind_ext2 {A B} (x y : M A) (f g : A -> M B) w :
  x w = y w -> (forall a w', f a w' = g a w') -> mbind x f w = mbind y g w.
Proof. intros E H. unfold mbind. rewrite E. destruct (y w); auto. Qed.
Lemma mbind_ext {A B} (x : M A) (f g : A -> M B) w :
  (forall a w', f a w' = g a w') -> mbind x f w = mbind x g w.
Proof. apply mbind_ext2. reflexivity. Qed.

Lemma verify_switch_same p e1 m1 e2 m2 alg crt key kl hash sig n :
  same_treatment e1 m1 e2 m2 ->
  verify_switch p e1 alg crt key kl m1 hash sig n = verify_switch p e2 alg crt key kl m2 hash sig n.
Proof.
  intros S. unfold verify_switch. destruct (dec_md_info_from_alg alg) as [h|]; [|reflexivity].
  assert (P : public_key e1 crt key kl = public_key e2 crt key kl).
  { unfold public_key. destruct crt; [reflexivity|]. unfold ubind. destruct (take key kl); [|reflexivity].
    rewrite (st_pub _ _ _ _ S). reflexivity. }
  rewrite P.
  assert (HS' : forall z, (k <-u take key (kl - 1);;
     match e_hmac e1 h k m1 with
     | Some mac => eq <-u memcmp_eq sig (fit 64 (fit (md_size h) mac)) z;; OK (VFlag (negb eq))
     | None => OK (VFlag true) end)
   = (k <-u take key (kl - 1);;
     match e_hmac e2 h k m2 with
     | Some mac => eq <-u memcmp_eq sig (fit 64 (fit (md_size h) mac)) z;; OK (VFlag (negb eq))
     | None => OK (VFlag true) end)).
  { intros z. unfold ubind at 1 3. destruct (take key (kl - 1)); [|reflexivity].
    rewrite (st_hmac _ _ _ _ S). reflexivity. }
  assert (RS' : (o <-u public_key e2 crt key kl;;
     match o with
     | Some pk => s <-u take sig n;; OK (VFlag (negb (e_pk_verify e1 pk h hash s)))
     | None => OK (VExit L8W8JWT_KEY_PARSE_FAILURE) end)
   = (o <-u public_key e2 crt key kl;;
     match o with
     | Some pk => s <-u take sig n;; OK (VFlag (negb (e_pk_verify e2 pk h hash s)))
     | None => OK (VExit L8W8JWT_KEY_PARSE_FAILURE) end)).
  { unfold ubind. destruct (public_key e2 crt key kl) as [[pk|]|]; try reflexivity.
    destruct (take sig n); [|reflexivity]. rewrite (st_verify _ _ _ _ S). reflexivity. }
  assert (PS' : (o <-u public_key e2 crt key kl;;
     match o with
     | Some pk => if negb (e_pk_rsa e1 pk) then KO NullDeref else
         s <-u take sig (e_rsa_len e1 pk);; OK (VFlag (negb (e_pss_verify e1 pk h hash s)))
     | None => OK (VExit L8W8JWT_KEY_PARSE_FAILURE) end)
   = (o <-u public_key e2 crt key kl;;
     match o with
     | Some pk => if negb (e_pk_rsa e2 pk) then KO NullDeref else
         s <-u take sig (e_rsa_len e2 pk);; OK (VFlag (negb (e_pss_verify e2 pk h hash s)))
     | None => OK (VExit L8W8JWT_KEY_PARSE_FAILURE) end)).
  { unfold ubind. destruct (public_key e2 crt key kl) as [[pk|]|]; try reflexivity.
    rewrite (st_rsa _ _ _ _ S), (st_rsalen _ _ _ _ S). destruct (negb _); [reflexivity|].
    destruct (take sig (e_rsa_len e2 pk)); [|reflexivity]. rewrite (st_pss _ _ _ _ S). reflexivity. }
  assert (ES' : (o <-u public_key e2 crt key kl;;
     match o with
     | Some pk => let half := (n / 2)%N in
         if negb (e_pk_ec e1 pk) then KO NullDeref
         else if negb (e_ecdsa_from_keypair e1 pk) then OK (VExit L8W8JWT_KEY_PARSE_FAILURE)
         else r <-u take sig half;; s <-u take (skipn (N.to_nat half) sig) half;;
              OK (VFlag (negb (e_ecdsa_verify e1 pk hash (mpi_read_binary r) (mpi_read_binary s))))
     | None => OK (VExit L8W8JWT_KEY_PARSE_FAILURE) end)
   = (o <-u public_key e2 crt key kl;;
     match o with
     | Some pk => let half := (n / 2)%N in
         if negb (e_pk_ec e2 pk) then KO NullDeref
         else if negb (e_ecdsa_from_keypair e2 pk) then OK (VExit L8W8JWT_KEY_PARSE_FAILURE)
         else r <-u take sig half;; s <-u take (skipn (N.to_nat half) sig) half;;
              OK (VFlag (negb (e_ecdsa_verify e2 pk hash (mpi_read_binary r) (mpi_read_binary s))))
     | None => OK (VExit L8W8JWT_KEY_PARSE_FAILURE) end)).
  { unfold ubind. destruct (public_key e2 crt key kl) as [[pk|]|]; try reflexivity. cbv zeta.
    rewrite (st_ec _ _ _ _ S), (st_kp _ _ _ _ S). destruct (negb _); [reflexivity|].
    destruct (negb _); [reflexivity|]. destruct (take sig (n / 2)); [|reflexivity].
    destruct (take (skipn (N.to_nat (n / 2)) sig) (n / 2)); [|reflexivity].
    rewrite (st_ecdsa _ _ _ _ S). reflexivity. }
  assert (ED' : forall m, (s <-u take sig 64;; OK (VFlag (negb (e_ed_verify e1 s m1 m))))
                        = (s <-u take sig 64;; OK (VFlag (negb (e_ed_verify e2 s m2 m))))).
  { intros m. unfold ubind. destruct (take sig 64); [|reflexivity]. rewrite (st_ed _ _ _ _ S). reflexivity. }
  assert (ED'' : forall (x : U (Z * option bytes * option N)), ('(r, out, _) <-u x ;;
              if negb (r =? 0)%Z then OK (VExit L8W8JWT_WRONG_KEY_TYPE)
              else match out with None => KO UninitUse
                   | Some pub => s <-u take sig 64 ;; OK (VFlag (negb (e_ed_verify e1 s m1 (firstn 32 pub)))) end)
     = ('(r, out, _) <-u x ;;
              if negb (r =? 0)%Z then OK (VExit L8W8JWT_WRONG_KEY_TYPE)
              else match out with None => KO UninitUse
                   | Some pub => s <-u take sig 64 ;; OK (VFlag (negb (e_ed_verify e2 s m2 (firstn 32 pub)))) end)).
  { intros [[[r out] o]|u]; cbn [ubind]; [|reflexivity]. destruct (negb _); [reflexivity|].
    destruct out as [pub|]; [|reflexivity]. apply ED'. }
  destruct alg as [|a|a]; [apply HS'| |reflexivity].
  do 4 (try (destruct a as [a|a|]; try reflexivity)); try apply HS'; try apply RS'; try apply PS'; try apply ES'.
  destruct (negb (p_eddsa p)); [reflexivity|].
  match goal with |- ubind ?x _ = ubind ?x _ => destruct x as [ok|u]; cbn [ubind]; [|reflexivity] end.
  destruct (negb ok); [reflexivity|]. apply ED''.
Qed.

(** Two tokens decoded with the same algorithm and key, by crypto backends that treat the one
    signing input as the other treats the other one: signature verification is the same
    computation on the same decoded signature. So nothing else in the token text, in particular
    nothing its header says, influences the verdict. *)
Theorem C20_token_cannot_choose :
  forall p e1 e2 dp1 dp2 jwt1 jwt2 h1 h2 p1 p2 r1 r2,
    dp_alg dp1 = dp_alg dp2 ->
    dp_verification_key dp1 = dp_verification_key dp2 ->
    dp_verification_key_length dp1 = dp_verification_key_length dp2 ->
    text dp1 jwt1 -> three_parts jwt1 h1 p1 r1 ->
    text dp2 jwt2 -> three_parts jwt2 h2 p2 r2 ->
    same_treatment e1 (h1 ++ lit "." ++ p1) e2 (h2 ++ lit "." ++ p2) ->
    forall res q n w,
      l8w8jwt_verify_signature p e1 dp1 res q n w = l8w8jwt_verify_signature p e2 dp2 res q n w.
Proof.
  intros p e1 e2 dp1 dp2 jwt1 jwt2 h1 h2 p1 p2 r1 r2 Ea Ek El (b1 & T1) P1 (b2 & T2) P2 S res q n w.
  assert (B : forall sig, verify_body p e1 dp1 sig n = verify_body p e2 dp2 sig n).
  { intros sig. unfold verify_body. rewrite Ek, El, T1, T2, Ea.
    destruct (signing_input_cut _ _ _ _ P1) as (A1 & A2 & A3).
    destruct (signing_input_cut _ _ _ _ P2) as (B1 & B2 & B3).
    apply ubind_ext. intros key. apply ubind_ext. intros kl.
    assert (C : load_cert e1 key kl = load_cert e2 key kl).
    { unfold load_cert. apply ubind_ext. intros []; [|reflexivity]. apply ubind_ext. intros k.
      rewrite (st_x509 _ _ _ _ S). reflexivity. }
    rewrite C. apply ubind_ext. intros [crt|]; [|reflexivity].
    cbn [deref ubind]. rewrite A1, B1. cbn [ubind]. rewrite A2, B2. cbn [ubind]. rewrite A3, B3.
    assert (Hh : verify_hash e1 (dp_alg dp2) (h1 ++ lit "." ++ p1) = verify_hash e2 (dp_alg dp2) (h2 ++ lit "." ++ p2)).
    { unfold verify_hash. destruct (_ && _)%Z; [|reflexivity]. destruct (dec_md_info_from_alg _); [|reflexivity].
      rewrite (st_md _ _ _ _ S). reflexivity. }
    rewrite Hh. destruct (verify_hash e2 _ _); [|reflexivity]. apply verify_switch_same. exact S. }
  unfold l8w8jwt_verify_signature. rewrite Ea.
  destruct (_ || _ || _); [reflexivity|]. destruct (p_small_stack p).
  - cbv zeta. apply mbind_ext. intros key w1. apply mbind_ext2.
    + destruct (is_null key); [reflexivity|]. apply mbind_ext. intros sig w2. rewrite B. reflexivity.
    + reflexivity.
  - cbv zeta. apply mbind_ext. intros sig w1. rewrite B. reflexivity.
Qed.
Print Assumptions C20_token_cannot_choose.

(** A backend whose MACs do not depend on the message treats any two messages alike; the header
    saying "none" or "HS256" makes no difference to the verdict (the second and third token are
    rejected, the first has the MAC as its signature). *)
Definition toy_flat : env := {|
  e_seed_ok := true; e_hmac := fun h k _ => Some (fit (md_size h) k); e_md := fun h _ => Some (fit (md_size h) []);
  e_parse_key := e_parse_key toy; e_parse_public_key := e_parse_public_key toy; e_x509_parse := e_x509_parse toy;
  e_can_do := e_can_do toy; e_bitlen := e_bitlen toy; e_pk_sign := e_pk_sign toy;
  e_pk_verify := e_pk_verify toy; e_pk_rsa := e_pk_rsa toy; e_rsa_len := e_rsa_len toy;
  e_pss_sign := e_pss_sign toy; e_pss_verify := e_pss_verify toy; e_pk_ec := e_pk_ec toy;
  e_ecdsa_from_keypair := e_ecdsa_from_keypair toy; e_group := e_group toy;
  e_ecdsa_sign := e_ecdsa_sign toy; e_ecdsa_verify := e_ecdsa_verify toy;
  e_ed_sign := e_ed_sign toy; e_ed_verify := e_ed_verify toy; e_time := e_time toy;
  e_checknum := e_checknum toy; e_jsmn := e_jsmn toy; e_tok_junk := e_tok_junk toy |}.
Example C20_example :
  (forall m1 m2, same_treatment toy_flat m1 toy_flat m2)
  /\ let run tok := verdict_of (l8w8jwt_decode pe toy_flat (Some (dp_plain tok 0 (zstr "secret") 6)) true true true we) in
     run (lit "eyJhbGciOiJub25lIn0.e30.c2VjcmV0AAAAAAAAAAAAAAAAAAAAAAAAAAAAAAAAAAA") = Some (L8W8JWT_SUCCESS, Some 0%N, Some 1%N)
     /\ run (lit "eyJhbGciOiJub25lIn0.e30.c2VjcmV0BBBBBBBBBBBBBBBBBBBBBBBBBBBBBBBBBBB") = Some (L8W8JWT_SUCCESS, Some 128%N, Some 1%N)
     /\ run (lit "eyJhbGciOiJIUzI1NiJ9.e30.c2VjcmV0BBBBBBBBBBBBBBBBBBBBBBBBBBBBBBBBBBB") = Some (L8W8JWT_SUCCESS, Some 128%N, Some 1%N).
Proof. split; [intros; constructor; reflexivity|]. vm_compute. auto. Qed.

(** ** C21 *)
Definition with_alg (dp : dec_params) (a : Z) : dec_params :=
  DecParams (dp_jwt dp) (dp_jwt_length dp) a (dp_validate_iss dp) (dp_validate_iss_length dp)
    (dp_validate_sub dp) (dp_validate_sub_length dp) (dp_validate_aud dp) (dp_validate_aud_length dp)
    (dp_validate_jti dp) (dp_validate_jti_length dp) (dp_validate_exp dp) (dp_validate_nbf dp)
    (dp_validate_iat dp) (dp_exp_tolerance dp) (dp_nbf_tolerance dp) (dp_iat_tolerance dp)
    (dp_verification_key dp) (dp_verification_key_length dp) (dp_validate_typ dp) (dp_validate_typ_length dp).
Definition unknown_alg (a : Z) : Prop := a <> (-1)%Z /\ forall j, ~ supported a j.

Lemma unknown_alg_range a : unknown_alg a -> (a < -1 \/ 13 < a)%Z.
Proof.
  intros [H1 H2]. destruct (Z_lt_le_dec a 0) as [|Hl]; [lia|]. destruct (Z_lt_le_dec 13 a); [lia|].
  destruct (supported_exists a) as (j & Hj); [lia|]. destruct (H2 j Hj).
Qed.
Lemma unknown_alg_same p e dp a b cn ln w :
  unknown_alg a -> unknown_alg b ->
  l8w8jwt_decode p e (Some (with_alg dp a)) true cn ln w = l8w8jwt_decode p e (Some (with_alg dp b)) true cn ln w.
Proof.
  intros Ha Hb. apply unknown_alg_range in Ha. apply unknown_alg_range in Hb.
  assert (Ma : dec_md_info_from_alg a = None) by (destruct a as [|q|q]; [lia| |reflexivity];
    do 4 (try (destruct q as [q|q|]; try reflexivity)); lia).
  assert (Mb : dec_md_info_from_alg b = None) by (destruct b as [|q|q]; [lia| |reflexivity];
    do 4 (try (destruct q as [q|q|]; try reflexivity)); lia).
  assert (V : l8w8jwt_validate_decoding_params p (Some (with_alg dp a)) = l8w8jwt_validate_decoding_params p (Some (with_alg dp b))).
  { unfold l8w8jwt_validate_decoding_params, with_alg. cbn [dp_jwt dp_verification_key dp_jwt_length
      dp_verification_key_length dp_alg]. change L8W8JWT_ALG_ED25519 with 13%Z.
    replace (a =? 13)%Z with false by lia. replace (b =? 13)%Z with false by lia. reflexivity. }
  assert (D : l8w8jwt_decode_segments p (with_alg dp a) = l8w8jwt_decode_segments p (with_alg dp b)).
  { unfold l8w8jwt_decode_segments. change (dp_alg (with_alg dp a)) with a. change (dp_alg (with_alg dp b)) with b.
    replace (a =? -1)%Z with false by lia. replace (b =? -1)%Z with false by lia. reflexivity. }
  assert (B : forall sig n, verify_body p e (with_alg dp a) sig n = verify_body p e (with_alg dp b) sig n).
  { intros sig n. unfold verify_body. change (dp_alg (with_alg dp a)) with a. change (dp_alg (with_alg dp b)) with b.
    assert (Hh : forall m, verify_hash e a m = verify_hash e b m).
    { intros m. unfold verify_hash. replace (_ && _)%Z with false by lia. replace (_ && _)%Z with false by lia. reflexivity. }
    assert (Sw : forall c k l m h s q, verify_switch p e a c k l m h s q = verify_switch p e b c k l m h s q).
    { intros. unfold verify_switch. rewrite Ma, Mb. reflexivity. }
    apply ubind_ext. intros key. apply ubind_ext. intros kl. apply ubind_ext. intros [crt|]; [|reflexivity].
    apply ubind_ext. intros jwt. apply ubind_ext. intros [n1|]; [|reflexivity].
    apply ubind_ext. intros [n2|]; [|reflexivity]. cbv zeta. rewrite Hh. destruct (verify_hash e b _); [|reflexivity].
    apply Sw. }
  assert (S : forall res q n w', l8w8jwt_verify_signature p e (with_alg dp a) res q n w'
                               = l8w8jwt_verify_signature p e (with_alg dp b) res q n w').
  { intros res q n w'. unfold l8w8jwt_verify_signature.
    change (dp_alg (with_alg dp a)) with a. change (dp_alg (with_alg dp b)) with b.
    replace (a =? -1)%Z with false by lia. replace (b =? -1)%Z with false by lia.
    destruct (_ || _ || _); [reflexivity|]. destruct (p_small_stack p).
    - cbv zeta. apply mbind_ext. intros key w1. apply mbind_ext2.
      + destruct (is_null key); [reflexivity|]. apply mbind_ext. intros sig w2. rewrite B. reflexivity.
      + reflexivity.
    - cbv zeta. apply mbind_ext. intros sig w1. rewrite B. reflexivity. }
  assert (Bd : forall c w', decode_body p e (with_alg dp a) c w' = decode_body p e (with_alg dp b) c w').
  { intros c w'. unfold decode_body. rewrite D. apply mbind_ext. intros [r sg] w1. destruct (negb _); [reflexivity|].
    apply mbind_ext2; [apply S|]. reflexivity. }
  unfold l8w8jwt_decode. rewrite V. destruct (_ && _); [reflexivity|]. cbv zeta. destruct (negb _); [reflexivity|].
  cbn [negb]. apply mbind_ext. intros [claims|] w1; [|reflexivity]. apply mbind_ext2; [apply Bd|]. reflexivity.
Qed.

(** False for every unsupported id: the token e30.e30.AA, whose signature is one zero byte, is
    reported as valid. *)
Theorem C21_unsupported_alg_refuted :
  forall alg, unknown_alg alg ->
  exists p e dp w r w', wf w /\ dp_alg dp = alg
    /\ l8w8jwt_decode p e (Some dp) true true true w = Ret r w'
    /\ dr_rc r = L8W8JWT_SUCCESS /\ dr_valid r = Some L8W8JWT_VALID.
Proof.
  intros alg Ha. exists pe, toy, (with_alg (dp_plain (lit "e30.e30.AA") (-2) (zstr "secret") 6) alg), we.
  assert (Hb : unknown_alg (-2)).
  { split; [discriminate|]. intros j H. apply supported_range in H. lia. }
  rewrite (unknown_alg_same _ _ _ alg (-2) _ _ _ Ha Hb).
  eexists. eexists. split; [apply we_wf|]. split; [reflexivity|]. split; [vm_compute; reflexivity|].
  split; reflexivity.
Qed.
Print Assumptions C21_unsupported_alg_refuted.

(** What holds: without a second dot nothing is accepted, and where Ed25519 is not compiled in its
    id is refused as unsupported. *)
Theorem C21_unsupported_alg_partial :
  (forall p e dp cn ln w r w' b jwt,
    dp_alg dp <> (-1)%Z -> dp_jwt dp = Ptr b jwt -> (forall h pl rest, ~ three_parts jwt h pl rest) ->
    wf w -> l8w8jwt_decode p e (Some dp) true cn ln w = Ret r w' ->
    dr_rc r <> L8W8JWT_SUCCESS /\ dr_valid r <> Some L8W8JWT_VALID)
  /\ (forall p e dp cn ln w r w',
    p_eddsa p = false -> dp_alg dp = 13%Z -> dp_verification_key_length dp <> 0%N ->
    l8w8jwt_decode p e (Some dp) true cn ln w = Ret r w' ->
    dr_rc r <> L8W8JWT_SUCCESS /\ dr_valid r = None).
Proof.
  split.
  - intros p e dp cn ln w r w' b jwt Ha Ej Hn Hwf H.
    assert (Hrc : dr_rc r <> L8W8JWT_SUCCESS).
    { intros Hrc. apply decode_success in H; auto.
      destruct H as (dp' & st & w1 & E & _ & _ & _ & Hal & Hs & _). inversion E; subst dp'. clear E.
      destruct Hs as (sg & w2 & res1 & w3 & c1 & w4 & c2 & res2 & H1 & _).
      assert (Hwf1 : wf (w_ok w)) by (eapply adds_wf; [apply adds_ok|exact Hwf]).
      destruct (decode_segments_inv _ _ _ _ _ _ Hwf1 H1) as (_ & _ & Hok). specialize (Hok eq_refl).
      destruct Hok as (b' & jwt' & Ej' & [(h & pl & rest & n & H3 & _)|(Ea & _)]); [|contradiction].
      rewrite Ej in Ej'. inversion Ej'; subst. exact (Hn _ _ _ H3). }
    split; [exact Hrc|]. apply decode_failure in H as [Hv _]; [|exact Hrc]. destruct Hv as [-> | ->]; discriminate.
  - intros p e dp cn ln w r w' Hp Ha Hk H. unfold l8w8jwt_decode in H.
    assert (V : l8w8jwt_validate_decoding_params p (Some dp) <> L8W8JWT_SUCCESS).
    { unfold l8w8jwt_validate_decoding_params. destruct (_ || _); [discriminate|].
      destruct (_ || _ || _); [discriminate|]. rewrite Hp, Ha. discriminate. }
    destruct (_ && _); [inversion H; subst; split; [discriminate|reflexivity]|].
    destruct (Z.eqb_spec (l8w8jwt_validate_decoding_params p (Some dp)) L8W8JWT_SUCCESS) as [Ev|Ev];
      [contradiction|]. cbn [negb] in H. inversion H; subst. split; [exact Ev|reflexivity].
Qed.
Print Assumptions C21_unsupported_alg_partial.
Example C21_example :
  (forall h pl rest, ~ three_parts (lit "e30.e30" ++ [x00]) h pl rest)
  /\ verdict_of (l8w8jwt_decode pe toy (Some (dp_plain (lit "e30.e30") (-2) (zstr "secret") 6)) true true true we)
     = Some (L8W8JWT_DECODE_FAILED_MISSING_SIGNATURE, Some NOT_VALID, None).
Proof.
  split; [|vm_compute; reflexivity]. intros h pl rest (E & _).
  assert (C : (count_occ Byte.byte_eq_dec (lit "e30.e30" ++ [x00]) x2e >= 2)%nat).
  { rewrite E, !count_occ_app. change (count_occ Byte.byte_eq_dec (lit ".") x2e) with 1%nat. lia. }
  vm_compute in C. lia.
Qed.

(** ** C22 *)
(** With HS256, HS384 and HS512 a token is accepted exactly if the first md_size bytes of the
    decoded signature's buffer are the MAC of the signing input; when the signature has the size
    of the MAC, this is equality. Missing: signatures of other lengths, see the refutations. *)
Theorem C22_hmac_compared_partial :
  forall p e dp cn ln w r w' v j k,
    wf w -> l8w8jwt_decode p e (Some dp) true cn ln w = Ret r w' ->
    dr_rc r = L8W8JWT_SUCCESS -> dr_valid r = Some v ->
    supported (dp_alg dp) j -> j_family j = HS ->
    caller_key (dp_verification_key dp) (dp_verification_key_length dp) k ->
    exists jwt h pl rest third sig tail,
      text dp jwt /\ three_parts jwt h pl rest /\ third_segment p dp h pl rest third
      /\ url_decodes third sig tail
      /\ (N.testbit v 7 = false <->
          exists mac, e_hmac e (j_hash j) (hmac_key k) (h ++ lit "." ++ pl) = Some mac
            /\ firstn (N.to_nat (md_size (j_hash j))) (sig ++ tail) = fit (md_size (j_hash j)) mac)
      /\ (N.of_nat (length sig) = md_size (j_hash j) ->
          (N.testbit v 7 = false <->
           exists mac, e_hmac e (j_hash j) (hmac_key k) (h ++ lit "." ++ pl) = Some mac
             /\ sig = fit (md_size (j_hash j)) mac)).
Proof.
  intros p e dp cn ln w r w' v j k Hwf H Hrc Hv Hj Hf Hk.
  assert (Hx : hex_if_ed j k) by (intros C; congruence).
  destruct (C19_signature_enforced_partial p e dp cn ln w r w' v j k Hwf H Hrc Hv Hj Hk Hx)
    as (jwt & h & pl & rest & third & sig & tail & H1 & H2 & H3 & H4 & H5).
  assert (H6 : N.testbit v 7 = false <->
          exists mac, e_hmac e (j_hash j) (hmac_key k) (h ++ lit "." ++ pl) = Some mac
            /\ firstn (N.to_nat (md_size (j_hash j))) (sig ++ tail) = fit (md_size (j_hash j)) mac).
  { rewrite H5. unfold signature_read, verified_by. rewrite Hf. split.
    - intros (looked & -> & mac & Hm & E). eauto.
    - intros (mac & Hm & E). eexists. split; [reflexivity|]. eauto. }
  exists jwt, h, pl, rest, third, sig, tail. do 5 (split; [assumption|]).
  intros E. rewrite <- E, Nat2N.id, firstn_app_exact in H6. rewrite <- E. exact H6.
Qed.
Print Assumptions C22_hmac_compared_partial.

(** False: a longer signature is accepted (the sample token with four characters appended), and so
    is a shorter one if the MAC ends in bytes the decode buffer happens to hold behind it. *)
Lemma decode_witness third o lf : third <> [] -> bad_count true (length (syms true third)) = false ->
  dec_all true (syms true third) = Some (o, lf) ->
  url_decodes third o (lf ++ repeat x00 (dec_size (length (syms true third)) - (length o + length lf))).
Proof. intros H1 H2 H3. apply b64_decodes_url. split; [exact H1|]. split; [exact H2|]. eauto. Qed.
Definition accepted_mac_mismatch (longer : bool) : Prop :=
  exists p e dp w r w' k h pl third sig tail mac,
    wf w /\ l8w8jwt_decode p e (Some dp) true true true w = Ret r w'
    /\ dr_rc r = L8W8JWT_SUCCESS /\ dr_valid r = Some L8W8JWT_VALID
    /\ dp_alg dp = 0%Z /\ caller_key (dp_verification_key dp) (dp_verification_key_length dp) k
    /\ text dp ((h ++ lit "." ++ pl ++ lit "." ++ third) ++ [x00]) /\ no_dot h /\ no_dot pl /\ no_dot third
    /\ url_decodes third sig tail
    /\ e_hmac e SHA256 (hmac_key k) (h ++ lit "." ++ pl) = Some mac /\ length mac = 32%nat
    /\ (if longer then (32 < length sig)%nat else (length sig < 32)%nat).
Theorem C22_hmac_compared_refuted : accepted_mac_mismatch true /\ accepted_mac_mismatch false.
Proof.
  split.
  - set (third := skipn 171 sample_token ++ lit "AAAA").
    set (o := match dec_all true (syms true third) with Some (o, _) => o | None => [] end).
    set (lf := match dec_all true (syms true third) with Some (_, lf) => lf | None => [] end).
    exists pe, toy, (dp_plain (sample_token ++ lit "AAAA") 0 (zstr "secret") 6), we.
    eexists. eexists. exists (lit "secret"), (firstn 51 sample_token), (firstn 118 (skipn 52 sample_token)), third, o.
    eexists. eexists.
    split; [apply we_wf|]. split; [vm_compute; reflexivity|].
    split; [reflexivity|]. split; [reflexivity|]. split; [reflexivity|].
    split; [apply hmac_key_secret|]. split; [exists None; vm_compute; reflexivity|].
    split; [vm_compute; intuition discriminate|]. split; [vm_compute; intuition discriminate|].
    split; [vm_compute; intuition discriminate|].
    split; [apply (decode_witness third o lf); [vm_compute; discriminate|vm_compute; reflexivity|vm_compute; reflexivity]|].
    split; [vm_compute; reflexivity|]. split; [vm_compute; reflexivity|]. vm_compute. lia.
  - set (third := lit "c2VjcmV0ZTMwLmUzMAAAAAAAAAA").
    set (o := match dec_all true (syms true third) with Some (o, _) => o | None => [] end).
    set (lf := match dec_all true (syms true third) with Some (_, lf) => lf | None => [] end).
    exists pe, toy, (dp_plain (lit "e30.e30." ++ third) 0 (zstr "secret") 6), we.
    eexists. eexists. exists (lit "secret"), (lit "e30"), (lit "e30"), third, o.
    eexists. eexists.
    split; [apply we_wf|]. split; [vm_compute; reflexivity|].
    split; [reflexivity|]. split; [reflexivity|]. split; [reflexivity|].
    split; [apply hmac_key_secret|]. split; [exists None; vm_compute; reflexivity|].
    split; [vm_compute; intuition discriminate|]. split; [vm_compute; intuition discriminate|].
    split; [vm_compute; intuition discriminate|].
    split; [apply (decode_witness third o lf); [vm_compute; discriminate|vm_compute; reflexivity|vm_compute; reflexivity]|].
    split; [vm_compute; reflexivity|]. split; [vm_compute; reflexivity|]. vm_compute. lia.
Qed.
Print Assumptions C22_hmac_compared_refuted.
Example C22_example :
  j_family hs256 = HS /\ N.of_nat (length (skipn 171 sample_token)) = 43%N
  /\ verdict_of (l8w8jwt_decode pe toy (Some (dp_plain sample_token 0 (zstr "secret") 6)) true true true we)
     = Some (L8W8JWT_SUCCESS, Some 0%N, Some 9%N)
  /\ verdict_of (l8w8jwt_decode pe toy (Some (dp_plain (firstn 200 sample_token ++ lit "A" ++ skipn 201 sample_token) 0 (zstr "secret") 6)) true true true we)
     = Some (L8W8JWT_SUCCESS, Some 128%N, Some 9%N).
Proof. vm_compute. auto. Qed.

(** ** C29 *)
(** Whatever the arguments, the allocator and the crypto backend: with any other code than SUCCESS,
    the validation result is not written or is ~0, and no claims are handed out. *)
Theorem C29_failure_is_not_validity :
  (forall p e params vn cn ln w r w',
     l8w8jwt_decode p e params vn cn ln w = Ret r w' -> dr_rc r <> L8W8JWT_SUCCESS ->
     (dr_valid r = None \/ dr_valid r = Some 4294967295%N) /\ dr_claims r = None)
  /\ (forall p e params vn hn hl pn pl sn sl w r w',
     l8w8jwt_decode_raw p e params vn hn hl pn pl sn sl w = Ret r w' -> rr_rc r <> L8W8JWT_SUCCESS ->
     rr_valid r = None \/ rr_valid r = Some 4294967295%N).
Proof. split; [exact decode_failure|exact decode_raw_failure]. Qed.
Print Assumptions C29_failure_is_not_validity.
Example C29_example :
  verdict_of (l8w8jwt_decode pe toy (Some (dp_plain (lit "e30.bnVsbA.AA") 3 (zstr "secret") 6)) true true true we)
  = Some (L8W8JWT_DECODE_FAILED_INVALID_TOKEN_FORMAT, Some 4294967295%N, None)
  /\ verdict_of (l8w8jwt_decode pe toy (Some (dp_plain [] 3 (zstr "secret") 6)) true true true we)
  = Some (L8W8JWT_INVALID_ARG, None, None).
Proof. split; vm_compute; reflexivity. Qed.

(** ** C30 *)
(** From the same heap, l8w8jwt_decode and l8w8jwt_decode_raw agree on the code and the validation
    result, whatever outputs are requested (a length pointer going with every data pointer). *)
Theorem C30_decode_and_raw :
  forall p e params vn cn ln hn hl pn pl sn sl w r w1 r' w2,
    (cn = true -> ln = true) -> (hn = true -> hl = true) -> (pn = true -> pl = true) -> (sn = true -> sl = true) ->
    l8w8jwt_decode p e params vn cn ln w = Ret r w1 ->
    l8w8jwt_decode_raw p e params vn hn hl pn pl sn sl w = Ret r' w2 ->
    vn = true ->
    rr_rc r' = dr_rc r /\ rr_valid r' = dr_valid r.
Proof.
  intros p e params vn cn ln hn hl pn pl sn sl w r w1 r' w2 A1 A2 A3 A4 H H' ->.
  unfold l8w8jwt_decode in H. unfold l8w8jwt_decode_raw in H'.
  destruct params as [dp|]; [|inversion H; inversion H'; subst; auto].
  replace (cn && negb ln) with false in H by (destruct cn, ln; intuition congruence).
  replace (hn && negb hl) with false in H' by (destruct hn, hl; intuition congruence).
  replace (pn && negb pl) with false in H' by (destruct pn, pl; intuition congruence).
  replace (sn && negb sl) with false in H' by (destruct sn, sl; intuition congruence).
  cbn [negb orb] in H, H'.
  destruct (negb (l8w8jwt_validate_decoding_params p (Some dp) =? L8W8JWT_SUCCESS)%Z).
  { unfold mret in H, H'.
    assert (E : r = DecRes (l8w8jwt_validate_decoding_params p (Some dp)) None None) by congruence.
    assert (E' : r' = RawRes (l8w8jwt_validate_decoding_params p (Some dp)) None None None None) by congruence.
    rewrite E, E'. auto. }
  minvas H as o wa Ha. minvas H' as o' wb Hb. assert (o' = o /\ wb = wa) as [-> ->] by (split; congruence).
  destruct o as [claims|].
  - minvas H' as [[[rc sg] res] b] w3 H3. minvas H as st w4 H4.
    minvas H3 as st' w5 H5. rewrite decode_raw_body_eq in H5.
    assert (st' = st) by congruence. subst st'. inversion H3; subst. clear H3.
    minv H. minv H. minv H. minv H. minv H'. minv H'. minv H'. minv H'. inversion H; inversion H'; subst. auto.
  - minvas H' as [[[rc sg] res] b] w3 H3. inversion H3; subst. clear H3.
    minv H. minv H'. minv H'. minv H'. minv H'. inversion H; inversion H'; subst. auto.
Qed.
Print Assumptions C30_decode_and_raw.

(** The bytes of a segment that was handed out. *)
Definition seg_bytes (s : option seg) : option (bytes * N) :=
  match s with
  | Some (Seg (Ptr _ m) n) => Some (m, n)
  | Some (Seg Null n) => Some ([], n)
  | None => None
  end.
Lemma seg_of_fun t s s' : seg_of t s -> seg_of t s' -> seg_bytes (Some s) = seg_bytes (Some s').
Proof.
  intros (id & o & tl & H & ->) (id' & o' & tl' & H' & ->). cbn [seg_bytes].
  destruct (b64_decodes_fun _ _ _ _ _ H H') as [-> ->]. reflexivity.
Qed.
Lemma three_parts_fun jwt h pl r h' pl' r' :
  three_parts jwt h pl r -> three_parts jwt h' pl' r' -> h = h' /\ pl = pl' /\ r = r'.
Proof.
  intros H H'. destruct (signing_input_cut _ _ _ _ H) as (A1 & A2 & _).
  destruct (signing_input_cut _ _ _ _ H') as (B1 & B2 & _).
  rewrite A1 in B1. assert (L1 : length h = length h') by congruence. rewrite L1 in A2. rewrite A2 in B2.
  assert (L2 : length pl = length pl') by congruence.
  destruct H as (E & _), H' as (E' & _). rewrite E in E'.
  apply app_eq_length in E' as [-> E']; [|exact L1]. apply app_eq_length in E' as [_ E']; [|reflexivity].
  apply app_eq_length in E' as [-> E']; [|exact L2]. apply app_eq_length in E' as [_ ->]; [|reflexivity]. auto.
Qed.
Lemma strchr_dot h t : no_dot h -> no_nul h -> strchr (h ++ lit "." ++ t) x2e = OK (Some (length h)).
Proof. intros Hd Hn. apply strchr_some; auto. discriminate. Qed.
Lemma segments_ok_fun p dp sg sg' : segments_ok p dp sg -> segments_ok p dp sg' ->
  seg_bytes (Some (sg_header sg)) = seg_bytes (Some (sg_header sg'))
  /\ seg_bytes (Some (sg_payload sg)) = seg_bytes (Some (sg_payload sg'))
  /\ seg_bytes (Some (sg_signature sg)) = seg_bytes (Some (sg_signature sg')).
Proof.
  intros (b & jwt & E & H) (b' & jwt' & E' & H'). rewrite E in E'. inversion E'; subst b' jwt'. clear E'.
  assert (X : forall h pl rest h' s rest', three_parts jwt h pl rest -> jwt = h' ++ lit "." ++ s ++ x00 :: rest' ->
    no_dot h' -> no_nul h' -> no_dot s -> no_nul s -> False).
  { intros h pl rest h' s rest' H3 -> Hd Hn Hd' Hn'.
    destruct (signing_input_cut _ _ _ _ H3) as (A1 & A2 & _). rewrite strchr_dot in A1 by auto.
    assert (L : length h' = length h) by congruence. rewrite <- L in A2.
    replace (skipn (S (length h')) (h' ++ lit "." ++ s ++ x00 :: rest')) with (s ++ x00 :: rest') in A2.
    2:{ change (h' ++ lit "." ++ s ++ x00 :: rest') with (h' ++ (x2e :: (s ++ x00 :: rest'))).
        rewrite skipn_app. replace (S (length h') - length h')%nat with 1%nat by lia.
        rewrite skipn_all2 by lia. reflexivity. }
    rewrite strchr_none in A2 by (auto; discriminate). discriminate. }
  destruct H as [(h & pl & rest & n & H3 & En & Hn & S1 & S2 & S3)
                |(Ea & h & s & rest & n & Ej & D1 & N1 & D2 & N2 & En & Hn & S1 & S2 & S3)];
  destruct H' as [(h' & pl' & rest' & n' & H3' & En' & Hn' & S1' & S2' & S3')
                |(Ea' & h' & s' & rest' & n' & Ej' & D1' & N1' & D2' & N2' & En' & Hn' & S1' & S2' & S3')].
  - destruct (three_parts_fun _ _ _ _ _ _ _ H3 H3') as (-> & -> & ->). subst n n'.
    split; [exact (seg_of_fun _ _ _ S1 S1')|]. split; [exact (seg_of_fun _ _ _ S2 S2')|].
    exact (seg_of_fun _ _ _ S3 S3').
  - exfalso. eapply X; eauto.
  - exfalso. eapply X; eauto.
  - rewrite Ej in Ej'.
    assert (L : strchr (h ++ lit "." ++ s ++ x00 :: rest) x2e = OK (Some (length h))) by (apply strchr_dot; auto).
    rewrite Ej', strchr_dot in L by auto. assert (L1 : length h = length h') by congruence.
    apply app_eq_length in Ej' as [-> Ej']; [|exact L1]. apply app_eq_length in Ej' as [_ Ej']; [|reflexivity].
    rewrite Ej' in *. subst n n'.
    split; [exact (seg_of_fun _ _ _ S1 S1')|]. split; [exact (seg_of_fun _ _ _ S2 S2')|]. rewrite S3, S3'. reflexivity.
Qed.
(** Started in any two heaps, l8w8jwt_decode_raw and l8w8jwt_decode_raw_no_validation hand out the
    same bytes if both succeed. *)
Theorem C30_raw_and_no_validation :
  forall p e dp hn hl pn pl sn sl w r w1 w' r' w2,
    wf w -> wf w' ->
    l8w8jwt_decode_raw p e (Some dp) true hn hl pn pl sn sl w = Ret r w1 -> rr_rc r = L8W8JWT_SUCCESS ->
    l8w8jwt_decode_raw_no_validation p (Some dp) hn hl pn pl sn sl w' = Ret r' w2 -> rr_rc r' = L8W8JWT_SUCCESS ->
    seg_bytes (rr_header r) = seg_bytes (rr_header r') /\ seg_bytes (rr_payload r) = seg_bytes (rr_payload r')
    /\ seg_bytes (rr_signature r) = seg_bytes (rr_signature r').
Proof.
  intros p e dp hn hl pn pl sn sl w r w1 w' r' w2 Hwf Hwf' H Hrc H' Hrc'.
  apply decode_raw_success in H; [|exact Hrc].
  destruct H as (dp' & st & w3 & E & _ & _ & Ha & Hs & _ & Eh & Ep & Es). inversion E; subst dp'. clear E.
  destruct Hs as (sg & w4 & res1 & w5 & c1 & w6 & c2 & res2 & H1 & _ & _ & _ & _ & ->). cbn [ds_segs] in *.
  assert (Hwf1 : wf (w_ok w)) by (eapply adds_wf; [apply adds_ok|exact Hwf]).
  destruct (decode_segments_inv _ _ _ _ _ _ Hwf1 H1) as (_ & _ & Hok). specialize (Hok eq_refl).
  unfold l8w8jwt_decode_raw_no_validation in H'.
  destruct (_ || _ || _ || _); [inversion H'; subst; discriminate|].
  destruct (Z.eqb_spec (l8w8jwt_validate_decoding_params p (Some dp)) L8W8JWT_SUCCESS) as [Ev|Ev]; cbn [negb] in H'.
  2:{ exfalso. apply Ev. rewrite <- Hrc'. unfold mret in H'.
      assert (E : r' = RawRes (l8w8jwt_validate_decoding_params p (Some dp)) None None None None) by congruence.
      rewrite E. reflexivity. }
  minvas H' as [rc sg'] w7 H7. minvas H' as h w8 H8. minvas H' as q w9 H9. minvas H' as s w10 H10.
  inversion H'; subst. clear H'. cbn [rr_rc] in Hrc'. simpl in Hrc'. subst rc.
  destruct (decode_segments_inv _ _ _ _ _ _ Hwf' H7) as (_ & _ & Hok'). specialize (Hok' eq_refl).
  assert (G : forall nn s w o w', give_or_free nn s w = Ret o w' -> o = if nn then Some s else None).
  { clear. intros nn s w o w' H. unfold give_or_free in H. destruct nn; [inversion H; reflexivity|].
    minv H. inversion H. reflexivity. }
  apply G in H8. apply G in H9. apply G in H10. subst h q s.
  destruct (segments_ok_fun _ _ _ _ Hok Hok') as (F1 & F2 & F3).
  rewrite Eh, Ep, Es. simpl rr_header. simpl rr_payload. simpl rr_signature.
  split; [destruct hn; [exact F1|reflexivity]|]. split; [destruct pn; [exact F2|reflexivity]|].
  destruct sn; [exact F3|reflexivity].
Qed.
Print Assumptions C30_raw_and_no_validation.
Definition raw_of (m : res raw_res) : option (Z * option N * option bytes * option bytes) :=
  let cut s := option_map (fun x => firstn (N.to_nat (snd x)) (fst x)) (seg_bytes s) in
  match m with
  | Ret r _ => Some (rr_rc r, rr_valid r, cut (rr_header r), cut (rr_payload r))
  | Undef _ => None
  end.
Example C30_example :
  let dp := dp_plain (lit "eyJhIjoxfQ.e30.AAAA") 3 (zstr "secret") 6 in
  verdict_of (l8w8jwt_decode pe toy (Some dp) true true true we) = Some (L8W8JWT_SUCCESS, Some 0%N, Some 1%N)
  /\ raw_of (l8w8jwt_decode_raw pe toy (Some dp) true true true true true true true we)
     = Some (L8W8JWT_SUCCESS, Some 0%N, Some (lit "{""a"":1}"), Some (lit "{}"))
  /\ raw_of (l8w8jwt_decode_raw_no_validation pe (Some dp) true true true true true true we)
     = Some (L8W8JWT_SUCCESS, None, Some (lit "{""a"":1}"), Some (lit "{}")).
Proof. vm_compute. auto. Qed.

(** ** C40 (verification) *)
Definition with_vkey (dp : dec_params) (q : ptr) (n : N) : dec_params :=
  DecParams (dp_jwt dp) (dp_jwt_length dp) (dp_alg dp) (dp_validate_iss dp) (dp_validate_iss_length dp)
    (dp_validate_sub dp) (dp_validate_sub_length dp) (dp_validate_aud dp) (dp_validate_aud_length dp)
    (dp_validate_jti dp) (dp_validate_jti_length dp) (dp_validate_exp dp) (dp_validate_nbf dp)
    (dp_validate_iat dp) (dp_exp_tolerance dp) (dp_nbf_tolerance dp) (dp_iat_tolerance dp)
    q n (dp_validate_typ dp) (dp_validate_typ_length dp).

(** Decoding with the key [k] and with [k] and its terminating NUL is the same computation. (For
    all algorithms, not only HS*.) [k] is in memory the caller may have filled on; 8191 is the
    longest key that leaves room for the NUL. *)
Theorem C40_hmac_key_nul_verify :
  forall p e dp b1 b2 k r1 r2 vn cn ln w,
    k <> [] -> last k x01 <> x00 -> (length k < N.to_nat 8192)%nat ->
    l8w8jwt_decode p e (Some (with_vkey dp (Ptr b1 (k ++ r1)) (N.of_nat (length k)))) vn cn ln w
    = l8w8jwt_decode p e (Some (with_vkey dp (Ptr b2 (k ++ [x00] ++ r2)) (N.of_nat (length k) + 1))) vn cn ln w.
Proof.
  intros p e dp b1 b2 k r1 r2 vn cn ln w Hk Hl Hn.
  destruct (key_buffers_equal b1 b2 k r1 r2 Hk Hl Hn) as (key & kl & L1 & A1 & L2 & A2).
  set (dp1 := with_vkey dp (Ptr b1 (k ++ r1)) (N.of_nat (length k))).
  set (dp2 := with_vkey dp (Ptr b2 (k ++ [x00] ++ r2)) (N.of_nat (length k) + 1)).
  assert (V : l8w8jwt_validate_decoding_params p (Some dp1) = l8w8jwt_validate_decoding_params p (Some dp2)).
  { assert (L : (0 < length k)%nat) by (destruct k; [contradiction|simpl; lia]).
    unfold l8w8jwt_validate_decoding_params, dp1, dp2, with_vkey.
    cbn [dp_jwt dp_verification_key dp_jwt_length dp_verification_key_length dp_alg is_null].
    change L8W8JWT_MAX_KEY_SIZE with 8192%N.
    replace (N.of_nat (length k) =? 0)%N with false by lia.
    replace (N.of_nat (length k) + 1 =? 0)%N with false by lia.
    replace (8192 <? N.of_nat (length k))%N with false by lia.
    replace (8192 <? N.of_nat (length k) + 1)%N with false by lia. reflexivity. }
  assert (B : forall sig n, verify_body p e dp1 sig n = verify_body p e dp2 sig n).
  { intros sig n. unfold verify_body.
    change (dp_verification_key dp1) with (Ptr b1 (k ++ r1)).
    change (dp_verification_key_length dp1) with (N.of_nat (length k)).
    change (dp_verification_key dp2) with (Ptr b2 (k ++ [x00] ++ r2)).
    change (dp_verification_key_length dp2) with (N.of_nat (length k) + 1)%N.
    rewrite L1, L2. cbn [ubind]. rewrite A1, A2. cbn [ubind].
    apply ubind_ext. intros [crt|]; reflexivity. }
  assert (S : forall res q n w', l8w8jwt_verify_signature p e dp1 res q n w'
                               = l8w8jwt_verify_signature p e dp2 res q n w').
  { intros res q n w'. unfold l8w8jwt_verify_signature.
    change (dp_alg dp1) with (dp_alg dp). change (dp_alg dp2) with (dp_alg dp).
    destruct (_ || _ || _); [reflexivity|]. destruct (p_small_stack p).
    - cbv zeta. apply mbind_ext. intros key' w1. apply mbind_ext2.
      + destruct (is_null key'); [reflexivity|]. apply mbind_ext. intros sig w2. rewrite B. reflexivity.
      + reflexivity.
    - cbv zeta. apply mbind_ext. intros sig w1. rewrite B. reflexivity. }
  assert (Bd : forall c w', decode_body p e dp1 c w' = decode_body p e dp2 c w').
  { intros c w'. unfold decode_body. change (l8w8jwt_decode_segments p dp1) with (l8w8jwt_decode_segments p dp2).
    apply mbind_ext. intros [r sg] w1. destruct (negb _); [reflexivity|].
    apply mbind_ext2; [apply S|]. reflexivity. }
  unfold l8w8jwt_decode. rewrite V. destruct (_ && _); [reflexivity|]. cbv zeta. destruct (negb _); [reflexivity|].
  destruct (negb _); [reflexivity|].
  apply mbind_ext. intros [claims|] w1; [|reflexivity]. apply mbind_ext2; [apply Bd|]. reflexivity.
Qed.
Print Assumptions C40_hmac_key_nul_verify.
Example C40_verify_example :
  verdict_of (l8w8jwt_decode pe toy (Some (dp_plain sample_token 0 (zstr "secret") 6)) true true true we)
  = Some (L8W8JWT_SUCCESS, Some 0%N, Some 9%N)
  /\ verdict_of (l8w8jwt_decode pe toy (Some (dp_plain sample_token 0 (zstr "secret") 7)) true true true we)
  = Some (L8W8JWT_SUCCESS, Some 0%N, Some 9%N).
Proof. vm_compute. auto. Qed.

(** ** C43 *)
(** A token accepted with an algorithm has at least two dots, and its first two segments and what
    is decoded as the third are not empty. Missing: that there are no further dots. *)
Theorem C43_three_segments_partial :
  forall p e dp vn cn ln w r w' b jwt,
    wf w -> l8w8jwt_decode p e (Some dp) vn cn ln w = Ret r w' -> dr_rc r = L8W8JWT_SUCCESS ->
    dp_alg dp <> (-1)%Z -> dp_jwt dp = Ptr b jwt ->
    exists h pl rest, jwt = h ++ lit "." ++ pl ++ lit "." ++ rest
      /\ no_dot h /\ no_nul h /\ no_dot pl /\ no_nul pl /\ h <> [] /\ pl <> [] /\ rest <> [].
Proof.
  intros p e dp vn cn ln w r w' b jwt Hwf H Hrc Ha Ej. apply decode_success in H; [|exact Hrc].
  destruct H as (dp' & st & w1 & E & _ & _ & _ & Hal & Hs & _). inversion E; subst dp'. clear E.
  destruct Hs as (sg & w2 & res1 & w3 & c1 & w4 & c2 & res2 & H1 & _).
  assert (Hwf1 : wf (w_ok w)) by (eapply adds_wf; [apply adds_ok|exact Hwf]).
  destruct (decode_segments_inv _ _ _ _ _ _ Hwf1 H1) as (_ & _ & Hok). specialize (Hok eq_refl).
  destruct Hok as (b' & jwt' & Ej' & [(h & pl & rest & n & H3 & _ & _ & S1 & S2 & S3)|(Ea & _)]); [|contradiction].
  rewrite Ej in Ej'. inversion Ej'; subst. destruct H3 as (E & D1 & N1 & D2 & N2).
  destruct S1 as (_ & _ & _ & (T1 & _) & _), S2 as (_ & _ & _ & (T2 & _) & _), S3 as (_ & _ & _ & (T3 & _) & _).
  exists h, pl, rest. do 7 (split; [assumption|]). intros ->. rewrite firstn_nil in T3. contradiction.
Qed.
Print Assumptions C43_three_segments_partial.

(** False: dots in the third segment are skipped by the base64 decoder. *)
Theorem C43_three_segments_refuted :
  exists p e dp w r w' s1 s2 s3 s4,
    wf w /\ dp_alg dp = 3%Z /\ text dp (s1 ++ lit "." ++ s2 ++ lit "." ++ s3 ++ lit "." ++ s4 ++ [x00])
    /\ Forall (fun s => s <> [] /\ no_dot s) [s1; s2; s3; s4]
    /\ l8w8jwt_decode p e (Some dp) true true true w = Ret r w'
    /\ dr_rc r = L8W8JWT_SUCCESS /\ dr_valid r = Some L8W8JWT_VALID.
Proof.
  exists pe, toy, (dp_plain (lit "e30.e30.AA.AA") 3 (zstr "secret") 6), we. eexists. eexists.
  exists (lit "e30"), (lit "e30"), (lit "AA"), (lit "AA").
  split; [apply we_wf|]. split; [reflexivity|]. split; [exists None; reflexivity|].
  split. { repeat constructor; try (vm_compute; discriminate); vm_compute; intuition discriminate. }
  split; [vm_compute; reflexivity|]. split; reflexivity.
Qed.
Print Assumptions C43_three_segments_refuted.
Example C43_example :
  let run t := verdict_of (l8w8jwt_decode pe toy (Some (dp_plain t 3 (zstr "secret") 6)) true true true we) in
  run (lit "e30.e30.AAAA") = Some (L8W8JWT_SUCCESS, Some 0%N, Some 0%N)
  /\ run (lit "e30.e30.") = Some (L8W8JWT_BASE64_FAILURE, Some NOT_VALID, None)
  /\ run (lit "e30..AAAA") = Some (L8W8JWT_BASE64_FAILURE, Some NOT_VALID, None)
  /\ run (lit "e30") = Some (L8W8JWT_DECODE_FAILED_INVALID_TOKEN_FORMAT, Some NOT_VALID, None).
Proof. vm_compute. auto. Qed.
