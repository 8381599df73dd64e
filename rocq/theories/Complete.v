(** * A complete specification of decoding, and lemmas *)
From Verif Require Import Base BaseProofs HeapProofs Util UtilProofs Claim Base64 SpecB64
  Base64EncProofs Base64EncApi Base64DecProofs Base64Api Jsmn Env Encode Decode SpecJson SpecJwa ClaimProofs UnescapeProofs
  EncodeProofs SignProofs EncodeTotal SpecEnc JsonProofs PropEncode DecodeProofs DecodeInv JsmnProofs ParseProofs
  PropClaim ReadProofs ValidateProofs JsmnJson JsmnSize PropVerify PropValidate PropLeak PropJson DecodeTotal DecodeOk
  OverRead PropSafe PropRoundTrip CodeProofs Walk Exact PropExact.
From Coq Require Import ZifyBool ZifyNat ZifyN.
Ltac Zify.zify_post_hook ::= Z.div_mod_to_equations.
Local Opaque L8W8JWT_MAX_KEY_SIZE.

(** ** Cutting the token *)
(** What cutting and base64url-decoding the token comes to: an error code, or the signing input, the
    bytes of header and payload with what follows them in their blocks, and those of the signature, if there
    is one. *)
Inductive cutting :=
| Wrong (rc : Z)
| Parts (msg hj ht pj pt : bytes) (sg : option (bytes * bytes)).
Definition garbled (t : bytes) : Prop := forall o tail, ~ url_decodes t o tail.
Inductive cut (dp : dec_params) (j : bytes) : cutting -> Prop :=
| Cut_dotless : no_dot j -> cut dp j (Wrong 600)
| Cut_garbled2 h pl : parts2 j h pl -> garbled h \/ (dp_alg dp = (-1)%Z /\ garbled pl) -> cut dp j (Wrong 425)
| Cut_unsigned h pl : parts2 j h pl -> ~ garbled h -> dp_alg dp <> (-1)%Z -> cut dp j (Wrong 700)
| Cut_two h pl hj ht pj pt : parts2 j h pl -> dp_alg dp = (-1)%Z -> url_decodes h hj ht -> url_decodes pl pj pt ->
    cut dp j (Parts (h ++ lit "." ++ pl) hj ht pj pt None)
| Cut_garbled3 h pl s : parts3 j h pl s -> garbled h \/ garbled pl \/ garbled s -> cut dp j (Wrong 425)
| Cut_three h pl s hj ht pj pt sig st : parts3 j h pl s -> url_decodes h hj ht -> url_decodes pl pj pt -> url_decodes s sig st ->
    cut dp j (Parts (h ++ lit "." ++ pl) hj ht pj pt (Some (sig, st))).

Lemma url_fun t o o' tail tail' : url_decodes t o tail -> url_decodes t o' tail' -> o = o' /\ tail = tail'.
Proof. intros H1 H2. apply url_b64_decodes in H1, H2. eapply b64_decodes_fun; eauto. Qed.
Lemma parts2_fun j h pl h' pl' : parts2 j h pl -> parts2 j h' pl' -> h = h' /\ pl = pl'.
Proof.
  intros (E & N1 & N2) (E' & N1' & N2').
  destruct (parts3_fun (j ++ lit ".") h pl [] h' pl' []) as (A & B & _); auto.
  - split; [|auto]. rewrite E, <- !app_assoc. reflexivity.
  - split; [|auto]. rewrite E', <- !app_assoc. reflexivity.
Qed.
Lemma no_dot_parts3 j h pl s : no_dot j -> parts3 j h pl s -> False.
Proof. intros N (E & _). apply N. rewrite E. apply in_app_iff. right. left. reflexivity. Qed.
Lemma no_dot_parts2 j h pl : no_dot j -> parts2 j h pl -> False.
Proof. intros N (E & _). apply N. rewrite E. apply in_app_iff. right. left. reflexivity. Qed.
Lemma parts_23 j h pl h' pl' s' : parts2 j h pl -> parts3 j h' pl' s' -> False.
Proof.
  intros (E & N1 & N2) (E' & N1' & N2').
  destruct (parts3_fun (j ++ lit ".") h pl [] h' pl' (s' ++ lit ".")) as (_ & _ & B).
  - split; [|auto]. rewrite E, <- !app_assoc. reflexivity.
  - split; [|auto]. rewrite E', <- !app_assoc. reflexivity.
  - destruct s'; discriminate B.
Qed.
Lemma cut_fun dp j c c' : cut dp j c -> cut dp j c' -> c = c'.
Proof.
  intros H H'.
  destruct H as [N|h pl P2 G|h pl P2 G A|h pl hj ht pj pt P2 A D1 D2|h pl s P3 G|h pl s hj ht pj pt sig st P3 D1 D2 D3];
  destruct H' as [N'|h' pl' P2' G'|h' pl' P2' G' A'|h' pl' hj' ht' pj' pt' P2' A' D1' D2'|h' pl' s' P3' G'|h' pl' s' hj' ht' pj' pt' sig' st' P3' D1' D2' D3'];
  try reflexivity;
  try solve [exfalso; first [eapply no_dot_parts2; eassumption|eapply no_dot_parts3; eassumption|eapply parts_23; eassumption]];
  try (destruct (parts2_fun _ _ _ _ _ P2 P2') as [<- <-]); try (destruct (parts3_fun _ _ _ _ _ _ _ P3 P3') as (<- & <- & <-));
  try solve [exfalso; repeat match goal with H : _ \/ _ |- _ => destruct H | H : _ /\ _ |- _ => destruct H end;
    first [contradiction|match goal with G : garbled ?t, D : url_decodes ?t _ _ |- _ => exact (G _ _ D) end]].
  - destruct (url_fun _ _ _ _ _ D1 D1') as [<- <-], (url_fun _ _ _ _ _ D2 D2') as [<- <-]. reflexivity.
  - destruct (url_fun _ _ _ _ _ D1 D1') as [<- <-], (url_fun _ _ _ _ _ D2 D2') as [<- <-], (url_fun _ _ _ _ _ D3 D3') as [<- <-]. reflexivity.
Qed.

Lemma decodes_or t : garbled t \/ exists o tail, url_decodes t o tail.
Proof.
  assert (B : undecodable t \/ exists o tail, b64_decodes t o tail).
  { unfold undecodable, b64_decodes. destruct t as [|c t0] eqn:Et; [left; intros o tail (C & _); congruence|rewrite <- Et].
    destruct (bad_count true (length (syms true t))) eqn:Eb; [left; intros o tail (_ & C & _); congruence|].
    destruct (dec_all true (syms true t)) as [[o lf]|] eqn:Ed.
    - right. do 2 eexists. split; [rewrite Et; discriminate|]. split; [reflexivity|]. eexists. split; reflexivity.
    - left. intros o tail (_ & _ & lf & C & _). congruence. }
  destruct B as [B|(o & tail & B)]; [left|right; eauto using b64_decodes_url].
  intros o tail C. apply url_b64_decodes in C. exact (B _ _ C).
Qed.
Lemma garbled_code t rest w : wf w -> allocs w -> garbled t -> exists r w',
  l8w8jwt_base64_decode true (Ptr None (t ++ rest)) (N.of_nat (length t)) true true w = Ret r w' /\ b_rc r = L8W8JWT_INVALID_ARG.
Proof.
  intros Hwf Ha Hg. destruct (decode_cases true None (t ++ rest) (N.of_nat (length t)) w Hwf) as (r & w' & H & _ & Hc); [rewrite app_length; lia|].
  exists r, w'. split; [exact H|]. pose proof H as H'. apply b64_code in H' as (_ & [(E & _)|[(E & (_ & i & _ & C))|(E & _)]]); [|rewrite Ha in C; discriminate|exact E|exact Hwf].
  exfalso. apply b64_decode_inv in H as [_ [(C & _)|(_ & o & tail & Hd & _)]]; [congruence| |exact Hwf].
  rewrite Nat2N.id, firstn_app_exact in Hd. apply b64_decodes_url in Hd. exact (Hg _ _ Hd).
Qed.

Lemma cut_segments p dp j w : wf w -> allocs w -> c_text p dp j ->
  exists c, cut dp j c /\ match c with
    | Wrong rc => rc <> 0%Z /\ exists sg w', l8w8jwt_decode_segments p dp w = Ret (rc, sg) w'
    | Parts msg hj ht pj pt sg =>
        (exists h pl r, j = h ++ lit "." ++ pl ++ r /\ msg = h ++ lit "." ++ pl /\ b64_decodes h hj ht /\ b64_decodes pl pj pt
           /\ match sg with
              | None => dp_alg dp = (-1)%Z
              | Some (sig, st) => exists b rest s, dp_jwt dp = Ptr b (j ++ x00 :: rest) /\ b64_decodes s sig st
                                    /\ three_parts (j ++ x00 :: rest) h pl (s ++ x00 :: rest)
              end)
        /\ exists i1 i2 sgs w', l8w8jwt_decode_segments p dp w
            = Ret (L8W8JWT_SUCCESS, Segs (Seg (Ptr (Some i1) (hj ++ ht)) (N.of_nat (length hj)))
                                         (Seg (Ptr (Some i2) (pj ++ pt)) (N.of_nat (length pj))) sgs) w'
            /\ wf w' /\ allocs w' /\ later w w'
            /\ match sg with
               | None => sgs = seg0
               | Some (sig, st) => exists i3, sgs = Seg (Ptr (Some i3) (sig ++ st)) (N.of_nat (length sig))
               end
    end.
Proof.
  intros Hwf Ha Ht. pose proof Ht as ((b & rest & Ej) & Hz & Hl & Hs).
  destruct (decode_segments_total p dp j w Hwf Ht) as (rc & sg & w' & H).
  assert (Cd : (rc = 0%Z /\ segments_ok p dp sg) \/ (rc <> 0%Z /\ cut_code dp j rc)).
  { pose proof H as H'. apply (segments_code p dp j) in H' as [(E & _)|[(_ & _ & i & _ & C)|(_ & C)]]; auto; [left|rewrite Ha in C; discriminate].
    split; [exact E|]. apply decode_segments_inv in H as (_ & _ & K); [|exact Hwf]. apply K. exact E. }
  destruct (first_dot j Hz) as [Hd|(h & s0 & E0 & N1 & Z1 & Z2)].
  { exists (Wrong 600). split; [constructor; exact Hd|]. split; [discriminate|]. exists sg, w'. rewrite H. do 2 f_equal.
    destruct Cd as [(E & K)|(E & [(K & _)|[(_ & _ & h & pl & K)|(_ & t & [(h & pl & s & K & _)|(h & pl & K & _)] & _)]])]; [exfalso|rewrite K; reflexivity|..].
    - destruct (segments_cut p dp j sg Ht K) as [(b' & r' & h & pl & s & _ & P & _)|(_ & _ & h & pl & P & _)];
        [eapply no_dot_parts3; eassumption|eapply no_dot_parts2; eassumption].
    - destruct (no_dot_parts2 _ _ _ Hd K).
    - destruct (no_dot_parts3 _ _ _ _ Hd K).
    - destruct (no_dot_parts2 _ _ _ Hd K). }
  destruct (first_dot s0 Z2) as [Hd|(pl & s & E1 & N2 & Z3 & Z4)].
  - assert (P2 : parts2 j h s0) by (split; [exact E0|auto]).
    destruct (decodes_or h) as [G|(hj & ht & D1)].
    { exists (Wrong 425). split; [eapply Cut_garbled2; eauto|]. split; [discriminate|]. unfold l8w8jwt_decode_segments.
      rewrite Ej, E0, <- app_assoc. cbn [app]. unfold mbind at 1. cbn [deref lift]. unfold mbind at 1. rewrite strchr_some by (auto; discriminate). cbn [lift].
      destruct (garbled_code h (x2e :: s0 ++ x00 :: rest) w Hwf Ha G) as (r1 & w1 & H1 & R1). unfold mbind at 1. rewrite H1. rewrite R1. do 2 eexists. reflexivity. }
    destruct (Z.eq_dec (dp_alg dp) (-1)) as [Em|Em].
    + destruct (decodes_or s0) as [G|(pj & pt & D2)].
      * exists (Wrong 425). split; [eapply Cut_garbled2; eauto|]. split; [discriminate|]. exists sg, w'. rewrite H. do 2 f_equal.
        destruct Cd as [(E & K)|(E & [(_ & K)|[(_ & K & _)|(K & _)]])]; [exfalso| | |exact K].
        -- destruct (segments_cut p dp j sg Ht K) as [(b' & r' & h' & pl & s & _ & P & _)|(_ & _ & h' & pl & P & _ & (i2 & pj & pt & D2 & _))];
             [eapply parts_23; eassumption|]. destruct (parts2_fun _ _ _ _ _ P2 P) as [<- <-]. apply b64_decodes_url in D2. exact (G _ _ D2).
        -- destruct (no_dot_parts2 _ _ _ K P2).
        -- contradiction.
      * exists (Parts (h ++ lit "." ++ s0) hj ht pj pt None). split; [eapply Cut_two; eauto|].
        pose proof (url_b64_decodes _ _ _ D1) as B1. pose proof (url_b64_decodes _ _ _ D2) as B2. pose proof P2 as (Ej2 & _).
        rewrite Ej2 in Ht. destruct (decode_segments_two p dp h s0 hj ht pj pt w Hwf Ha Ht N1 Hd Em B1 B2) as (i1 & i2 & w2 & X & W & A & L).
        split; [exists h, s0, []; rewrite app_nil_r; auto 7|]. exists i1, i2, seg0, w2. auto 6.
    + exists (Wrong 700). split; [eapply Cut_unsigned; [exact P2|intros G; exact (G _ _ D1)|exact Em]|]. split; [discriminate|]. unfold l8w8jwt_decode_segments.
      rewrite Ej, E0, <- app_assoc. cbn [app]. unfold mbind at 1. cbn [deref lift]. unfold mbind at 1. rewrite strchr_some by (auto; discriminate). cbn [lift].
      unfold mbind at 1. rewrite (b64_forward h _ hj ht w Hwf Ha (url_b64_decodes _ _ _ D1)). cbn [b_rc]. change (negb (L8W8JWT_SUCCESS =? L8W8JWT_SUCCESS)%Z) with false.
      cbv iota zeta. assert (Sk : forall a r, skipn (S (length a)) (a ++ x2e :: r) = r).
      { intros a r. change (a ++ x2e :: r) with (a ++ [x2e] ++ r). rewrite app_assoc.
        replace (S (length a)) with (length (a ++ [x2e])) by (rewrite app_length; cbn [length]; lia). apply skipn_app_exact. }
      rewrite Sk. unfold mbind at 1. rewrite strchr_none by (auto; discriminate). cbn [lift andb].
      destruct (Z.eqb_spec (dp_alg dp) (-1)) as [C|_]; [contradiction|]. cbn [negb]. do 2 eexists. reflexivity.
  - assert (P3 : parts3 j h pl s) by (split; [rewrite E0, E1; reflexivity|auto]).
    destruct (decodes_or h) as [G1|(hj & ht & D1)]; [|destruct (decodes_or pl) as [G2|(pj & pt & D2)]; [|destruct (decodes_or s) as [G3|(sig & st & D3)]]].
    4:{ exists (Parts (h ++ lit "." ++ pl) hj ht pj pt (Some (sig, st))). split; [eapply Cut_three; eauto|].
        pose proof (url_b64_decodes _ _ _ D1) as B1. pose proof (url_b64_decodes _ _ _ D2) as B2. pose proof (url_b64_decodes _ _ _ D3) as B3.
        pose proof P3 as (Ej3 & _). rewrite Ej3 in Ht.
        destruct (decode_segments_ok p dp h pl s hj ht pj pt sig st w Hwf Ha Ht N1 N2 B1 B2 B3) as (i1 & i2 & i3 & w2 & X & W & A & L).
        split.
        - exists h, pl, (lit "." ++ s). split; [exact Ej3|]. split; [reflexivity|]. split; [exact B1|]. split; [exact B2|].
          exists b, rest, s. split; [exact Ej|]. split; [exact B3|]. split; [rewrite Ej3, <- !app_assoc; reflexivity|]. auto.
        - exists i1, i2, (Seg (Ptr (Some i3) (sig ++ st)) (N.of_nat (length sig))), w2. eauto 7. }
    all: exists (Wrong 425); split; [eapply Cut_garbled3; eauto|]; split; [discriminate|]; exists sg, w'; rewrite H; do 2 f_equal;
      destruct Cd as [(E & K)|(E & [(_ & K)|[(_ & _ & h' & pl' & K)|(K & _)]])];
      [exfalso|destruct (no_dot_parts3 _ _ _ _ K P3)|destruct (parts_23 _ _ _ _ _ _ K P3)|exact K];
      (destruct (segments_cut p dp j sg Ht K) as [(b' & r' & h' & pl' & s' & _ & P & _ & (i1 & o1 & t1 & B1 & _) & (i2 & o2 & t2 & B2 & _) & (i3 & o3 & t3 & B3 & _))|(_ & _ & h' & pl' & P & _)];
       [|eapply parts_23; eassumption]); destruct (parts3_fun _ _ _ _ _ _ _ P3 P) as (<- & <- & <-); apply b64_decodes_url in B1, B2, B3.
    + exact (G1 _ _ B1).
    + exact (G2 _ _ B2).
    + exact (G3 _ _ B3).
Qed.

(** ** Checking the signature *)
(** The code with which key, hash or build are turned down; the checks are made in this order: a
    certificate, the hash (of all algorithms but HMAC and Ed25519), the public key, its kind. *)
Definition bad_certificate (e : env) (k : bytes) : Prop := certificate k /\ e_x509_parse e (pem_text k) = None.
Definition turned_down (p : platform) (e : env) (j : jwa) (k msg : bytes) (rc : Z) : Prop :=
  (bad_certificate e k /\ rc = 420%Z)
  \/ (~ bad_certificate e k
      /\ let hashless := e_md e (j_hash j) msg = None in
         let keyless := forall pk, ~ public_key_of e k pk in
         match j_family j with
         | HS => False
         | RS | PS => (hashless /\ rc = 410%Z) \/ (~ hashless /\ keyless /\ rc = 420%Z)
         | ES _ _ _ => (hashless /\ rc = 410%Z) \/ (~ hashless /\ keyless /\ rc = 420%Z)
             \/ (~ hashless /\ rc = 420%Z /\ exists pk, public_key_of e k pk /\ e_pk_ec e pk = true /\ e_ecdsa_from_keypair e pk = false)
         | ED => (p_eddsa p = false /\ rc = 800%Z) \/ (p_eddsa p = true /\ length (hmac_key k) <> 64%nat /\ rc = 450%Z)
         end).
(** The byte two characters stand for in an Ed25519 key. Hexadecimal digits have their value
    ([loose_hex]); the library makes something of any other character, too (util.c:49, in C's arithmetic). *)
Definition loose_digit (p : platform) (c : byte) : Z :=
  let v := if p_char_signed p && (128 <=? b2n c)%N then (b2z c - 256)%Z else b2z c in Z.rem (Z.rem v 32 + 9) 25.
Fixpoint loose_unhex (p : platform) (s : bytes) : bytes :=
  match s with
  | a :: b :: t => n2b (Z.to_N ((16 * loose_digit p a + loose_digit p b) mod 256)) :: loose_unhex p t
  | _ => []
  end.
(** The signature [sig] (before [st] in its block) is one for [msg]. *)
Definition verifies (p : platform) (e : env) (j : jwa) (k msg sig st : bytes) : Prop :=
  match j_family j with
  | ED => e_ed_verify e (firstn 64 (sig ++ st)) msg (loose_unhex p (hmac_key k)) = true
  | _ => exists looked, signature_read e j k sig st looked /\ verified_by e j k msg looked
  end.

Inductive checking := Stops (rc : Z) | Breaks (u : ub) | Goes (verified : bool).
(** What checking comes to: with id -1 nothing is checked; with an id of no algorithm only the certificate. *)
Inductive check (p : platform) (e : env) (dp : dec_params) (msg : bytes) (sg : option (bytes * bytes)) : checking -> Prop :=
| Ck_none : dp_alg dp = (-1)%Z -> check p e dp msg sg (Goes true)
| Ck_unknown k : dp_alg dp <> (-1)%Z -> (forall j, ~ supported (dp_alg dp) j) ->
    caller_key (dp_verification_key dp) (dp_verification_key_length dp) k -> ~ bad_certificate e k -> check p e dp msg sg (Goes true)
| Ck_unknown_stops k : dp_alg dp <> (-1)%Z -> (forall j, ~ supported (dp_alg dp) j) ->
    caller_key (dp_verification_key dp) (dp_verification_key_length dp) k -> bad_certificate e k -> check p e dp msg sg (Stops 420)
| Ck_stops j k rc : supported (dp_alg dp) j -> caller_key (dp_verification_key dp) (dp_verification_key_length dp) k ->
    turned_down p e j k msg rc -> check p e dp msg sg (Stops rc)
| Ck_breaks j k sig st u : supported (dp_alg dp) j -> caller_key (dp_verification_key dp) (dp_verification_key_length dp) k ->
    (forall rc, ~ turned_down p e j k msg rc) -> sg = Some (sig, st) -> misused e j k msg (sig ++ st) u ->
    check p e dp msg sg (Breaks u)
| Ck_good j k sig st : supported (dp_alg dp) j -> caller_key (dp_verification_key dp) (dp_verification_key_length dp) k ->
    (forall rc, ~ turned_down p e j k msg rc) -> sg = Some (sig, st) -> (forall u, ~ misused e j k msg (sig ++ st) u) ->
    verifies p e j k msg sig st -> check p e dp msg sg (Goes true)
| Ck_bad j k sig st : supported (dp_alg dp) j -> caller_key (dp_verification_key dp) (dp_verification_key_length dp) k ->
    (forall rc, ~ turned_down p e j k msg rc) -> sg = Some (sig, st) -> (forall u, ~ misused e j k msg (sig ++ st) u) ->
    ~ verifies p e j k msg sig st -> check p e dp msg sg (Goes false).

Lemma turned_refused p e j k msg rc : turned_down p e j k msg rc -> refused p e j k msg.
Proof.
  unfold turned_down, refused, bad_certificate. intros [[H _]|(_ & H)]; [auto|right]. destruct (j_family j) as [| | |c b wd|]; cbv zeta in H.
  - contradiction.
  - destruct H as [(H & _)|(_ & H & _)]; auto.
  - destruct H as [(H & _)|(_ & H & _)]; auto.
  - destruct H as [(H & _)|[(_ & H & _)|(_ & _ & H)]]; auto.
  - destruct H as [(H & _)|(_ & H & _)]; auto.
Qed.
Lemma turned_fun p e j k msg rc rc' : turned_down p e j k msg rc -> turned_down p e j k msg rc' -> rc = rc'.
Proof.
  unfold turned_down. cbv zeta. intros [[H ->]|(N & H)] [[H' ->]|(N' & H')]; try contradiction; [reflexivity|].
  destruct (j_family j) as [| | |c b wd|]; [contradiction|..]; intuition congruence.
Qed.
Lemma misused_fun e j k msg mem u u' : misused e j k msg mem u -> misused e j k msg mem u' -> u = u'.
Proof.
  unfold misused. destruct (j_family j) as [| | |c b wd|].
  - intros (_ & _ & ->) (_ & _ & ->). reflexivity.
  - contradiction.
  - intros (pk & P & H) (pk' & P' & H'). rewrite (Exact.public_key_fun _ _ _ _ P' P) in H'.
    destruct H as [(A & ->)|(A & _ & ->)], H' as [(A' & ->)|(A' & _ & ->)]; congruence.
  - intros (pk & _ & _ & ->) (pk' & _ & _ & ->). reflexivity.
  - intros (_ & ->) (_ & ->). reflexivity.
Qed.
Lemma check_fun p e dp msg sg c c' : check p e dp msg sg c -> check p e dp msg sg c' -> c = c'.
Proof.
  assert (R : forall j, supported (dp_alg dp) j -> dp_alg dp = (-1)%Z -> False) by (intros j S E; destruct (supported_range _ _ S); lia).
  intros H H'. destruct H, H'; try reflexivity; try contradiction;
    try solve [exfalso; eapply R; eassumption]; try solve [exfalso; match goal with N : forall j, ~ supported _ j, S : supported _ _ |- _ => exact (N _ S) end];
    repeat match goal with
    | S : supported (dp_alg dp) ?a, S' : supported (dp_alg dp) ?b |- _ => assert_fails (constr_eq a b); assert (a = b) by (eapply supported_fun; eassumption); subst a; clear S
    | K : caller_key _ _ ?a, K' : caller_key _ _ ?b |- _ => assert_fails (constr_eq a b); assert (a = b) by (eapply caller_key_fun; eassumption); subst a; clear K
    | E : sg = Some (?a, ?b), E' : sg = Some (?c, ?d) |- _ => assert_fails (constr_eq a c); assert (a = c /\ b = d) as [-> ->] by (rewrite E in E'; injection E'; auto); clear E
    end; try contradiction;
    try solve [exfalso; match goal with N : forall rc, ~ turned_down _ _ _ _ _ rc, S : turned_down _ _ _ _ _ _ |- _ => exact (N _ S)
                        | N : forall u, ~ misused _ _ _ _ _ u, S : misused _ _ _ _ _ _ |- _ => exact (N _ S) end].
  - f_equal. eapply turned_fun; eassumption.
  - f_equal. eapply misused_fun; eassumption.
Qed.

Lemma verify_body_order p e dp j b jwt h pl rest k mem slen :
  dp_jwt dp = Ptr b jwt -> three_parts jwt h pl rest ->
  supported (dp_alg dp) j -> caller_key (dp_verification_key dp) (dp_verification_key_length dp) k ->
  key_ok (dp_verification_key dp) (dp_verification_key_length dp) ->
  (bad_certificate e k -> verify_body p e dp mem slen = OK (VExit 420))
  /\ (~ bad_certificate e k -> match j_family j with HS | ED => False | _ => True end -> e_md e (j_hash j) (h ++ lit "." ++ pl) = None ->
      verify_body p e dp mem slen = OK (VExit 410))
  /\ (~ bad_certificate e k -> j_family j = ED -> p_eddsa p = false -> verify_body p e dp mem slen = OK (VExit 800)).
Proof.
  intros Ej H3 Hj Hck (Hn & k' & Hck' & Hl). unfold verify_body.
  destruct Hck as (kb & m & Eq & Hm & Ek). destruct Hck' as (kb' & m' & Eq' & Hm' & Ek').
  rewrite Eq in Eq'. assert (Em : m' = m) by congruence. subst m'.
  assert (Ekk : k' = k) by congruence. rewrite Ekk in *. clear k' Ek' Ekk Hm' Eq'.
  set (n := dp_verification_key_length dp) in *.
  assert (Hk : length k = N.to_nat n) by (rewrite Ek, firstn_length; lia).
  rewrite Eq, load_key_ok by lia. rewrite <- Ek. cbn [ubind].
  destruct (key_parts k n Hk Hn Hl) as (kl & Ha & _). rewrite Ha. cbn [ubind].
  destruct (load_cert_ok e k n Hk Hn Hl kl Ha) as (crt & Hc). rewrite Hc. cbn [ubind].
  apply (load_cert_inv e k n Hk Hn kl) in Hc; auto. unfold bad_certificate. split; [|split].
  - intros [C1 C2]. destruct Hc as [(_ & E)|(C & _)]; [|contradiction]. rewrite E, C2. reflexivity.
  - intros C F M. destruct crt as [crt|].
    2:{ exfalso. apply C. destruct Hc as [(C' & E)|(_ & E)]; [|discriminate]. split; [exact C'|]. destruct (e_x509_parse e (pem_text k)); [discriminate|reflexivity]. }
    rewrite Ej. cbn [deref ubind]. destruct (signing_input_cut _ _ _ _ H3) as (-> & S2 & S3). cbn [ubind].
    rewrite S2. cbn [ubind]. rewrite S3.
    assert (Eh : verify_hash e (dp_alg dp) (h ++ lit "." ++ pl) = None); [|rewrite Eh; reflexivity].
    unfold verify_hash. clear - Hj F M. destruct Hj as [Hin E0]. rewrite <- E0. clear E0. simpl in Hin.
    decompose [or] Hin; try contradiction; subst; cbn [j_id j_family j_hash Z.leb Z.compare Pos.compare Pos.compare_cont andb
      dec_md_info_from_alg] in *; try contradiction; rewrite M; reflexivity.
  - intros C F P. destruct crt as [crt|].
    2:{ exfalso. apply C. destruct Hc as [(C' & E)|(_ & E)]; [|discriminate]. split; [exact C'|]. destruct (e_x509_parse e (pem_text k)); [discriminate|reflexivity]. }
    rewrite Ej. cbn [deref ubind]. destruct (signing_input_cut _ _ _ _ H3) as (-> & S2 & S3). cbn [ubind].
    rewrite S2. cbn [ubind]. rewrite S3.
    assert (Ea : dp_alg dp = 13%Z).
    { clear - Hj F. destruct Hj as [Hin E0]. rewrite <- E0. clear E0. simpl in Hin.
      decompose [or] Hin; try contradiction; subst; cbn [j_family] in F; discriminate F || reflexivity. }
    rewrite Ea. unfold verify_switch. cbn [verify_hash Z.leb Z.compare Pos.compare Pos.compare_cont andb dec_md_info_from_alg]. rewrite P. reflexivity.
Qed.

Lemma family_range a j : supported a j ->
  match j_family j with HS => (0 <= a <= 2)%Z | RS => (3 <= a <= 5)%Z | PS => (6 <= a <= 8)%Z | ES _ _ _ => (9 <= a <= 12)%Z | ED => a = 13%Z end.
Proof. intros [H E]. simpl in H. decompose [or] H; try contradiction; subst j; cbn [j_id j_family] in *; lia. Qed.

Lemma loose_loop p s : forall f r, (length s / 2 <= length r)%nat ->
  hex_loop p s (Cur f r) = OK (Cur (rev (loose_unhex p s) ++ f) (skipn (length s / 2) r)) /\ length (loose_unhex p s) = (length s / 2)%nat.
Proof.
  induction s as [|a|a b s IH] using list2_ind; intros f r Hr; [auto|auto|].
  assert (E : (length (a :: b :: s) / 2 = S (length s / 2))%nat).
  { cbn [length]. replace (S (S (length s))) with (length s + 1 * 2)%nat by lia. rewrite Nat.div_add by lia. lia. }
  rewrite E in *. destruct r as [|x r]; [cbn [length] in Hr; lia|]. cbn [length] in Hr.
  cbn [hex_loop cur_put c_rest c_done ubind loose_unhex rev length skipn].
  assert (L : forall c, Z.rem (Z.rem (char_val p c) 32 + 9) 25 = loose_digit p c).
  { intros c. unfold loose_digit, char_val. replace (127 <? b2n c)%N with (128 <=? b2n c)%N by lia. reflexivity. }
  assert (Eh : hex_pair (char_val p a) (char_val p b) = n2b (Z.to_N ((16 * loose_digit p a + loose_digit p b) mod 256))).
  { unfold hex_pair. rewrite !L. do 3 f_equal. lia. }
  destruct (IH (hex_pair (char_val p a) (char_val p b) :: f) r) as [H1 H2]; [lia|]. rewrite H1, H2, Eh, <- app_assoc. auto.
Qed.
Lemma loose_hex p s kb : unhex s = Some kb -> loose_unhex p s = kb.
Proof.
  intros H. rewrite unhex_eq in H. destruct (loose_loop p s [] (repeat x00 (length s))) as [E _]; [rewrite repeat_length; apply Nat.div_le_upper_bound; lia|].
  destruct (hex_loop_ok p s [] (repeat x00 (length s))) as (o & E' & _ & V); [rewrite repeat_length; apply Nat.div_le_upper_bound; lia|].
  rewrite E in E'. injection E' as E'. rewrite <- (V _ H). rewrite !app_nil_r in E'. apply (f_equal (@rev byte)) in E'. rewrite !rev_involutive in E'. exact E'.
Qed.
Lemma verify_body_ed p e dp j b jwt h pl rest k sig tail f :
  dp_jwt dp = Ptr b jwt -> three_parts jwt h pl rest ->
  supported (dp_alg dp) j -> j_family j = ED -> caller_key (dp_verification_key dp) (dp_verification_key_length dp) k ->
  verify_body p e dp (sig ++ tail) (N.of_nat (length sig)) = OK (VFlag f) ->
  f = negb (e_ed_verify e (firstn 64 (sig ++ tail)) (h ++ lit "." ++ pl) (loose_unhex p (hmac_key k))).
Proof.
  intros Ej H3 Hj Hf Hck H. unfold verify_body in H.
  apply ubind_inv in H as (key & Hl & H). apply ubind_inv in H as (kl & Ha & H).
  apply ubind_inv in H as (o & Hc & H). destruct o as [crt|]; [|discriminate].
  rewrite Ej in H. cbn [deref ubind] in H. destruct (signing_input_cut _ _ _ _ H3) as (E1 & E2 & E3).
  rewrite E1 in H. cbn [ubind] in H. rewrite E2 in H. cbn [ubind] in H. rewrite E3 in H.
  destruct (verify_hash e (dp_alg dp) (h ++ lit "." ++ pl)) as [hash|] eqn:Eh; [|discriminate].
  set (n := dp_verification_key_length dp) in *. set (msg := h ++ lit "." ++ pl) in *.
  destruct (load_key_inv _ _ _ Hl) as (b' & m & Eq & Hm & Hn & Ek).
  destruct Hck as (b2 & m2 & Eq2 & Hm2 & Ek2). rewrite Eq in Eq2. inversion Eq2; subst b2 m2. rewrite <- Ek2 in Ek.
  assert (Hk : length k = N.to_nat n) by (rewrite Ek2, firstn_length; lia).
  assert (Hn0 : (0 < n)%N). { unfold adjust_key_length in Ha. destruct (N.eqb_spec n 0); [discriminate|lia]. }
  assert (Ea : dp_alg dp = 13%Z).
  { clear - Hj Hf. destruct Hj as [Hin E0]. rewrite <- E0. clear E0. simpl in Hin.
    decompose [or] Hin; try contradiction; subst; cbn [j_family] in Hf; discriminate Hf || reflexivity. }
  rewrite Ea in H. unfold verify_switch in H. cbn [dec_md_info_from_alg] in H. clear Ea Eh Hl Hc Eq Eq2 Ek2 Hm Hm2 E1 E2 E3 Hj Hf.
  destruct (adjust_key_eq k n Hk (conj Hn0 Hn)) as (kl' & Ha' & Hkl & E & E2). rewrite <- Ek in Ha', E, E2.
  rewrite Ha' in Ha. assert (Ekl : kl' = kl) by congruence. rewrite Ekl in Hkl, E, E2. clear Ha Ekl.
  destruct (pem_text_hmac k n Hk (conj Hn0 Hn)) as [Ep Lp].
  destruct (p_eddsa p); [|discriminate]. cbn [negb] in H. apply ubind_inv in H as (ok & Hok & H). destruct ok; [|discriminate]. cbn [negb] in H.
  assert (Hkl64 : (kl = 64 \/ kl = 65)%N).
  { destruct (N.eqb_spec kl 64); [auto|]. destruct (N.eqb_spec kl 65); [auto|discriminate]. }
  assert (Elen : length key = N.to_nat L8W8JWT_MAX_KEY_SIZE).
  { rewrite Ek, app_length, repeat_length. change L8W8JWT_MAX_KEY_SIZE with 8192%N. lia. }
  assert (Et : firstn (N.to_nat kl) key = pem_text k).
  { unfold take in E2. replace (kl <=? 8192)%N with true in E2 by (symmetry; apply N.leb_le; lia).
    destruct (kl <=? N.of_nat (length key))%N; cbv iota in E2; [congruence|discriminate]. }
  rewrite hexstr2bin_cases in H by (rewrite ?repeat_length, ?Elen; change L8W8JWT_MAX_KEY_SIZE with 8192%N; lia).
  rewrite Et, Ep in H. assert (Lh : length (pem_text k) = N.to_nat kl).
  { rewrite <- Et, firstn_length, Elen. change L8W8JWT_MAX_KEY_SIZE with 8192%N. lia. }
  destruct (Nat.eqb_spec (length (hmac_key k) mod 2) 0) as [Ev|]; [|discriminate]. cbn [negb] in H.
  assert (L64 : length (hmac_key k) = 64%nat) by lia.
  rewrite L64 in H. change (33 <? N.of_nat (64 / 2) + 1)%N with false in H. cbv iota in H.
  destruct (loose_loop p (hmac_key k) [] (repeat x00 33)) as (Hlo & Ll); [rewrite L64, repeat_length; cbn; lia|].
  unfold cur_start in H. rewrite Hlo in H. cbn [ubind negb Z.eqb] in H.
  apply ubind_inv in H as (s & Hs & H). apply take_inv in Hs as [_ ->].
  unfold cur_buf in H. cbn [c_done c_rest] in H. rewrite app_nil_r, rev_involutive in H.
  replace 32%nat with (length (loose_unhex p (hmac_key k))) in H by (rewrite Ll, L64; reflexivity).
  rewrite firstn_app_exact in H. change (N.to_nat 64) with 64%nat in H. congruence.
Qed.

Lemma check_verify p e dp b jwt h pl rest k sig st :
  dp_jwt dp = Ptr b jwt -> three_parts jwt h pl rest -> dp_alg dp <> (-1)%Z ->
  caller_key (dp_verification_key dp) (dp_verification_key_length dp) k ->
  key_ok (dp_verification_key dp) (dp_verification_key_length dp) ->
  exists c, check p e dp (h ++ lit "." ++ pl) (Some (sig, st)) c
    /\ match c with
       | Stops rc => rc <> 0%Z /\ verify_body p e dp (sig ++ st) (N.of_nat (length sig)) = OK (VExit rc)
       | Breaks u => verify_body p e dp (sig ++ st) (N.of_nat (length sig)) = KO u
       | Goes v => verify_body p e dp (sig ++ st) (N.of_nat (length sig)) = OK (VFlag (negb v))
       end.
Proof.
  intros Ej H3 Hm Hck Hk. set (msg := h ++ lit "." ++ pl).
  destruct (Z_le_dec 0 (dp_alg dp)) as [R0|R0]; [destruct (Z_le_dec (dp_alg dp) 13) as [R1|R1]|].
  2,3: assert (Nj : forall j, ~ supported (dp_alg dp) j) by (intros j C; destruct (supported_range _ _ C); lia);
       destruct (verify_body_unknown p e dp b _ h pl _ k (sig ++ st) (N.of_nat (length sig)) Ej H3 ltac:(lia) Hck Hk)
         as [(C1 & C2 & r & E & Hr0)|(C & E)];
       [assert (r = 420%Z) as -> by (pose proof (verify_body_exit _ _ _ _ _ _ _ _ _ _ _ _ Ej H3 Hck E) as [X|[X|[X|[X|[X|X]]]]]; lia || exact (proj1 X));
        exists (Stops 420); split; [eapply Ck_unknown_stops; eauto; split; auto|auto]
       |exists (Goes true); split; [eapply Ck_unknown; eauto|exact E]].
  destruct (supported_exists (dp_alg dp)) as (jw & Hjw); [lia|].
  destruct (verify_body_order p e dp jw b _ h pl _ k (sig ++ st) (N.of_nat (length sig)) Ej H3 Hjw Hck Hk) as (O1 & O2 & O3).
  pose proof (verify_body_exact p e dp jw b _ h pl _ k (sig ++ st) (N.of_nat (length sig)) Ej H3 Hjw Hck Hk ltac:(rewrite app_length; lia)) as X.
  fold msg in X, O2. destruct X as [(Rf & r & E & Hr0)|[(Rf & u & Mu & Un & E)|(Rf & Mu & f & E)]].
  - exists (Stops r). split; [|auto]. eapply Ck_stops; eauto. pose proof (verify_body_exit _ _ _ _ _ _ _ _ _ _ _ _ Ej H3 Hck E) as X. fold msg in X.
    assert (Dc : bad_certificate e k \/ ~ bad_certificate e k).
    { clear - Hck Hk. destruct Hk as (Hn & k' & Hck' & Hl). rewrite (caller_key_fun _ _ _ _ Hck' Hck) in Hl. destruct Hck as (kb & m & Eq & Hm & Ek).
      assert (Hk : length k = N.to_nat (dp_verification_key_length dp)) by (rewrite Ek, firstn_length; lia).
      destruct (key_parts k _ Hk Hn Hl) as (kl & Ha & _). destruct (load_cert_ok e k _ Hk Hn Hl kl Ha) as (crt & Hc).
      apply (load_cert_inv e k _ Hk Hn kl) in Hc; auto. unfold bad_certificate.
      destruct Hc as [(C & _)|(C & _)]; [|tauto]. destruct (e_x509_parse e (pem_text k)); [right; intros [_ K]; discriminate K|auto]. }
    destruct Dc as [Dc|Dc]; [left; split; [exact Dc|rewrite (O1 Dc) in E; congruence]|right]. split; [exact Dc|]. cbv zeta.
    assert (Dm : e_md e (j_hash jw) msg = None \/ e_md e (j_hash jw) msg <> None) by (destruct (e_md e (j_hash jw) msg); [right; discriminate|auto]).
    pose proof (family_range _ _ Hjw) as Fr.
    assert (X' : verify_code p e (dp_alg dp) k msg r) by exact X.
    destruct X as [(_ & X)|[(-> & Ra & X)|[(-> & Ra & pk & X1 & X2)|[(-> & Ra & jw' & Sj & X)|[(-> & Ra & X)|(-> & Ra & X)]]]]].
    + destruct (Dc X).
    + assert (Nm : match j_family jw with HS | ED => True | _ => e_md e (j_hash jw) msg <> None end).
      { destruct (j_family jw) eqn:Ef; try exact I; (intros C; specialize (O2 Dc I C); rewrite O2 in E; discriminate E). }
      destruct (j_family jw) eqn:Ef; try lia; auto 6.
    + destruct (j_family jw) eqn:Ef; try lia. right. right.
      assert (Nm : e_md e (j_hash jw) msg <> None) by (intros C; specialize (O2 Dc I C); rewrite O2 in E; discriminate E).
      split; [exact Nm|]. split; [reflexivity|]. exists pk. split; [exact X1|]. split; [|exact X2].
      unfold refused in Rf. rewrite Ef in Rf. destruct Rf as [Rf|[Rf|[Rf|(pk' & P1 & P2 & _)]]]; [destruct (Dc Rf)|destruct (Rf _ X1)|contradiction|].
      rewrite (Exact.public_key_fun _ _ _ _ X1 P1). exact P2.
    + rewrite (supported_fun _ _ _ Sj Hjw) in X. destruct (j_family jw) eqn:Ef; try lia; auto.
    + destruct (j_family jw) eqn:Ef; try lia. right. split; [|auto]. destruct (p_eddsa p) eqn:Ep; [reflexivity|exfalso].
      rewrite (O3 Dc eq_refl eq_refl) in E. discriminate E.
    + destruct (j_family jw) eqn:Ef; try lia. auto.
  - exists (Breaks u). split; [|exact E]. eapply Ck_breaks; eauto. intros rc C. apply Rf. eapply turned_refused; eauto.
  - assert (Nt : forall rc, ~ turned_down p e jw k msg rc) by (intros rc C; apply Rf; eapply turned_refused; eauto).
    assert (V : f = false <-> verifies p e jw k msg sig st).
    { unfold verifies. destruct (j_family jw) eqn:Ef;
        try exact (verify_body_inv p e dp jw b jwt h pl rest k sig st f Ej H3 Hjw Hck (fun C => ltac:(congruence)) E).
      rewrite (verify_body_ed p e dp jw b jwt h pl rest k sig st f Ej H3 Hjw Ef Hck E), negb_false_iff. reflexivity. }
    destruct f.
    + exists (Goes false). split; [|exact E]. eapply Ck_bad; eauto. intros C. apply V in C. discriminate C.
    + exists (Goes true). split; [|exact E]. eapply Ck_good; eauto. apply V. reflexivity.
Qed.

(** ** The validation result *)
Definition blank (c : byte) : Prop := In c [x20; x09; x0a; x0b; x0c; x0d].
Definition at_head (P : byte -> Prop) (s : bytes) : Prop := match s with [] => False | c :: _ => P c end.
(** The number a text stands for where times are compared: blanks, a sign, digits, and whatever
    follows; 0 without digits; brought into the range of a 64-bit integer. *)
Definition reads_as (t : bytes) (z : Z) : Prop :=
  exists sp sg ds r, t = sp ++ sg ++ ds ++ r /\ Forall blank sp /\ Forall digit ds /\ ~ at_head digit r
    /\ ((sg = [] /\ (ds = [] -> ~ at_head (fun c => blank c \/ c = x2d \/ c = x2b) r) /\ z = clamp64 (Z.of_N (dec_value ds)))
        \/ (sg = [x2b] /\ z = clamp64 (Z.of_N (dec_value ds)))
        \/ (sg = [x2d] /\ z = clamp64 (- Z.of_N (dec_value ds)))).

Lemma digit_is c : is_digit c = true <-> digit c.
Proof. unfold digit. destruct c; vm_compute; intuition discriminate. Qed.
Lemma blank_is c : is_space c = true <-> blank c.
Proof. unfold blank. destruct c; vm_compute; intuition discriminate. Qed.
Lemma scan_digits_stop s rest : forall acc a, Forall digit s -> ~ at_head digit rest -> rest <> [] -> acc = Z.of_N a ->
  scan_digits (s ++ rest) acc = OK (Z.of_N (fold_left (fun v c => (10 * v + (b2n c - 48))%N) s a)).
Proof.
  induction s as [|c s IH]; intros acc a Hs Hr Hn ->.
  - destruct rest as [|c rest]; [congruence|]. cbn [app scan_digits fold_left]. destruct (is_digit c) eqn:E; [|reflexivity].
    apply digit_is in E. destruct (Hr E).
  - inversion Hs; subst. destruct (digit_facts c) as (D1 & _ & _ & _ & D5 & D6); auto.
    cbn [app scan_digits fold_left]. rewrite D1. apply IH; auto. rewrite D5. lia.
Qed.
Lemma strtoll_reads t z rest : reads_as t z -> strtoll (t ++ x00 :: rest) = OK z.
Proof.
  intros (sp & sg & ds & r & -> & Hsp & Hd & Hr & H). rewrite <- !app_assoc.
  assert (Hr' : ~ at_head digit (r ++ x00 :: rest)).
  { destruct r as [|c r]; [|exact Hr]. cbn [app at_head]. unfold digit. vm_compute. intuition discriminate. }
  assert (Hn : r ++ x00 :: rest <> []) by (destruct r; discriminate).
  pose proof (scan_digits_stop ds _ 0%Z 0%N Hd Hr' Hn eq_refl) as S.
  change (fold_left (fun v c => (10 * v + (b2n c - 48))%N) ds 0%N) with (dec_value ds) in S.
  induction Hsp as [|c sp Hc _ IH].
  - cbn [app]. destruct H as [(-> & Hh & ->)|[(-> & ->)|(-> & ->)]]; cbn [app].
    + assert (E : at_head (fun c => ~ blank c /\ c <> x2d /\ c <> x2b) (ds ++ r ++ x00 :: rest)).
      { destruct ds as [|c ds].
        - specialize (Hh eq_refl). destruct r as [|c r]; cbn [app at_head] in *; [unfold blank; vm_compute; intuition discriminate|intuition congruence].
        - inversion Hd; subst. destruct (digit_facts c) as (_ & D2 & D3 & D4 & _); auto. cbn [app at_head].
          split; [intros B; apply blank_is in B; congruence|]. split; intros ->; discriminate. }
      destruct (ds ++ r ++ x00 :: rest) as [|c m]; [destruct E|]. destruct E as (E1 & E2 & E3). cbn [strtoll].
      destruct (is_space c) eqn:B; [apply blank_is in B; contradiction|].
      destruct (Byte.eqb c x2d) eqn:B2; [apply Byte.byte_dec_bl in B2; contradiction|].
      destruct (Byte.eqb c x2b) eqn:B3; [apply Byte.byte_dec_bl in B3; contradiction|]. rewrite S. reflexivity.
    + cbn [strtoll]. change (is_space x2b) with false. change (Byte.eqb x2b x2d) with false. change (Byte.eqb x2b x2b) with true. rewrite S. reflexivity.
    + cbn [strtoll]. change (is_space x2d) with false. change (Byte.eqb x2d x2d) with true. rewrite S. reflexivity.
  - cbn [app strtoll]. rewrite (proj2 (blank_is c) Hc). exact IH.
Qed.
Lemma digits_split s : exists ds r, s = ds ++ r /\ Forall digit ds /\ ~ at_head digit r.
Proof.
  induction s as [|c s (ds & r & -> & H1 & H2)]; [exists [], []; auto|].
  destruct (is_digit c) eqn:E.
  - exists (c :: ds), r. split; [reflexivity|]. split; [constructor; [apply digit_is; exact E|exact H1]|exact H2].
  - exists [], (c :: ds ++ r). split; [reflexivity|]. split; [constructor|]. intros K. apply digit_is in K. congruence.
Qed.
Lemma reads_as_exists t : exists z, reads_as t z.
Proof.
  assert (G : exists sp r, t = sp ++ r /\ Forall blank sp /\ ~ at_head blank r).
  { induction t as [|c s (sp & r & -> & H1 & H2)]; [exists [], []; auto|].
    destruct (is_space c) eqn:E.
    - exists (c :: sp), r. split; [reflexivity|]. split; [constructor; [apply blank_is; exact E|exact H1]|exact H2].
    - exists [], (c :: sp ++ r). split; [reflexivity|]. split; [constructor|]. intros K. apply blank_is in K. congruence. }
  destruct G as (sp & r & -> & H1 & H2).
  assert (G : at_head (fun c => c = x2d \/ c = x2b) r \/ ~ at_head (fun c => c = x2d \/ c = x2b) r).
  { destruct r as [|c r]; [right; auto|]. cbn [at_head]. destruct (Byte.byte_eq_dec c x2d), (Byte.byte_eq_dec c x2b); tauto. }
  destruct G as [G|G].
  - destruct r as [|c r]; [destruct G|]. destruct (digits_split r) as (ds & r' & -> & K1 & K2).
    destruct G as [-> | ->]; eexists; [exists sp, [x2d], ds, r'|exists sp, [x2b], ds, r']; (split; [reflexivity|]); auto 8.
  - destruct (digits_split r) as (ds & r' & -> & K1 & K2). eexists. exists sp, [], ds, r'.
    split; [reflexivity|]. split; [exact H1|]. split; [exact K1|]. split; [exact K2|]. left. split; [reflexivity|]. split; [|reflexivity].
    intros ->. cbn [app] in *. destruct r'; [auto|]. cbn [at_head] in *. tauto.
Qed.
Lemma reads_as_fun t z z' : reads_as t z -> reads_as t z' -> z = z'.
Proof. intros H H'. apply (strtoll_reads t z []) in H. apply (strtoll_reads t z' []) in H'. congruence. Qed.

(** Which flags are raised, by their bit (decode.h:46-94), when the claims are [kvs]. *)
Inductive failed (e : env) (dp : dec_params) (verified : bool) (kvs : list (bytes * bytes)) : N -> Prop :=
| F_signature : verified = false -> failed e dp verified kvs 7
| F_identity bit name q n s : In (bit, name, q, n) (identity_checks dp) -> given q n s -> lookup_prefix name kvs <> Some s ->
    failed e dp verified kvs bit
| F_no_time c : time_requested dp c = true -> lookup_prefix (time_name c) kvs = None -> failed e dp verified kvs (time_bit c)
| F_time c t z : time_requested dp c = true -> lookup_prefix (time_name c) kvs = Some t -> reads_as t z ->
    out_of_time c (limit e dp c) z -> failed e dp verified kvs (time_bit c)
| F_typ b x r : dp_validate_typ dp = Ptr b (x ++ x00 :: r) -> no_nul x ->
    (forall t, lookup_prefix (lit "typ") kvs = Some t ->
       ~ (same_nocase (dp_validate_typ_length dp) t x /\ (0 < dp_validate_typ_length dp)%N /\ (t <> [] \/ x <> []))) ->
    failed e dp verified kvs 8.
Definition flags_are (e : env) (dp : dec_params) (verified : bool) (kvs : list (bytes * bytes)) (v : N) : Prop :=
  forall bit, N.testbit v bit = true <-> failed e dp verified kvs bit.
Lemma verdict_fun e dp b kvs v v' : flags_are e dp b kvs v -> flags_are e dp b kvs v' -> v = v'.
Proof.
  intros H H'. apply N.bits_inj. intros k. specialize (H k). specialize (H' k).
  destruct (N.testbit v k), (N.testbit v' k); intuition congruence.
Qed.

Lemma time_check_reads b cs kvs name now fails f t z :
  told cs kvs -> no_nul (lit name) -> String.length name = 3%nat ->
  time_check (CArr b cs) (N.of_nat (length cs)) name now fails = OK f -> value_of (prefixb (lit name)) kvs = Some t -> reads_as t z ->
  f = fails now z.
Proof.
  intros Ht Hn Hl H Ev Hz. unfold time_check in H. pose proof (get_claim_told b cs kvs name Ht Hn Hl) as G. rewrite Ev in G.
  destruct G as (c & k & G & ((_ & _ & (b1 & r1 & E1) & El) & Hv)). rewrite G in H. cbn [ubind] in H.
  apply ubind_inv in H as (n & H2 & H). unfold i64 in H2. destruct (_ && _) in H2; [|discriminate]. injection H2 as <-.
  rewrite E1 in H. cbn [deref ubind] in H. rewrite (strtoll_reads _ _ _ Hz) in H. cbn [ubind] in H. congruence.
Qed.

Lemma validate_verdict p e dp b cs es ok v :
  Forall2 holds cs es -> Forall entry_plain es -> requests_readable e dp ->
  l8w8jwt_validate_claims p e dp (CArr b cs) (N.of_nat (length cs)) (if ok : bool then 0 else 128)%N = OK v ->
  flags_are e dp ok (map kv_of es) v.
Proof.
  intros Hh Hpl (R1 & R2 & R3 & R4 & _ & R5) H. pose proof (holds_told _ _ Hh Hpl) as T. set (kvs := map kv_of es) in *. clearbody kvs. clear Hh Hpl es.
  apply validate_claims_inv in H as (f1 & f2 & f3 & f4 & f5 & f6 & f7 & f8 & -> & V1 & V2 & V3 & V4 & V5 & V6 & V7 & V8).
  assert (Str : forall name q n f bit, expectable q n -> no_nul (lit name) -> String.length name = 3%nat ->
    (if is_null q then f = false else string_check (CArr b cs) (N.of_nat (length cs)) name q n = OK f) ->
    In (bit, lit name, q, n) (identity_checks dp) ->
    (f = true <-> exists s, given q n s /\ lookup_prefix (lit name) kvs <> Some s)).
  { intros name q n f bit [->|(s & Hs)] Hz Hl Hf _.
    - cbn [is_null] in Hf. subst f. split; [discriminate|]. intros (s & [] & _).
    - assert (Eq : is_null q = false) by (destruct q; [destruct Hs|reflexivity]). rewrite Eq in Hf.
      pose proof (string_check_told b cs kvs name q n s f T Hz Hl Hs Hf) as X. unfold lookup_prefix.
      change (fun k => prefixb (lit name) k) with (prefixb (lit name)). split.
      + intros ->. exists s. split; [exact Hs|]. intros C. apply X in C. discriminate.
      + intros (s' & Hs' & C). rewrite (given_det _ _ _ _ Hs' Hs) in C. destruct f; [reflexivity|]. destruct C. apply X. reflexivity. }
  assert (Tim : forall name c (ok : Z -> Z -> bool) f, lit name = time_name c -> no_nul (lit name) -> String.length name = 3%nat ->
    (forall z, ok (limit e dp c) z = true <-> out_of_time c (limit e dp c) z) ->
    (if time_requested dp c then time_check (CArr b cs) (N.of_nat (length cs)) name (limit e dp c) ok = OK f else f = false) ->
    (f = true <-> time_requested dp c = true /\ (lookup_prefix (time_name c) kvs = None
        \/ exists t z, lookup_prefix (time_name c) kvs = Some t /\ reads_as t z /\ out_of_time c (limit e dp c) z))).
  { intros name c fails f En Hz Hl Hf Hc. rewrite <- En. destruct (time_requested dp c); [|subst f; intuition discriminate].
    pose proof (time_check_told b cs kvs name _ _ f T Hz Hl Hc) as X. unfold lookup_prefix. change (fun k => prefixb (lit name) k) with (prefixb (lit name)).
    destruct (value_of (prefixb (lit name)) kvs) as [t|] eqn:Ev; [|tauto].
    destruct (reads_as_exists t) as (z & Hr). rewrite (time_check_reads b cs kvs name _ _ f t z T Hz Hl Hc Ev Hr), Hf. split.
    - intros K. split; [reflexivity|]. right. eauto.
    - intros (_ & [K|(t' & z' & E & Hr' & K)]); [discriminate|]. injection E as <-. rewrite (reads_as_fun _ _ _ Hr' Hr) in K. exact K. }
  apply (Str _ _ _ _ 1%N R1) in V1; [|vm_compute; intuition discriminate|reflexivity|cbn; auto].
  apply (Str _ _ _ _ 2%N R2) in V2; [|vm_compute; intuition discriminate|reflexivity|cbn; auto].
  apply (Str _ _ _ _ 0%N R3) in V3; [|vm_compute; intuition discriminate|reflexivity|cbn; auto].
  apply (Str _ _ _ _ 3%N R4) in V4; [|vm_compute; intuition discriminate|reflexivity|cbn; auto].
  apply (Tim "exp"%string Exp) in V5; [|reflexivity|vm_compute; intuition discriminate|reflexivity|intros z; cbn [out_of_time limit]; lia].
  apply (Tim "nbf"%string Nbf) in V6; [|reflexivity|vm_compute; intuition discriminate|reflexivity|intros z; cbn [out_of_time limit]; lia].
  apply (Tim "iat"%string Iat) in V7; [|reflexivity|vm_compute; intuition discriminate|reflexivity|intros z; cbn [out_of_time limit]; lia].
  assert (V8' : f8 = true <-> exists b0 x r, dp_validate_typ dp = Ptr b0 (x ++ x00 :: r) /\ no_nul x
    /\ forall t, lookup_prefix (lit "typ") kvs = Some t ->
       ~ (same_nocase (dp_validate_typ_length dp) t x /\ (0 < dp_validate_typ_length dp)%N /\ (t <> [] \/ x <> []))).
  { destruct R5 as [R5|(eb & x & r & R5 & Hx)]; rewrite R5 in *; cbn [is_null] in V8.
    - subst f8. split; [discriminate|]. intros (? & ? & ? & K & _). discriminate.
    - pose proof (typ_check_told p b cs kvs eb x r _ f8 T Hx V8) as X. unfold lookup_prefix. change (fun k => prefixb (lit "typ") k) with (prefixb (lit "typ")). split.
      + intros ->. exists eb, x, r. split; [reflexivity|]. split; [exact Hx|]. intros t Et C.
        assert (K : true = false) by (apply X; exists t; tauto). discriminate K.
      + intros (b' & x' & r' & E & Hx' & K). assert (E2 : x ++ x00 :: r = x' ++ x00 :: r') by congruence. apply cstr_fun in E2; auto. subst x'.
        destruct f8; [reflexivity|]. destruct (proj1 X eq_refl) as (t & Et & C). destruct (K t Et). tauto. }
  clear V8 Str Tim. intros bit. rewrite lor_flags_testbit.
  assert (B0 : N.testbit (if ok then 0 else 128)%N bit = negb ok && (bit =? 7)%N).
  { destruct ok; [apply N.bits_0|]. change 128%N with (2 ^ 7)%N. rewrite N.pow2_bits_eqb. cbn [negb andb]. apply N.eqb_sym. }
  rewrite B0. rewrite !orb_true_iff, !andb_true_iff, !N.eqb_eq, negb_true_iff. split.
  - intros [[[[[[[[[K E]|[K E]]|[K E]]|[K E]]|[K E]]|[K E]]|[K E]]|[K E]]|[K E]]; rewrite E; clear E.
    + apply F_signature. exact K.
    + apply V1 in K as (s & K1 & K2). eapply F_identity; [|exact K1|exact K2]. cbn; auto.
    + apply V2 in K as (s & K1 & K2). eapply F_identity; [|exact K1|exact K2]. cbn; auto.
    + apply V3 in K as (s & K1 & K2). eapply F_identity; [|exact K1|exact K2]. cbn; auto.
    + apply V4 in K as (s & K1 & K2). eapply F_identity; [|exact K1|exact K2]. cbn; auto.
    + apply V5 in K as (K1 & [K2|(t & z & K2 & K3 & K4)]); [apply (F_no_time e dp ok kvs Exp)|eapply (F_time e dp ok kvs Exp)]; eauto.
    + apply V6 in K as (K1 & [K2|(t & z & K2 & K3 & K4)]); [apply (F_no_time e dp ok kvs Nbf)|eapply (F_time e dp ok kvs Nbf)]; eauto.
    + apply V7 in K as (K1 & [K2|(t & z & K2 & K3 & K4)]); [apply (F_no_time e dp ok kvs Iat)|eapply (F_time e dp ok kvs Iat)]; eauto.
    + apply V8' in K as (b0 & x & r & K1 & K2 & K3). eapply F_typ; eauto.
  - intros [K|bit' name q n s Hin K1 K2|c K1 K2|c t z K1 K2 K3 K4|b0 x r K1 K2 K3].
    + do 8 left. auto.
    + cbn in Hin. destruct Hin as [E|[E|[E|[E|[]]]]]; injection E as <- <- <- <-.
      * do 7 left. right. split; [apply V1; eauto|reflexivity].
      * do 6 left. right. split; [apply V2; eauto|reflexivity].
      * do 5 left. right. split; [apply V3; eauto|reflexivity].
      * do 4 left. right. split; [apply V4; eauto|reflexivity].
    + destruct c; cbn [time_bit]; [do 3 left|do 2 left|left]; right; (split; [|reflexivity]); [apply V5|apply V6|apply V7]; auto.
    + destruct c; cbn [time_bit]; [do 3 left|do 2 left|left]; right; (split; [|reflexivity]); [apply V5|apply V6|apply V7]; eauto 8.
    + right. split; [|reflexivity]. apply V8'. eauto 6.
Qed.

(** ** The whole *)
Inductive outcome := Code (rc : Z) | Result (v : N) (es : list entry) | Harm (u : ub).
(** Reading the claims of header and payload and validating them. *)
Inductive reading (p : platform) (e : env) (dp : dec_params) (verified : bool) (hj ht pj pt : bytes) : outcome -> Prop :=
| Rd_header : has_fate e hj ht Refused -> reading p e dp verified hj ht pj pt (Code 600)
| Rd_header_over : has_fate e hj ht Over -> reading p e dp verified hj ht pj pt (Harm OOBRead)
| Rd_payload eh : has_fate e hj ht (Read eh) -> has_fate e pj pt Refused -> reading p e dp verified hj ht pj pt (Code 600)
| Rd_payload_over eh : has_fate e hj ht (Read eh) -> has_fate e pj pt Over -> reading p e dp verified hj ht pj pt (Harm OOBRead)
| Rd_typ eh ep : has_fate e hj ht (Read eh) -> has_fate e pj pt (Read ep) -> typ_trips p dp (eh ++ ep) ->
    reading p e dp verified hj ht pj pt (Harm BadCtype)
| Rd_result eh ep v : has_fate e hj ht (Read eh) -> has_fate e pj pt (Read ep) -> ~ typ_trips p dp (eh ++ ep) ->
    flags_are e dp verified (map kv_of (eh ++ ep)) v -> reading p e dp verified hj ht pj pt (Result v (eh ++ ep)).
(** Decoding the token [j]: the parameters are looked at, the token is cut, its signature checked, its
    claims are read. *)
Inductive running (p : platform) (e : env) (dp : dec_params) (j : bytes) : outcome -> Prop :=
| Rn_cut rc : cut dp j (Wrong rc) -> running p e dp j (Code rc)
| Rn_stops msg hj ht pj pt sg rc : cut dp j (Parts msg hj ht pj pt sg) -> check p e dp msg sg (Stops rc) -> running p e dp j (Code rc)
| Rn_breaks msg hj ht pj pt sg u : cut dp j (Parts msg hj ht pj pt sg) -> check p e dp msg sg (Breaks u) -> running p e dp j (Harm u)
| Rn_goes msg hj ht pj pt sg verified o : cut dp j (Parts msg hj ht pj pt sg) -> check p e dp msg sg (Goes verified) ->
    reading p e dp verified hj ht pj pt o -> running p e dp j o.
Inductive decoding (p : platform) (e : env) (dp : dec_params) (j : bytes) : outcome -> Prop :=
| De_empty : j = [] -> decoding p e dp j (Code 200)
| De_unbuilt : j <> [] -> dp_alg dp = 13%Z -> p_eddsa p = false -> decoding p e dp j (Code 800)
| De_run o : j <> [] -> ~ (dp_alg dp = 13%Z /\ p_eddsa p = false) -> running p e dp j o -> decoding p e dp j o.

(** What the stretch of code does in each case; [P]: of the parts of the token. *)
Definition does (call : res dec_state) (P : segs -> Prop) (o : outcome) : Prop :=
  match o with
  | Harm u => call = Undef u
  | Code rc => rc <> 0%Z /\ exists st w', call = Ret st w' /\ ds_rc st = rc /\ P (ds_segs st)
  | Result v es => exists st w', call = Ret st w' /\ ds_rc st = 0%Z /\ ds_res st = v
                     /\ Forall2 holds (cb_elems (ds_claims st)) es /\ P (ds_segs st)
  end.
Lemma parse_rest_does p e dp b1 hj ht b2 pj pt sg3 id verified w :
  wf w -> allocs w -> grows w -> uses_jsmn e -> (32 <= p_size_bits p)%N ->
  (Z.of_nat (length hj) <= INT_MAX)%Z -> (Z.of_nat (length pj) <= INT_MAX)%Z -> (13 <= length ht)%nat -> (13 <= length pt)%nat ->
  requests_readable e dp ->
  let sgs := Segs (Seg (Ptr b1 (hj ++ ht)) (N.of_nat (length hj))) (Seg (Ptr b2 (pj ++ pt)) (N.of_nat (length pj))) sg3 in
  let call := parse_rest p e dp sgs (CB id []) (if verified : bool then 0 else 128)%N w in
  exists o, reading p e dp verified hj ht pj pt o /\ (forall o', reading p e dp verified hj ht pj pt o' -> o' = o)
    /\ does call (fun s => s = sgs) o.
Proof.
  intros Hwf Ha Hg Hj Hp L1 L2 T1 T2 Hr sgs call. unfold call, parse_rest, sgs. cbn [s_ptr s_len sg_header sg_payload].
  assert (Al : forall x y, later x y -> allocs x -> allocs y) by (intros x y (E0 & _) H0 q; rewrite E0; apply H0).
  destruct (parse_claims_fate p e (CB id []) b1 hj ht w Hj Hp L1 ltac:(lia) Hwf) as (f1 & F1 & U1 & K1). destruct f1 as [eh| |].
  - destruct K1 as (rc & c1 & w1 & E1 & S1 & C1). specialize (S1 Ha). subst rc. destruct (C1 eq_refl) as (n1 & s1 & Ec1 & _ & H1 & P1 & G1).
    rewrite (G1 Hg) in H1. clear C1 G1 s1. mstep E1. change (negb (L8W8JWT_SUCCESS =? L8W8JWT_SUCCESS)%Z) with false. cbv iota.
    apply parse_claims_inv in E1 as (hb & hm & m1 & l1 & _ & _ & (_ & _ & _ & A1) & _); [|exact Hwf].
    assert (W1 : wf w1) by (eapply adds_wf; eauto). assert (Lt : later w w1) by (eapply adds_later; exact A1).
    assert (Al1 : allocs w1) by (eapply Al; eauto). assert (Gr1 : grows w1) by (eapply grows_later; eauto).
    destruct (parse_claims_fate p e c1 b2 pj pt w1 Hj Hp L2 ltac:(lia) W1) as (f2 & F2 & U2 & K2). destruct f2 as [ep| |].
    + destruct K2 as (rc & c2 & w2 & E2 & S2 & C2). specialize (S2 Al1). subst rc. destruct (C2 eq_refl) as (n2 & s2 & Ec2 & _ & H2 & P2 & G2).
      rewrite (G2 Gr1) in H2. clear C2 G2 s2. mstep E2. change (negb (L8W8JWT_SUCCESS =? L8W8JWT_SUCCESS)%Z) with false. cbv iota.
      rewrite Ec1 in Ec2. cbn [cb_elems app] in Ec2. unfold cb_len. rewrite Ec2.
      assert (Hh : Forall2 holds (n1 ++ n2) (eh ++ ep)) by (apply Forall2_app; assumption).
      assert (Hpl : Forall entry_plain (eh ++ ep)) by (apply Forall_app; auto).
      destruct (validate_claims_exact p e dp (Some (cb_id c2)) (n1 ++ n2) (eh ++ ep) (if verified then 0 else 128)%N Hh Hpl Hr) as [[T E]|[T (v & E)]];
        unfold mbind at 1; rewrite E; cbn [lift].
      * exists (Harm BadCtype). split; [eapply Rd_typ; eauto|]. split; [|reflexivity].
        intros o' [C|C|eh' C1 C|eh' C1 C|eh' ep' C1 C2 C|eh' ep' v' C1 C2 C V];
          try (apply U1 in C; discriminate C); try (apply U2 in C; discriminate C); [reflexivity|].
        apply U1 in C1. apply U2 in C2. injection C1 as ->. injection C2 as ->. contradiction.
      * pose proof (validate_verdict p e dp _ _ _ verified v Hh Hpl Hr E) as V.
        exists (Result v (eh ++ ep)). split; [eapply Rd_result; eauto|]. split.
        -- intros o' [C|C|eh' C1 C|eh' C1 C|eh' ep' C1 C2 C|eh' ep' v' C1 C2 C V'];
             try (apply U1 in C; discriminate C); try (apply U2 in C; discriminate C);
             apply U1 in C1; apply U2 in C2; injection C1 as ->; injection C2 as ->; [contradiction|].
           rewrite (verdict_fun _ _ _ _ _ _ V' V). reflexivity.
        -- do 2 eexists. split; [reflexivity|]. cbn [ds_rc ds_segs ds_res ds_claims]. rewrite Ec2. auto 6.
    + destruct K2 as (rc & c2 & w2 & E2 & S2 & _). mstep E2. apply Z.eqb_neq in S2. rewrite S2. cbn [negb].
      exists (Code 600). split; [eapply Rd_payload; eauto|]. split.
      * intros o' [C|C|eh' C1 C|eh' C1 C|eh' ep' C1 C2 C|eh' ep' v' C1 C2 C V'];
          try (apply U1 in C; discriminate C); try (apply U2 in C; discriminate C); try (apply U2 in C2; discriminate C2); reflexivity.
      * split; [discriminate|]. do 2 eexists. split; [reflexivity|]. auto.
    + unfold mbind at 1. rewrite (proj1 K2 Al1). exists (Harm OOBRead). split; [eapply Rd_payload_over; eauto|]. split; [|reflexivity].
      intros o' [C|C|eh' C1 C|eh' C1 C|eh' ep' C1 C2 C|eh' ep' v' C1 C2 C V'];
        try (apply U1 in C; discriminate C); try (apply U2 in C; discriminate C); try (apply U2 in C2; discriminate C2); reflexivity.
  - destruct K1 as (rc & c1 & w1 & E1 & S1 & _). mstep E1. apply Z.eqb_neq in S1. rewrite S1. cbn [negb].
    exists (Code 600). split; [apply Rd_header; auto|]. split.
    + intros o' [C|C|eh' C1 C|eh' C1 C|eh' ep' C1 C2 C|eh' ep' v' C1 C2 C V'];
        try (apply U1 in C; discriminate C); try (apply U1 in C1; discriminate C1); reflexivity.
    + split; [discriminate|]. do 2 eexists. split; [reflexivity|]. auto.
  - unfold mbind at 1. rewrite (proj1 K1 Ha). exists (Harm OOBRead). split; [apply Rd_header_over; auto|]. split; [|reflexivity].
    intros o' [C|C|eh' C1 C|eh' C1 C|eh' ep' C1 C2 C|eh' ep' v' C1 C2 C V'];
      try (apply U1 in C; discriminate C); try (apply U1 in C1; discriminate C1); reflexivity.
Qed.

(** The parts of the token that are handed out. *)
Definition a_part (o t : bytes) (s : seg) : Prop := exists i, s = Seg (Ptr (Some i) (o ++ t)) (N.of_nat (length o)).
Definition the_parts (dp : dec_params) (j : bytes) (sgs : segs) : Prop :=
  forall msg hj ht pj pt sg, cut dp j (Parts msg hj ht pj pt sg) ->
  a_part hj ht (sg_header sgs) /\ a_part pj pt (sg_payload sgs)
  /\ match sg with None => sg_signature sgs = seg0 | Some (sig, st) => a_part sig st (sg_signature sgs) end.

Lemma decode_body_does p e dp j id w :
  wf w -> allocs w -> grows w -> uses_jsmn e -> (32 <= p_size_bits p)%N -> c_text p dp j -> (Z.of_nat (length j) <= INT_MAX)%Z ->
  key_ok (dp_verification_key dp) (dp_verification_key_length dp) -> requests_readable e dp ->
  exists o, running p e dp j o /\ (forall o', running p e dp j o' -> o' = o)
    /\ does (decode_body p e dp (CB id []) w) (the_parts dp j) o.
Proof.
  intros Hwf Ha Hg Hj Hp Ht Hl Hk Hr. unfold decode_body.
  destruct (cut_segments p dp j w Hwf Ha Ht) as (c & Hc & Kc). destruct c as [rc|msg hj ht pj pt sg].
  { destruct Kc as (R0 & sg & w1 & E1). mstep E1. exists (Code rc). split; [apply Rn_cut; exact Hc|]. split.
    - intros o' [rc' C|msg hj ht pj pt sg' rc' C _|msg hj ht pj pt sg' u C _|msg hj ht pj pt sg' vf o C _ _];
        pose proof (cut_fun _ _ _ _ C Hc) as X; try discriminate X. congruence.
    - split; [exact R0|]. apply Z.eqb_neq in R0. change (rc =? 0)%Z with (rc =? L8W8JWT_SUCCESS)%Z in R0. rewrite R0. do 2 eexists. split; [reflexivity|]. split; [reflexivity|].
      intros msg hj ht pj pt sg' C. pose proof (cut_fun _ _ _ _ C Hc) as X. discriminate X. }
  destruct Kc as ((h & pl & r & Ej & Em & D1 & D2 & Hs) & i1 & i2 & sgs & w1 & E1 & W1 & A1 & Lt1 & Hsgs).
  mstep E1. change (negb (L8W8JWT_SUCCESS =? L8W8JWT_SUCCESS)%Z) with false. cbn [s_ptr s_len sg_signature sg_header sg_payload].
  assert (G1 : grows w1) by (eapply grows_later; eauto).
  destruct (parts_short _ _ _ _ Ej Hl _ _ _ _ D1 D2) as [L1 L2].
  pose proof (b64_decodes_tail _ _ _ D1) as T1. pose proof (b64_decodes_tail _ _ _ D2) as T2.
  set (all := Segs (Seg (Ptr (Some i1) (hj ++ ht)) (N.of_nat (length hj))) (Seg (Ptr (Some i2) (pj ++ pt)) (N.of_nat (length pj))) sgs) in *.
  assert (Sg : the_parts dp j all).
  { intros msg' hj' ht' pj' pt' sg' C. pose proof (cut_fun _ _ _ _ C Hc) as X. injection X as -> -> -> -> -> ->.
    split; [eexists; reflexivity|]. split; [eexists; reflexivity|]. cbn [sg_signature all].
    destruct sg as [[sig st']|]; [exact Hsgs|exact Hsgs]. }
  assert (Cv : forall c, check p e dp msg sg c -> match c with
      | Stops rc => rc <> 0%Z /\ exists w2 rs, l8w8jwt_verify_signature p e dp L8W8JWT_VALID (s_ptr sgs) (s_len sgs) w1 = Ret (rc, rs) w2
      | Breaks u => l8w8jwt_verify_signature p e dp L8W8JWT_VALID (s_ptr sgs) (s_len sgs) w1 = Undef u
      | Goes vf => exists w2, l8w8jwt_verify_signature p e dp L8W8JWT_VALID (s_ptr sgs) (s_len sgs) w1
                     = Ret (L8W8JWT_SUCCESS, (if vf : bool then 0 else 128)%N) w2 /\ quiet w1 w2
      end -> exists o, running p e dp j o /\ (forall o', running p e dp j o' -> o' = o) /\
    does ((' a <- l8w8jwt_verify_signature p e dp L8W8JWT_VALID (s_ptr sgs) (s_len sgs) ;;
         let (r0, res) := a in if negb (r0 =? L8W8JWT_SUCCESS)%Z then mret (DecState r0 all (CB id []) res) else parse_rest p e dp all (CB id []) res) w1)
      (the_parts dp j) o).
  { intros c Ck Kv. destruct c as [rc|u|vf].
    - destruct Kv as (R0 & w2 & rs & E2). exists (Code rc). split; [eapply Rn_stops; eauto|]. split.
      + intros o' [rc' C|msg' hj' ht' pj' pt' sg' rc' C K|msg' hj' ht' pj' pt' sg' u C K|msg' hj' ht' pj' pt' sg' vf o2 C K R];
          pose proof (cut_fun _ _ _ _ C Hc) as X; try discriminate X; injection X as -> -> -> -> -> ->;
          pose proof (check_fun _ _ _ _ _ _ _ K Ck) as X; try discriminate X. congruence.
      + split; [exact R0|]. unfold mbind at 1. rewrite E2. apply Z.eqb_neq in R0. change (rc =? 0)%Z with (rc =? L8W8JWT_SUCCESS)%Z in R0. rewrite R0. do 2 eexists. split; [reflexivity|].
        split; [reflexivity|]. exact Sg.
    - exists (Harm u). split; [eapply Rn_breaks; eauto|]. split; [|unfold does, mbind at 1; rewrite Kv; reflexivity].
      intros o' [rc' C|msg' hj' ht' pj' pt' sg' rc' C K|msg' hj' ht' pj' pt' sg' u' C K|msg' hj' ht' pj' pt' sg' vf o2 C K R];
        pose proof (cut_fun _ _ _ _ C Hc) as X; try discriminate X; injection X as -> -> -> -> -> ->;
        pose proof (check_fun _ _ _ _ _ _ _ K Ck) as X; try discriminate X. congruence.
    - destruct Kv as (w2 & E2 & Q). unfold mbind at 1. rewrite E2. change (negb (L8W8JWT_SUCCESS =? L8W8JWT_SUCCESS)%Z) with false. cbv iota.
      assert (W2 : wf w2) by (eapply wf_quiet; eauto). assert (Lt2 : later w1 w2) by (apply quiet_later; exact Q).
      assert (A2 : allocs w2) by (destruct Lt2 as (E0 & _); intros q; rewrite E0; apply A1). assert (G2 : grows w2) by (eapply grows_later; eauto).
      destruct (parse_rest_does p e dp (Some i1) hj ht (Some i2) pj pt sgs id vf w2 W2 A2 G2 Hj Hp L1 L2 T1 T2 Hr) as (o & O1 & O2 & O3).
      exists o. split; [eapply Rn_goes; eauto|]. split.
      + intros o' [rc' C|msg' hj' ht' pj' pt' sg' rc' C K|msg' hj' ht' pj' pt' sg' u C K|msg' hj' ht' pj' pt' sg' vf' o2 C K R];
          pose proof (cut_fun _ _ _ _ C Hc) as X; try discriminate X; injection X as -> -> -> -> -> ->;
          pose proof (check_fun _ _ _ _ _ _ _ K Ck) as X; try discriminate X. injection X as ->. exact (O2 _ R).
      + fold all in O3. destruct o as [rc|v es|u]; [|destruct O3 as (st & w' & X1 & X2 & X3 & X4 & X5)|exact O3].
        * destruct O3 as (X0 & st & w' & X1 & X2 & X3). split; [exact X0|]. exists st, w'. rewrite X3. auto.
        * exists st, w'. rewrite X5. auto 6. }
  destruct (Z.eq_dec (dp_alg dp) (-1)) as [Ea|Ea].
  { apply (Cv (Goes true)); [apply Ck_none; exact Ea|]. exists w1. split; [|apply quiet_refl].
    unfold l8w8jwt_verify_signature. rewrite Ea. reflexivity. }
  destruct sg as [[sig st]|]; [|contradiction]. destruct Hs as (b & rest & s & Ejp & D3 & T3). destruct Hsgs as (i3 & ->).
  pose proof Hk as (_ & k & Hck & _). cbn [s_ptr s_len] in Cv.
  destruct (check_verify p e dp b _ h pl _ k sig st Ejp T3 Ea Hck Hk) as (c & Ck & Kv). rewrite <- Em in Ck.
  pose proof (b64_decodes_len _ _ _ D3) as [Ls _].
  pose proof (verify_signature_of p e dp L8W8JWT_VALID (Some i3) (sig ++ st) (N.of_nat (length sig)) w1 W1 A1 Ea ltac:(lia)) as HV.
  apply (Cv c Ck). destruct c as [rc|u|vf].
  - destruct Kv as [R0 E]. rewrite E in HV. destruct HV as (w2 & H2 & _). split; [exact R0|]. exists w2. eexists. exact H2.
  - rewrite Kv in HV. exact HV.
  - rewrite Kv in HV. destruct HV as (w2 & H2 & Q). exists w2. split; [|exact Q]. rewrite H2. destruct vf; reflexivity.
Qed.
