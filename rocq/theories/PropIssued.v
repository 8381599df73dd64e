(** * Property C51: a token this library issues passes exactly the checks that match what was issued *)
From Verif Require Import Base BaseProofs HeapProofs Util UtilProofs Claim Base64 SpecB64
  Base64EncProofs Base64EncApi Base64DecProofs Base64Api Jsmn Env Encode Decode SpecJson SpecJwa ClaimProofs UnescapeProofs
  EncodeProofs SignProofs EncodeTotal SpecEnc JsonProofs PropEncode DecodeProofs DecodeInv JsmnProofs ParseProofs
  PropClaim ReadProofs ValidateProofs JsmnJson JsmnSize PropVerify PropValidate PropLeak PropJson DecodeTotal DecodeOk PropSafe
  PropRoundTrip LocalProofs.
From Coq Require Import ZifyBool ZifyNat ZifyN.
Ltac Zify.zify_post_hook ::= Z.div_mod_to_equations.
Local Opaque L8W8JWT_MAX_KEY_SIZE.

(** ** Notions *)
(** No additional claim's name starts with [name]. *)
Definition unshadowed (name : bytes) (cs : list claim) : Prop :=
  forall c k rest, In c cs -> given (c_key c) (c_key_length c) k -> k <> name ++ rest.
(** The flag, the name, what the caller of decode expects, what the caller of encode supplied. *)
Definition string_checks (dp : dec_params) (ep : enc_params) : list (N * bytes * (ptr * N) * (ptr * N)) :=
  [ (1%N, lit "sub", (dp_validate_sub dp, dp_validate_sub_length dp), (ep_sub ep, ep_sub_length ep));
    (2%N, lit "aud", (dp_validate_aud dp, dp_validate_aud_length dp), (ep_aud ep, ep_aud_length ep));
    (0%N, lit "iss", (dp_validate_iss dp, dp_validate_iss_length dp), (ep_iss ep, ep_iss_length ep));
    (3%N, lit "jti", (dp_validate_jti dp, dp_validate_jti_length dp), (ep_jti ep, ep_jti_length ep)) ].
Definition issued_time (ep : enc_params) (c : time_claim) : Z :=
  match c with Exp => ep_exp ep | Nbf => ep_nbf ep | Iat => ep_iat ep end.

(** Everything asked for at decode time is what was issued, and the token is in time. *)
Definition expectations_met (e : env) (dp : dec_params) (ep : enc_params) (cs : list claim) : Prop :=
  (forall bit name x xn y yn, In (bit, name, (x, xn), (y, yn)) (string_checks dp ep) -> x <> Null ->
     unshadowed name cs /\ exists s, given x xn s /\ given y yn s /\ Forall survives s)
  /\ (forall c, time_requested dp c = true ->
        unshadowed (time_name c) cs /\ ordinary_time (limit e dp c)
        /\ (0 < issued_time ep c <= I64_MAX)%Z /\ ~ out_of_time c (limit e dp c) (issued_time ep c))
  /\ (dp_validate_typ dp = Null
      \/ exists b t rest, dp_validate_typ dp = Ptr b (t ++ x00 :: rest) /\ no_nul t
           /\ same_nocase (dp_validate_typ_length dp) (lit "JWT") t /\ (0 < dp_validate_typ_length dp)%N).

(** ** Lemmas *)
Lemma decoded_fun c k v k' v' : decoded c k v -> decoded c k' v' -> k = k' /\ v = v'.
Proof.
  intros ((b & r & E1) & L1 & (b2 & r2 & E2) & L2) ((b3 & r3 & E3) & L3 & (b4 & r4 & E4) & L4).
  rewrite E1 in E3. rewrite E2 in E4.
  assert (A1 : k ++ x00 :: r = k' ++ x00 :: r3) by congruence. assert (A2 : v ++ x00 :: r2 = v' ++ x00 :: r4) by congruence.
  assert (B1 : length k = length k') by lia. assert (B2 : length v = length v') by lia.
  apply app_eq_length in A1 as [-> _]; [|exact B1]. apply app_eq_length in A2 as [-> _]; [|exact B2]. auto.
Qed.
Lemma told_app a b kvs : told (a ++ b) kvs -> exists k1 k2, kvs = k1 ++ k2 /\ told a k1 /\ told b k2.
Proof. intros H. apply Forall2_app_inv_l in H as (k1 & k2 & H1 & H2 & ->). exists k1, k2. auto. Qed.
Lemma told_nil kvs : told [] kvs -> kvs = [].
Proof. intros H. inversion H. reflexivity. Qed.
Lemma told_one d k v kvs : told [d] kvs -> decoded d k v -> kvs = [(k, v)].
Proof.
  intros H D. inversion H as [|x [k' v'] l l' (D' & _) Hn]; subst. inversion Hn; subst.
  destruct (decoded_fun _ _ _ _ _ D D') as [-> ->]. reflexivity.
Qed.
Lemma value_of_app f a b :
  value_of f (a ++ b) = match value_of f a with Some v => Some v | None => value_of f b end.
Proof.
  induction a as [|[k v] a IH]; [reflexivity|]. cbn [app value_of]. destruct (f k); [reflexivity|exact IH].
Qed.
Lemma comes_back_same s s' : Forall survives s -> comes_back s s' -> s' = s.
Proof.
  intros H C. induction C as [|c s s' Hc C IH|c h1 h2 h3 h4 s s' Hc Hu C IH]; [reflexivity| |].
  - inversion H; subst. f_equal. auto.
  - inversion H; subst. contradiction.
Qed.
(** A name without a backslash that starts what comes back started what was given. *)
Lemma comes_back_prefix name : Forall (fun c => c <> x5c) name ->
  forall k rest, comes_back k (name ++ rest) -> exists rest', k = name ++ rest'.
Proof.
  induction 1 as [|x name Hx Hn IH]; intros k rest C; [exists k; reflexivity|].
  inversion C as [|c s s' Hc C' E1 E2|c h1 h2 h3 h4 s s' Hc Hu C' E1 E2]; subst.
  - destruct (IH _ _ C') as (r' & ->). exists r'. reflexivity.
  - exfalso. apply Hx. reflexivity.
Qed.
Lemma claims_unshadowed name cs ds kd : Forall (fun c => c <> x5c) name -> unshadowed name cs ->
  Forall2 claim_back cs ds -> told ds kd -> lookup_prefix name kd = None.
Proof.
  intros Hn Hu HF. revert kd. induction HF as [|c d cs ds Hc HF IH]; intros kd T; [apply told_nil in T as ->; reflexivity|].
  inversion T as [|x [k2 v2] l l' (D & _) T']; subst. unfold lookup_prefix. cbn [value_of].
  destruct Hc as (k & v & k' & v' & Gk & _ & D' & Ck & _). cbn [fst snd] in D.
  destruct (decoded_fun _ _ _ _ _ D D') as [-> ->].
  destruct (prefixb name k') eqn:E.
  - apply prefixb_spec in E as (r & ->). destruct (comes_back_prefix name Hn _ _ Ck) as (r' & ->).
    exfalso. eapply (Hu c _ r'); [left; reflexivity|exact Gk|reflexivity].
  - apply IH; [|exact T']. intros c' k0 r Hi. apply (Hu c'). right. exact Hi.
Qed.
Lemma fixed_told j fs kf : fixed_back j fs -> told fs kf -> kf = fixed_pairs j.
Proof.
  unfold fixed_back. generalize (fixed_pairs j). intros l H. revert kf.
  induction H as [|[k v] d l fs (D & _) H IH]; intros kf T; [apply told_nil in T; exact T|].
  inversion T as [|x [k2 v2] l1 l2 (D' & _) T']; subst. cbn [fst snd] in *.
  destruct (decoded_fun _ _ _ _ _ D D') as [-> ->]. f_equal. apply IH, T'.
Qed.

Definition time_pair (name : bytes) (t : Z) (kvs : list (bytes * bytes)) : Prop :=
  (t = 0%Z /\ kvs = [])
  \/ (t <> 0%Z /\ exists x, kvs = [(name, x)] /\ digits x /\ dec_value x = Z.to_N (t mod 2 ^ 64)).
Definition opt_pair (name : bytes) (q : ptr) (n : N) (kvs : list (bytes * bytes)) : Prop :=
  (q = Null /\ kvs = []) \/ exists v x, given q n v /\ kvs = [(name, x)] /\ comes_back v x.
Lemma time_told name t ds kvs : time_back name t ds -> told ds kvs -> time_pair name t kvs.
Proof.
  intros [(H & ->)|(H & d & x & -> & D & Hd & Hv & _)] T.
  - left. apply told_nil in T. auto.
  - right. split; [exact H|]. exists x. rewrite (told_one _ _ _ _ T D). auto.
Qed.
Lemma opt_told name q n ds kvs : opt_back name q n ds -> told ds kvs -> opt_pair name q n kvs.
Proof.
  intros [(H & ->)|(v & d & G & -> & _ & v' & D & C)] T.
  - left. apply told_nil in T. auto.
  - right. exists v, v'. rewrite (told_one _ _ _ _ T D). auto.
Qed.
Lemma time_other name name' t kvs : time_pair name t kvs -> prefixb name' name = false -> value_of (prefixb name') kvs = None.
Proof. intros [(_ & ->)|(_ & x & -> & _)] H; [reflexivity|]. cbn [value_of]. rewrite H. reflexivity. Qed.
Lemma opt_other name name' q n kvs : opt_pair name q n kvs -> prefixb name' name = false -> value_of (prefixb name') kvs = None.
Proof. intros [(_ & ->)|(v & x & _ & -> & _)] H; [reflexivity|]. cbn [value_of]. rewrite H. reflexivity. Qed.

Lemma registered_told ep rs kr : registered_back ep rs -> told rs kr ->
  (forall c, (issued_time ep c = 0%Z /\ lookup_prefix (time_name c) kr = None)
     \/ (issued_time ep c <> 0%Z /\ exists x, lookup_prefix (time_name c) kr = Some x
           /\ digits x /\ dec_value x = Z.to_N (issued_time ep c mod 2 ^ 64)))
  /\ (forall dp bit name x y yn, In (bit, name, x, (y, yn)) (string_checks dp ep) ->
        (y = Null /\ lookup_prefix name kr = None)
        \/ exists s z, given y yn s /\ lookup_prefix name kr = Some z /\ comes_back s z).
Proof.
  intros (iat & nbf & exp & sub & iss & aud & jti & -> & H1 & H2 & H3 & H4 & H5 & H6 & H7) T.
  apply told_app in T as (k1 & kr1 & -> & T1 & T). apply told_app in T as (k2 & kr2 & -> & T2 & T).
  apply told_app in T as (k3 & kr3 & -> & T3 & T). apply told_app in T as (k4 & kr4 & -> & T4 & T).
  apply told_app in T as (k5 & kr5 & -> & T5 & T). apply told_app in T as (k6 & k7 & -> & T6 & T7).
  pose proof (time_told _ _ _ _ H1 T1) as P1. pose proof (time_told _ _ _ _ H2 T2) as P2. pose proof (time_told _ _ _ _ H3 T3) as P3.
  pose proof (opt_told _ _ _ _ _ H4 T4) as P4. pose proof (opt_told _ _ _ _ _ H5 T5) as P5.
  pose proof (opt_told _ _ _ _ _ H6 T6) as P6. pose proof (opt_told _ _ _ _ _ H7 T7) as P7.
  clear H1 H2 H3 H4 H5 H6 H7 T1 T2 T3 T4 T5 T6 T7. unfold lookup_prefix.
  assert (Sk : forall f (a b : list (bytes * bytes)), value_of f a = None -> value_of f (a ++ b) = value_of f b)
    by (intros f a b E; rewrite value_of_app, E; reflexivity).
  assert (Sp : forall f (a b : list (bytes * bytes)), value_of f b = None -> value_of f (a ++ b) = value_of f a)
    by (intros f a b E; rewrite value_of_app, E; destruct (value_of f a); reflexivity).
  assert (Ln : forall name x, value_of (fun k => prefixb name k) [(name, x)] = Some x).
  { intros name x. cbn [value_of]. rewrite (proj2 (prefixb_spec name name)); [reflexivity|]. exists []. symmetry. apply app_nil_r. }
  Ltac other := first [eapply time_other; [eassumption|reflexivity] | eapply opt_other; [eassumption|reflexivity]].
  split.
  - intros []; cbn [time_name issued_time].
    + rewrite Sk by other. rewrite Sk by other. rewrite value_of_app. do 3 rewrite Sk by other.
      assert (L7 : value_of (fun k => prefixb (lit "exp") k) k7 = None) by other. rewrite L7.
      destruct P3 as [(E & ->)|(E & x & -> & K)]; [left; split; [exact E|reflexivity]|right]. split; [exact E|]. exists x. rewrite Ln. auto.
    + rewrite Sk by other. rewrite value_of_app. do 4 rewrite Sk by other.
      assert (L7 : value_of (fun k => prefixb (lit "nbf") k) k7 = None) by other. rewrite L7.
      destruct P2 as [(E & ->)|(E & x & -> & K)]; [left; split; [exact E|reflexivity]|right]. split; [exact E|]. exists x. rewrite Ln. auto.
    + rewrite value_of_app. do 5 rewrite Sk by other.
      assert (L7 : value_of (fun k => prefixb (lit "iat") k) k7 = None) by other. rewrite L7.
      destruct P1 as [(E & ->)|(E & x & -> & K)]; [left; split; [exact E|reflexivity]|right]. split; [exact E|]. exists x. rewrite Ln. auto.
  - intros dp bit name x y yn [E|[E|[E|[E|[]]]]]; inversion E; subst.
    + do 3 rewrite Sk by other. rewrite value_of_app. do 2 rewrite Sk by other.
      assert (L7 : value_of (fun k => prefixb (lit "sub") k) k7 = None) by other. rewrite L7.
      destruct P4 as [(E1 & ->)|(s & z & G & -> & K)]; [left; split; [exact E1|reflexivity]|right]. exists s, z. rewrite Ln. auto.
    + do 5 rewrite Sk by other. rewrite value_of_app.
      assert (L7 : value_of (fun k => prefixb (lit "aud") k) k7 = None) by other. rewrite L7.
      destruct P6 as [(E1 & ->)|(s & z & G & -> & K)]; [left; split; [exact E1|reflexivity]|right]. exists s, z. rewrite Ln. auto.
    + do 4 rewrite Sk by other. rewrite value_of_app. rewrite Sk by other.
      assert (L7 : value_of (fun k => prefixb (lit "iss") k) k7 = None) by other. rewrite L7.
      destruct P5 as [(E1 & ->)|(s & z & G & -> & K)]; [left; split; [exact E1|reflexivity]|right]. exists s, z. rewrite Ln. auto.
    + do 6 rewrite Sk by other.
      destruct P7 as [(E1 & ->)|(s & z & G & -> & K)]; [left; split; [exact E1|reflexivity]|right]. exists s, z. rewrite Ln. auto.
Qed.

(** ** C51 *)
(** The claims [cs] are what the request [ep], for the algorithm [j], asked to be put into the token (C18). *)
Definition carried (ep : enc_params) (j : jwa) (cs : list claim) : Prop :=
  exists fs hs rs ps, cs = fs ++ hs ++ rs ++ ps /\ fixed_back j fs
    /\ Forall2 claim_back (keyed_claims (ep_header_claims ep) (ep_header_claims_count ep)) hs
    /\ registered_back ep rs
    /\ Forall2 claim_back (keyed_claims (ep_payload_claims ep) (ep_payload_claims_count ep)) ps.
(** What the flags of a decoding that hands out these claims say. *)
Definition string_flags_right (dp : dec_params) (ep : enc_params) (v : N) (others : list claim) : Prop :=
  forall bit name x xn y yn s, In (bit, name, (x, xn), (y, yn)) (string_checks dp ep) -> given x xn s ->
    unshadowed name others ->
    (N.testbit v bit = false -> exists s0, given y yn s0 /\ comes_back s0 s)
    /\ (forall s0, given y yn s0 -> Forall survives s0 -> (N.testbit v bit = false <-> s = s0))
    /\ (y = Null -> N.testbit v bit = true).
Definition time_flags_right (e : env) (dp : dec_params) (ep : enc_params) (v : N) (others : list claim) : Prop :=
  forall c, time_requested dp c = true -> ordinary_time (limit e dp c) ->
    unshadowed (time_name c) others ->
    (N.testbit v (time_bit c) = false <->
     issued_time ep c <> 0%Z /\ ~ out_of_time c (limit e dp c) (issued_time ep c mod 2 ^ 64)).
Definition typ_flag_right (dp : dec_params) (v : N) : Prop :=
  forall b t rest, dp_validate_typ dp = Ptr b (t ++ x00 :: rest) -> no_nul t ->
    (N.testbit v 8 = false <->
     same_nocase (dp_validate_typ_length dp) (lit "JWT") t /\ (0 < dp_validate_typ_length dp)%N).
Lemma carried_flags p' e' dp r' v ep j b cs :
  accepted p' e' dp r' v -> dr_claims r' = Some (CArr b cs, N.of_nat (length cs)) -> carried ep j cs ->
  let others := keyed_claims (ep_header_claims ep) (ep_header_claims_count ep)
                ++ keyed_claims (ep_payload_claims ep) (ep_payload_claims_count ep) in
  string_flags_right dp ep v others /\ time_flags_right e' dp ep v others /\ typ_flag_right dp v.
Proof.
  intros Acc Ec (fs & hs & rs & ps & -> & Bf & Bh & Br & Bp).
  set (hcs := keyed_claims (ep_header_claims ep) (ep_header_claims_count ep)) in *.
  set (pcs := keyed_claims (ep_payload_claims ep) (ep_payload_claims_count ep)) in *.
  assert (Kv : forall kvs, handed_out r' kvs -> exists kh kr kp, kvs = fixed_pairs j ++ kh ++ kr ++ kp
      /\ told hs kh /\ told rs kr /\ told ps kp).
  { intros kvs (b' & cs & E1 & T). rewrite Ec in E1. inversion E1. subst cs. 
    apply told_app in T as (kf & x & -> & Tf & T). apply told_app in T as (kh & x2 & -> & Th & T).
    apply told_app in T as (kr & kp & -> & Tr & Tp). exists kh, kr, kp. rewrite (fixed_told _ _ _ Bf Tf). auto. }
  assert (Lk : forall kvs, handed_out r' kvs -> exists kr, told rs kr
      /\ (forall name, Forall (fun c => c <> x5c) name -> value_of (prefixb name) (fixed_pairs j) = None -> unshadowed name (hcs ++ pcs) ->
            lookup_prefix name kvs = lookup_prefix name kr)
      /\ lookup_prefix (lit "typ") kvs = Some (lit "JWT")).
  { intros kvs Hk'. destruct (Kv _ Hk') as (kh & kr & kp & -> & Th & Tr & Tp). exists kr. split; [exact Tr|].
    split; [|reflexivity]. intros name Hn Hf Hu. unfold lookup_prefix. rewrite value_of_app.
    change (fun k0 => prefixb name k0) with (prefixb name). rewrite Hf.
    assert (Uh : unshadowed name hcs) by (intros c k0 x Hi; apply (Hu c); apply in_app_iff; auto).
    assert (Up : unshadowed name pcs) by (intros c k0 x Hi; apply (Hu c); apply in_app_iff; auto).
    pose proof (claims_unshadowed name hcs hs kh Hn Uh Bh Th) as L1. pose proof (claims_unshadowed name pcs ps kp Hn Up Bp Tp) as L2.
    unfold lookup_prefix in L1, L2. change (fun k0 => prefixb name k0) with (prefixb name) in L1, L2.
    rewrite !value_of_app, L1, L2. destruct (value_of (prefixb name) kr); reflexivity. }
  assert (Fx : forall name, In name [lit "sub"; lit "aud"; lit "iss"; lit "jti"; lit "exp"; lit "nbf"; lit "iat"] ->
      Forall (fun c => c <> x5c) name /\ value_of (prefixb name) (fixed_pairs j) = None).
  { intros name Hn. split.
    - cbn [In] in Hn. decompose [or] Hn; try contradiction; subst; repeat constructor; discriminate.
    - unfold fixed_pairs. cbn [In] in Hn.
      decompose [or] Hn; try contradiction; subst; destruct (j_family j) as [| | |[] | ]; reflexivity. }
  assert (P1 : forall bit name x xn y yn s, In (bit, name, (x, xn), (y, yn)) (string_checks dp ep) -> given x xn s ->
                 unshadowed name (hcs ++ pcs) ->
                 (N.testbit v bit = false -> exists s0, given y yn s0 /\ comes_back s0 s)
                 /\ (forall s0, given y yn s0 -> Forall survives s0 -> (N.testbit v bit = false <-> s = s0))
                 /\ (y = Null -> N.testbit v bit = true)).
  { intros bit name x xn y yn s Hin Gs Hu.
    destruct (C24_identity_claims_partial _ _ _ _ _ Acc) as (kvs & Hk' & G).
    destruct (Lk _ Hk') as (kr & Tr & L & _). destruct (registered_told _ _ _ Br Tr) as [_ Rs].
    assert (Hnm : In name [lit "sub"; lit "aud"; lit "iss"; lit "jti"; lit "exp"; lit "nbf"; lit "iat"]
       /\ In (bit, name, x, xn) (identity_checks dp)).
    { cbn [string_checks In] in Hin. unfold identity_checks.
      decompose [or] Hin; try contradiction; match goal with K : (_, _, _, _) = _ |- _ => inversion K; subst end; cbn [In]; tauto. }
    destruct Hnm as [Hn Hid]. destruct (Fx _ Hn) as [F1 F2]. destruct (G _ _ _ _ _ Hid Gs) as [G1 _].
    rewrite (L _ F1 F2 Hu) in G1.
    destruct (Rs dp bit name (x, xn) y yn Hin) as [(Ey & El)|(s1 & z & Gy & El & C)]; rewrite El in G1.
    + split; [|split].
      * intros Hb. apply G1 in Hb. discriminate.
      * intros s0 G0. subst y. contradiction.
      * intros _. destruct (N.testbit v bit); [reflexivity|]. discriminate (proj1 G1 eq_refl).
    + split; [|split].
      * intros Hb. apply G1 in Hb. inversion Hb; subst z. eauto.
      * intros s0 G0 Hsv. rewrite (given_det _ _ _ _ Gy G0) in *. rewrite (comes_back_same _ _ Hsv C) in *.
        rewrite G1. split; congruence.
      * intros ->. contradiction. }
  assert (P2 : forall c, time_requested dp c = true -> ordinary_time (limit e' dp c) ->
                 unshadowed (time_name c) (hcs ++ pcs) ->
                 (N.testbit v (time_bit c) = false <->
                  issued_time ep c <> 0%Z /\ ~ out_of_time c (limit e' dp c) (issued_time ep c mod 2 ^ 64))).
  { intros c Hq Hl Hu. destruct (time_partial _ _ _ _ _ Acc) as (kvs & Hk' & G). destruct (G c Hq Hl) as [G1 _].
    destruct (Lk _ Hk') as (kr & Tr & L & _). destruct (registered_told _ _ _ Br Tr) as [Rt _].
    destruct (Fx (time_name c)) as [F1 F2]; [destruct c; cbn; tauto|]. rewrite (L _ F1 F2 Hu) in G1.
    destruct (Rt c) as [(E0 & El)|(E0 & x & El & Hd & Hv)]; rewrite El in G1; cbn [time_flag_right] in G1.
    + rewrite G1. split; [discriminate|]. intros [K _]. contradiction.
    + assert (Hx : decimal x (issued_time ep c mod 2 ^ 64)).
      { assert (Ez : (issued_time ep c mod 2 ^ 64)%Z = Z.of_N (dec_value x)).
        { rewrite Hv, Z2N.id; [reflexivity|]. apply Z.mod_pos_bound. reflexivity. }
        rewrite Ez. constructor. exact Hd. }
      specialize (G1 _ Hx). split.
      * intros Hb. split; [exact E0|]. intros Ho'. apply G1 in Ho'. congruence.
      * intros [_ Hno]. destruct (N.testbit v (time_bit c)); [|reflexivity]. exfalso. apply Hno, G1. reflexivity. }
  assert (P3 : forall b t rest, dp_validate_typ dp = Ptr b (t ++ x00 :: rest) -> no_nul t ->
                 (N.testbit v 8 = false <->
                  same_nocase (dp_validate_typ_length dp) (lit "JWT") t /\ (0 < dp_validate_typ_length dp)%N)).
  { intros bt tt rest He Hn. destruct (C27_type_partial _ _ _ _ _ _ _ _ Acc He Hn) as (kvs & Hk' & G & _).
    destruct (Lk _ Hk') as (kr & _ & _ & L). rewrite L in G. rewrite G. split.
    + intros (x & Ex & K1 & K2 & _). inversion Ex; subst. auto.
    + intros [K1 K2]. exists (lit "JWT"). split; [reflexivity|]. split; [exact K1|]. split; [exact K2|left; discriminate]. }
  exact (conj P1 (conj P2 P3)).
Qed.

(** The flags of an issued token, decoded with the matching key (or without a look at the signature):
    - a requested sub, aud, iss or jti check passes exactly if the expected string is the issued one;
    - a requested exp, nbf or iat check passes exactly if the time was issued (is not zero) and is not
      out of time;
    - a requested typ check passes exactly if the expected string is JWT up to case, on the number of
      characters given;
    - the signature flag is clear, and no flag that was not asked for is set;
    - so the result is L8W8JWT_VALID if all that was asked for was issued so;
    provided no additional claim's name starts with the name of the checked claim. *)
Theorem C51_issued_tokens :
  forall p e ep w r w',
    (6 <= p_size_bits p)%N -> wf w -> appended w w' -> allocated w w' ->
    l8w8jwt_encode p e (Some ep) w = Ret r w' -> er_rc r = L8W8JWT_SUCCESS ->
    header_commas_ok ep -> payload_commas_ok ep ->
    let hcs := keyed_claims (ep_header_claims ep) (ep_header_claims_count ep) in
    let pcs := keyed_claims (ep_payload_claims ep) (ep_payload_claims_count ep) in
    raw_values_ok hcs -> raw_values_ok pcs ->
    exists id token ht pt j k,
      er_out r = Some (Ptr (Some id) (token ++ [x00]))
      /\ supported (ep_alg ep) j /\ caller_key (ep_secret_key ep) (ep_secret_key_length ep) k
      /\ (exists s, token = rfc4648_unpadded true ht ++ lit "." ++ rfc4648_unpadded true pt ++ lit "." ++ s)
      /\ forall p' e' dp w1,
         wf w1 -> grows w1 -> allocs w1 -> (32 <= p_size_bits p')%N -> uses_jsmn e' -> checknum_right e' ->
         readable ht hcs -> readable pt pcs ->
         c_text p' dp token -> (Z.of_nat (length token) <= INT_MAX)%Z ->
         key_ok (dp_verification_key dp) (dp_verification_key_length dp) ->
         (dp_alg dp = (-1)%Z \/ dp_alg dp = ep_alg ep /\ right_key p' e e' ep dp j k) ->
         requests_ok p' e' dp ->
         exists r' w2 v, l8w8jwt_decode p' e' (Some dp) true true true w1 = Ret r' w2
           /\ dr_rc r' = L8W8JWT_SUCCESS /\ dr_valid r' = Some v
           /\ (forall bit name x xn y yn s, In (bit, name, (x, xn), (y, yn)) (string_checks dp ep) -> given x xn s ->
                 unshadowed name (hcs ++ pcs) ->
                 (N.testbit v bit = false -> exists s0, given y yn s0 /\ comes_back s0 s)
                 /\ (forall s0, given y yn s0 -> Forall survives s0 -> (N.testbit v bit = false <-> s = s0))
                 /\ (y = Null -> N.testbit v bit = true))
           /\ (forall c, time_requested dp c = true -> ordinary_time (limit e' dp c) ->
                 unshadowed (time_name c) (hcs ++ pcs) ->
                 (N.testbit v (time_bit c) = false <->
                  issued_time ep c <> 0%Z /\ ~ out_of_time c (limit e' dp c) (issued_time ep c mod 2 ^ 64)))
           /\ (forall b t rest, dp_validate_typ dp = Ptr b (t ++ x00 :: rest) -> no_nul t ->
                 (N.testbit v 8 = false <->
                  same_nocase (dp_validate_typ_length dp) (lit "JWT") t /\ (0 < dp_validate_typ_length dp)%N))
           /\ (forall bit, N.testbit v bit = true -> request_for dp bit <> NoRequest)
           /\ (expectations_met e' dp ep (hcs ++ pcs) -> v = L8W8JWT_VALID).
Proof.
  intros p e ep w r w' Hp Hwf Hg Ha H Hrc Hhc Hpc hcs pcs Hhr Hpr.

  destruct (C18_round_trip p e ep w r w' Hp Hwf Hg Ha H Hrc Hhc Hpc Hhr Hpr) as (id & t & ht & pt & j & k & Ho & _ & Hj & Hk & Et & HD).
  exists id, t, ht, pt, j, k. do 4 (split; [assumption|]).
  intros p' e' dp w1 Hwf1 Hg1 Ha1 Hp' Huj Hcn R1 R2 Htx Hln Hko Hky Hrq.
  destruct (HD p' e' dp w1 Hwf1 Hg1 Ha1 Hp' Huj Hcn R1 R2 Htx Hln Hko Hky Hrq)
    as (r' & w2 & v & b & fs & hs & rs & ps & E & Erc & Ev & Eb & _ & Ec & Bf & Bh & Br & Bp).
  exists r', w2, v. do 3 (split; [assumption|]).
  assert (Acc : accepted p' e' dp r' v) by (split; [exact Huj|]; split; [exact Hp'|]; split; [exists w1, w2; auto|auto]).
  destruct (carried_flags p' e' dp r' v ep j b _ Acc Ec) as (P1 & P2 & P3);
    [exists fs, hs, rs, ps; auto|].
  assert (P4 : forall bit, N.testbit v bit = true -> request_for dp bit <> NoRequest).
  { intros bit Hb. destruct (proj1 C28_only_requested_flags p' e' dp true true w1 r' w2 v Hwf1 E Erc Ev) as [K _].
    destruct (K bit Hb) as [K1|(-> & _)]; [exact K1|]. congruence. }
  split; [exact P1|]. split; [exact P2|]. split; [exact P3|]. split; [exact P4|].
  intros (M1 & M2 & M3). apply N.bits_inj_0. intros bit. destruct (N.testbit v bit) eqn:Eb'; [exfalso|reflexivity].
  pose proof (P4 _ Eb') as Rq.
  assert (Str : forall name x xn y yn, In (bit, name, (x, xn), (y, yn)) (string_checks dp ep) -> text_request x xn <> NoRequest -> False).
  { intros name x xn y yn Hin Hx. destruct (M1 _ _ _ _ _ _ Hin) as (Hu & s & G1 & G2 & Hs).
    - intros ->. apply Hx. reflexivity.
    - destruct (P1 _ _ _ _ _ _ _ Hin G1 Hu) as (_ & K & _). pose proof (proj2 (K s G2 Hs) eq_refl). congruence. }
  assert (Tm : forall c, bit = time_bit c -> time_requested dp c = true -> False).
  { intros c Ec' Hq. destruct (M2 c Hq) as (Hu & Ho' & Hr & Ht). pose proof (proj2 (P2 c Hq Ho' Hu)) as K.
    rewrite <- Ec', Eb' in K. assert (F : true = false); [|discriminate F]. apply K. split; [lia|].
    rewrite Z.mod_small; [exact Ht|]. unfold I64_MAX in Hr. lia. }
  unfold request_for in Rq.
  destruct bit as [|[[[[]|[]|]|[[]|[]|]|]|[[[]|[]|]|[[]|[]|]|]|]]; try (apply Rq; reflexivity);
    try (eapply Str; [|exact Rq]; cbn [string_checks In]; tauto).
  all: try (eapply (Tm Exp); [reflexivity|cbn [time_requested]; destruct (dp_validate_exp dp); congruence]).
  all: try (eapply (Tm Nbf); [reflexivity|cbn [time_requested]; destruct (dp_validate_nbf dp); congruence]).
  all: try (eapply (Tm Iat); [reflexivity|cbn [time_requested]; destruct (dp_validate_iat dp); congruence]).
  destruct M3 as [M3|(bt & t0 & rest & M3 & Mn & M4 & M5)]; [rewrite M3 in Rq; apply Rq; reflexivity|].
  pose proof (proj2 (P3 _ _ _ M3 Mn) (conj M4 M5)). congruence.
Qed.
Print Assumptions C51_issued_tokens.

(** ** Examples *)
(** The token of [ep_sample] (sub: Gordon F with a quote, iss: Black Mesa, exp: 2000, iat: 1000) with everything it
    carries asked for; char is signed in [pe]. *)
Definition issued_text : bytes :=
  match l8w8jwt_encode pe toy_num (Some ep_sample) we with
  | Ret r _ => match er_out r with Some (Ptr _ t) => removelast t | _ => [] end | Undef _ => [] end.
Definition issued_params (iss aud : ptr) (tol : N) : dec_params :=
  DecParams (Ptr None (issued_text ++ [x00])) (N.of_nat (length issued_text)) 0
    iss 0 (zstr "Gordon""F") 8 aud 0 Null 0 true false true tol 0 tol (zstr "secret") 6 (zstr "jwt") 3.
Example C51_example :
  let hcs := keyed_claims (ep_header_claims ep_sample) (ep_header_claims_count ep_sample) in
  let pcs := keyed_claims (ep_payload_claims ep_sample) (ep_payload_claims_count ep_sample) in
  let dp := issued_params (zstr "Black Mesa") Null 0 in
  (* the hypotheses of the theorem that C18_example does not show *)
  c_text pe dp issued_text /\ requests_ok pe toy_num dp
  /\ (exists name x xn y yn, In (1%N, name, (x, xn), (y, yn)) (string_checks dp ep_sample) /\ given x xn (lit "Gordon""F")
        /\ given y yn (lit "Gordon""F") /\ unshadowed name (hcs ++ pcs))
  /\ unshadowed (lit "exp") (hcs ++ pcs)
  (* the flags, by computation: all expectations met; another issuer; an audience that was not issued *)
  /\ flags_of 1500 (issued_params (zstr "Black Mesa") Null 0) = Some 0%N
  /\ flags_of 1500 (issued_params (zstr "Aperture") Null 0) = Some 1%N
  /\ flags_of 1500 (issued_params (zstr "Black Mesa") (zstr "me") 0) = Some 4%N
  (* too late, too late within the tolerance, too early *)
  /\ flags_of 2001 (issued_params (zstr "Black Mesa") Null 0) = Some 16%N
  /\ flags_of 2001 (issued_params (zstr "Black Mesa") Null 1) = Some 0%N
  /\ flags_of 998 (issued_params (zstr "Black Mesa") Null 1) = Some 64%N.
Proof.
  cbv zeta.
  assert (U : forall name, In name [lit "sub"; lit "exp"] ->
    unshadowed name (keyed_claims (ep_header_claims ep_sample) (ep_header_claims_count ep_sample)
                     ++ keyed_claims (ep_payload_claims ep_sample) (ep_payload_claims_count ep_sample))).
  { intros name Hn c k rest Hc Hk ->. vm_compute in Hc.
    assert (Hk' : forall m n, c_key c = Ptr None m -> c_key_length c = n ->
      exists x m', m = x ++ m' /\ x = name ++ rest).
    { intros m n E1 E2. rewrite E1, E2 in Hk. cbn [given] in Hk. destruct (n =? 0)%N.
      - destruct Hk as (r & -> & _). eauto.
      - destruct Hk as [_ Hk]. exists (firstn (N.to_nat n) m), (skipn (N.to_nat n) m). rewrite firstn_skipn. auto. }
    decompose [or] Hc; try contradiction; subst c; destruct (Hk' _ _ eq_refl eq_refl) as (x & m' & E1 & E2); rewrite E2 in E1;
      vm_compute in Hn; decompose [or] Hn; try contradiction; subst name; discriminate E1. }
  split; [split; [exists None, []; reflexivity|]; split; [apply no_nul_b; vm_compute; reflexivity|]; split; vm_compute; reflexivity|].
  split.
  { split; [right; exists (lit "Gordon""F"); vm_compute; split; [discriminate|reflexivity]|]. split; [left; reflexivity|].
    split; [right; exists (lit "Black Mesa"); exists []; split; [reflexivity|vm_compute; intuition discriminate]|].
    split; [left; reflexivity|]. split; [vm_compute; repeat split; discriminate|]. right. exists None, (lit "jwt"), [].
    split; [reflexivity|]. split; [apply no_nul_b; reflexivity|]. repeat constructor. }
  split.
  { do 5 eexists. split; [left; reflexivity|]. split; [vm_compute; split; [discriminate|reflexivity]|].
    split; [vm_compute; split; [discriminate|reflexivity]|]. apply U. left. reflexivity. }
  split; [apply U; right; left; reflexivity|].
  repeat split; vm_compute; reflexivity.
Qed.
