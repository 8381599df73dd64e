(** * Properties C24-C28: validation of claims *)
From Verif Require Import Base BaseProofs HeapProofs Util UtilProofs Claim Base64 SpecB64
  Base64EncApi Base64DecProofs Base64Api Jsmn Env Encode Decode SpecJson SpecJwa ClaimProofs UnescapeProofs
  SignProofs PropEncode DecodeProofs DecodeInv PropVerify JsmnProofs ParseProofs PropClaim ReadProofs ValidateProofs.
From Coq Require Import ZifyBool ZifyNat ZifyN.
Ltac Zify.zify_post_hook ::= Z.div_mod_to_equations.
Local Opaque L8W8JWT_MAX_KEY_SIZE.

(** ** Notions *)
(** The claims handed out are the pairs of C strings [kvs], in order. *)
Definition handed_out (r : dec_res) (kvs : list (bytes * bytes)) : Prop :=
  exists b cs, dr_claims r = Some (CArr b cs, N.of_nat (length kvs)) /\ told cs kvs.
(** The value of the first claim named exactly [name]. *)
Definition lookup (name : bytes) (kvs : list (bytes * bytes)) : option bytes :=
  value_of (fun k => bytes_eqb k name) kvs.
(** What the code looks for instead: the first claim whose name starts with [name]. *)
Definition lookup_prefix (name : bytes) (kvs : list (bytes * bytes)) : option bytes :=
  value_of (fun k => prefixb name k) kvs.
(** No claim's name is [name] followed by something. *)
Definition no_extension (name : bytes) (kvs : list (bytes * bytes)) : Prop :=
  forall k v rest, In (k, v) kvs -> k = name ++ rest -> rest = [].

Lemma lookup_exact name kvs : no_extension name kvs -> lookup_prefix name kvs = lookup name kvs.
Proof.
  intros H. unfold lookup_prefix, lookup. induction kvs as [|[k v] kvs IH]; [reflexivity|]. cbn [value_of].
  rewrite IH by (intros k' v' rest Hi; apply (H k' v'); right; exact Hi).
  assert (E : prefixb name k = bytes_eqb k name); [|rewrite E; reflexivity].
  apply eq_iff_eq_true. rewrite bytes_eqb_eq, prefixb_spec. split.
  - intros (rest & E). rewrite (H k v rest) in E; [rewrite app_nil_r in E; exact E|left; reflexivity|exact E].
  - intros ->. exists []. rewrite app_nil_r. reflexivity.
Qed.
Lemma lookup_In name kvs v : lookup name kvs = Some v -> In (name, v) kvs.
Proof.
  unfold lookup. induction kvs as [|[k x] kvs IH]; [discriminate|]. cbn [value_of].
  destruct (bytes_eqb k name) eqn:E.
  - intros H. inversion H; subst. apply bytes_eqb_eq in E. subst. left. reflexivity.
  - intros H. right. auto.
Qed.
Lemma In_lookup name kvs v : In (name, v) kvs -> (forall x, In (name, x) kvs -> x = v) -> lookup name kvs = Some v.
Proof.
  unfold lookup. induction kvs as [|[k x] kvs IH]; intros H U; [destruct H|]. cbn [value_of].
  destruct (bytes_eqb k name) eqn:E.
  - apply bytes_eqb_eq in E. subst. f_equal. apply U. left. reflexivity.
  - destruct H as [H|H]; [inversion H; subst; rewrite (proj2 (bytes_eqb_eq name name) eq_refl) in E; discriminate|].
    apply IH; [exact H|]. intros y Hy. apply U. right. exact Hy.
Qed.

(** A decode call that succeeded, the flags it reported and the claims it handed out. *)
Definition accepted (p : platform) (e : env) (dp : dec_params) (r : dec_res) (v : N) : Prop :=
  uses_jsmn e /\ (32 <= p_size_bits p)%N
  /\ (exists w w', wf w /\ l8w8jwt_decode p e (Some dp) true true true w = Ret r w')
  /\ dr_rc r = L8W8JWT_SUCCESS /\ dr_valid r = Some v.

Lemma accepted_inv p e dp r v : accepted p e dp r v ->
  exists kvs id cs res1, handed_out r kvs /\ told cs kvs /\ (res1 = 0%N \/ res1 = 128%N)
    /\ l8w8jwt_validate_claims p e dp (CArr (Some id) cs) (N.of_nat (length cs)) res1 = OK v.
Proof.
  intros (Hj & Hp & (w & w' & Hwf & H) & Hrc & Hv).
  destruct (decode_reads _ _ _ _ _ _ _ _ Hwf Hj Hp H Hrc)
    as (sg & hb & hm & pb & pm & eh & ep & id & cs & sub & res1 & v' & _ & _ & _ & _ & _ & _ & _ & _ & T & R & V & Hv' & Hc).
  exists (map kv_of sub), id, cs, res1. rewrite Hv in Hv'. inversion Hv'; subst v'. cbn [andb] in Hc.
  split; [exists (Some id), cs; rewrite Hc, (told_len _ _ T); auto|]. auto.
Qed.

(** ** Samples: tokens signed with the toy HMAC under the key "secret" *)
Definition signed (h pl : string) : bytes :=
  let m := rfc4648_unpadded true (lit h) ++ lit "." ++ rfc4648_unpadded true (lit pl) in
  m ++ lit "." ++ rfc4648_unpadded true (fit 32 (lit "secret" ++ m)).
Arguments signed h%string_scope pl%string_scope.
Definition plain_header : string := ("{""alg"":""HS256"",""typ"":""JWT""}")%string.
(** The toy world's decode of such a token; [time]: the clock. *)
Definition toy_at (time : Z) : env := {|
  e_seed_ok := true; e_hmac := e_hmac toy; e_md := e_md toy; e_parse_key := e_parse_key toy;
  e_parse_public_key := e_parse_public_key toy; e_x509_parse := e_x509_parse toy;
  e_can_do := e_can_do toy; e_bitlen := e_bitlen toy; e_pk_sign := e_pk_sign toy;
  e_pk_verify := e_pk_verify toy; e_pk_rsa := e_pk_rsa toy; e_rsa_len := e_rsa_len toy;
  e_pss_sign := e_pss_sign toy; e_pss_verify := e_pss_verify toy; e_pk_ec := e_pk_ec toy;
  e_ecdsa_from_keypair := e_ecdsa_from_keypair toy; e_group := e_group toy;
  e_ecdsa_sign := e_ecdsa_sign toy; e_ecdsa_verify := e_ecdsa_verify toy;
  e_ed_sign := e_ed_sign toy; e_ed_verify := e_ed_verify toy; e_time := time;
  e_checknum := e_checknum toy; e_jsmn := e_jsmn toy; e_tok_junk := e_tok_junk toy |}.
Definition token_params (tok : bytes) (sub : ptr) (exp nbf : bool) (tol : N) (typ : ptr) (typn : N) : dec_params :=
  DecParams (Ptr None (tok ++ [x00])) (N.of_nat (length tok)) 0 Null 0 sub 0 Null 0 Null 0
    exp nbf false tol tol tol (zstr "secret") 6 typ typn.
Definition flags_of (time : Z) (dp : dec_params) : option N :=
  match l8w8jwt_decode pe (toy_at time) (Some dp) true true true we with
  | Ret r _ => if (dr_rc r =? L8W8JWT_SUCCESS)%Z then dr_valid r else None
  | Undef _ => None
  end.
Arguments flags_of time%Z_scope dp.
Arguments token_params tok sub exp nbf tol%N_scope typ typn%N_scope.

(** ** C24 *)
Definition identity_checks (dp : dec_params) : list (N * bytes * ptr * N) :=
  [ (1%N, lit "sub", dp_validate_sub dp, dp_validate_sub_length dp);
    (2%N, lit "aud", dp_validate_aud dp, dp_validate_aud_length dp);
    (0%N, lit "iss", dp_validate_iss dp, dp_validate_iss_length dp);
    (3%N, lit "jti", dp_validate_jti dp, dp_validate_jti_length dp) ].

(** The flag of a requested identity check is clear exactly if the first claim whose name starts
    with the check's name has the expected value; hence, when no claim name extends it, exactly if
    the first claim of that name has the expected value, and when all claims of that name agree,
    exactly if such a claim exists. *)
Theorem C24_identity_claims_partial :
  forall p e dp r v, accepted p e dp r v ->
  exists kvs, handed_out r kvs
  /\ forall bit name q n s, In (bit, name, q, n) (identity_checks dp) -> given q n s ->
     (N.testbit v bit = false <-> lookup_prefix name kvs = Some s)
     /\ (no_extension name kvs ->
         (N.testbit v bit = false <-> lookup name kvs = Some s)
         /\ ((forall x y, In (name, x) kvs -> In (name, y) kvs -> x = y) ->
             (N.testbit v bit = false <-> In (name, s) kvs))).
Proof.
  intros p e dp r v H. destruct (accepted_inv _ _ _ _ _ H) as (kvs & id & cs & res1 & Ho & T & R & V).
  exists kvs. split; [exact Ho|]. intros bit name q n s Hin Hg.
  apply validate_claims_inv in V as (f1 & f2 & f3 & f4 & f5 & f6 & f7 & f8 & -> & V1 & V2 & V3 & V4 & _).
  assert (N1 : no_nul (lit "sub")) by (vm_compute; intuition discriminate).
  assert (N2 : no_nul (lit "aud")) by (vm_compute; intuition discriminate).
  assert (N3 : no_nul (lit "iss")) by (vm_compute; intuition discriminate).
  assert (N4 : no_nul (lit "jti")) by (vm_compute; intuition discriminate).
  assert (Nn : forall q n s, given q n s -> is_null q = false) by (intros [|] ? ?; [contradiction|reflexivity]).
  assert (G : N.testbit (N.lor (N.lor (N.lor (N.lor (N.lor (N.lor (N.lor (N.lor res1 (bitf 2 f1)) (bitf 4 f2)) (bitf 1 f3))
          (bitf 8 f4)) (bitf 16 f5)) (bitf 32 f6)) (bitf 64 f7)) (bitf 256 f8)) bit = false
          <-> lookup_prefix name kvs = Some s).
  { rewrite lor_flags_testbit.
    assert (Rb : forall k, (k <= 3)%N -> N.testbit res1 k = false).
    { intros k Hk. destruct R as [-> | ->]; [apply N.bits_0|].
      change 128%N with (2 ^ 7)%N. rewrite N.pow2_bits_eqb. apply N.eqb_neq. lia. }
    unfold lookup_prefix. destruct Hin as [E|[E|[E|[E|[]]]]]; inversion E; subst; clear E;
      rewrite Rb by lia; cbn [N.eqb Pos.eqb]; rewrite !andb_false_r, !orb_false_r, ?orb_false_l, ?andb_true_r.
    - rewrite (Nn _ _ _ Hg) in V1. apply (string_check_told (Some id) cs kvs "sub"%string _ _ _ _ T N1 eq_refl Hg V1).
    - rewrite (Nn _ _ _ Hg) in V2. apply (string_check_told (Some id) cs kvs "aud"%string _ _ _ _ T N2 eq_refl Hg V2).
    - rewrite (Nn _ _ _ Hg) in V3. apply (string_check_told (Some id) cs kvs "iss"%string _ _ _ _ T N3 eq_refl Hg V3).
    - rewrite (Nn _ _ _ Hg) in V4. apply (string_check_told (Some id) cs kvs "jti"%string _ _ _ _ T N4 eq_refl Hg V4). }
  split; [exact G|]. intros Hx. rewrite (lookup_exact _ _ Hx) in G. split; [exact G|].
  intros Hu. rewrite G. split; [apply lookup_In|]. intros Hi. apply In_lookup; [exact Hi|].
  intros x Hxx. exact (Hu _ _ Hxx Hi).
Qed.
Print Assumptions C24_identity_claims_partial.

(** The tokens of the examples, as the toy world decodes them. *)
Definition sub_params (h pl : string) : dec_params :=
  token_params (signed h pl) (zstr "alice") false false 0 Null 0.
Arguments sub_params (h pl)%string_scope.
Ltac accept time dp :=
  let x := eval vm_compute in (l8w8jwt_decode pe (toy_at time) (Some dp) true true true we) in
  match x with
  | Ret ?r ?w => exists pe, (toy_at time), dp, r; eexists; split;
      [split; [intros js cap; reflexivity|]; split; [vm_compute; discriminate|]; split;
        [exists we, w; split; [apply we_wf|vm_compute; reflexivity]|]; split; reflexivity|]
  end.
(** Reading off the claims of a result. *)
Ltac told_pairs :=
  eexists _, _; split; [reflexivity|];
  repeat first [apply Forall2_nil | apply Forall2_cons];
  (split; [split; [eexists _, _; reflexivity|split; [reflexivity|split; [eexists _, _; reflexivity|reflexivity]]]
          |split; vm_compute; intuition discriminate]).

(** Non-vacuous: an ordinary token is accepted, its flag is clear for the right subject and set for
    another one, and its claims are distinct. *)
Example C24_example :
  exists p e dp r v, accepted p e dp r v
  /\ In (1%N, lit "sub", dp_validate_sub dp, dp_validate_sub_length dp) (identity_checks dp)
  /\ given (dp_validate_sub dp) (dp_validate_sub_length dp) (lit "alice")
  /\ handed_out r [(lit "alg", lit "HS256"); (lit "typ", lit "JWT"); (lit "iss", lit "me"); (lit "sub", lit "alice")]
  /\ N.testbit v 1 = false.
Proof.
  accept 1000%Z (sub_params plain_header "{""iss"":""me"",""sub"":""alice""}").
  split; [left; reflexivity|]. split; [exists []; split; [reflexivity|vm_compute; intuition discriminate]|].
  split; [|reflexivity].
  told_pairs.
Qed.
Example C24_example_other :
  flags_of 1000 (sub_params plain_header "{""iss"":""me"",""sub"":""bob""}") = Some 2%N
  /\ flags_of 1000 (sub_params plain_header "{""iss"":""me""}") = Some 2%N
  /\ flags_of 1000 (sub_params plain_header "{""sub"":""alice2""}") = Some 2%N
  /\ flags_of 1000 (sub_params plain_header "{""sub"":""alic""}") = Some 2%N.
Proof. vm_compute. auto. Qed.

(** The claim as stated is false in both directions: a token without any sub claim passes the sub
    check because of a claim named "subject", and a token whose payload has the expected sub claim
    fails it because of an earlier claim whose name merely starts with sub. *)
Theorem C24_identity_claims_refuted :
  (exists p e dp r v kvs, accepted p e dp r v /\ given (dp_validate_sub dp) (dp_validate_sub_length dp) (lit "alice")
     /\ handed_out r kvs /\ (forall s, ~ In (lit "sub", s) kvs) /\ v = L8W8JWT_VALID)
  /\ (exists p e dp r v kvs, accepted p e dp r v /\ given (dp_validate_sub dp) (dp_validate_sub_length dp) (lit "alice")
     /\ handed_out r kvs /\ In (lit "sub", lit "alice") kvs /\ N.testbit v 1 = true).
Proof.
  split.
  - assert (X : exists p e dp r v, accepted p e dp r v /\
      (given (dp_validate_sub dp) (dp_validate_sub_length dp) (lit "alice")
       /\ handed_out r [(lit "alg", lit "HS256"); (lit "typ", lit "JWT"); (lit "subject", lit "alice")] /\ v = L8W8JWT_VALID)).
    { accept 1000%Z (sub_params plain_header "{""subject"":""alice""}").
      split; [exists []; split; [reflexivity|vm_compute; intuition discriminate]|]. split; [|reflexivity]. told_pairs. }
    destruct X as (p & e & dp & r & v & A & G & H & V). exists p, e, dp, r, v. eexists.
    split; [exact A|]. split; [exact G|]. split; [exact H|]. split; [|exact V].
    intros s. vm_compute. intuition discriminate.
  - assert (X : exists p e dp r v, accepted p e dp r v /\
      (given (dp_validate_sub dp) (dp_validate_sub_length dp) (lit "alice")
       /\ handed_out r [(lit "alg", lit "HS256"); (lit "typ", lit "JWT"); (lit "subs", lit "x"); (lit "sub", lit "alice")]
       /\ N.testbit v 1 = true)).
    { accept 1000%Z (sub_params plain_header "{""subs"":""x"",""sub"":""alice""}").
      split; [exists []; split; [reflexivity|vm_compute; intuition discriminate]|]. split; [|reflexivity]. told_pairs. }
    destruct X as (p & e & dp & r & v & A & G & H & V). exists p, e, dp, r, v. eexists.
    split; [exact A|]. split; [exact G|]. split; [exact H|]. split; [|exact V].
    right. right. right. left. reflexivity.
Qed.
Print Assumptions C24_identity_claims_refuted.

(** ** C25, C26 *)
Inductive time_claim := Exp | Nbf | Iat.
Definition time_name (c : time_claim) : bytes := match c with Exp => lit "exp" | Nbf => lit "nbf" | Iat => lit "iat" end.
(** Bit of the claim's flag (decode.h:46-94). *)
Definition time_bit (c : time_claim) : N := match c with Exp => 4 | Nbf => 5 | Iat => 6 end%N.
Definition time_requested (dp : dec_params) (c : time_claim) : bool :=
  match c with Exp => dp_validate_exp dp | Nbf => dp_validate_nbf dp | Iat => dp_validate_iat dp end.
(** The time the claim is compared with, and the failing comparison (RFC 7519, 4.1.4-4.1.6). *)
Definition limit (e : env) (dp : dec_params) (c : time_claim) : Z :=
  match c with
  | Exp => e_time e - Z.of_N (dp_exp_tolerance dp)
  | Nbf => e_time e + Z.of_N (dp_nbf_tolerance dp)
  | Iat => e_time e + Z.of_N (dp_iat_tolerance dp)
  end%Z.
Definition out_of_time (c : time_claim) (limit z : Z) : Prop :=
  match c with Exp => z < limit | Nbf | Iat => limit < z end%Z.
(** The flag a claim [found] should produce. *)
Definition time_flag_right (e : env) (dp : dec_params) (c : time_claim) (found : option bytes) (flag : bool) : Prop :=
  match found with
  | None => flag = true
  | Some t => forall z, decimal t z -> (flag = true <-> out_of_time c (limit e dp c) z)
  end.
(** The limit is an int64_t other than the two extreme values, to which strtoll saturates. *)
Definition ordinary_time (z : Z) : Prop := (I64_MIN < z < I64_MAX)%Z.

Lemma time_partial : forall p e dp r v, accepted p e dp r v ->
  exists kvs, handed_out r kvs
  /\ forall c, time_requested dp c = true -> ordinary_time (limit e dp c) ->
     time_flag_right e dp c (lookup_prefix (time_name c) kvs) (N.testbit v (time_bit c))
     /\ (no_extension (time_name c) kvs ->
         time_flag_right e dp c (lookup (time_name c) kvs) (N.testbit v (time_bit c))).
Proof.
  intros p e dp r v H. destruct (accepted_inv _ _ _ _ _ H) as (kvs & id & cs & res1 & Ho & T & R & V).
  exists kvs. split; [exact Ho|]. intros c Hreq Hlim.
  apply validate_claims_inv in V as (f1 & f2 & f3 & f4 & f5 & f6 & f7 & f8 & -> & _ & _ & _ & _ & V5 & V6 & V7 & _).
  assert (G : time_flag_right e dp c (lookup_prefix (time_name c) kvs) (N.testbit
    (N.lor (N.lor (N.lor (N.lor (N.lor (N.lor (N.lor (N.lor res1 (bitf 2 f1)) (bitf 4 f2)) (bitf 1 f3))
          (bitf 8 f4)) (bitf 16 f5)) (bitf 32 f6)) (bitf 64 f7)) (bitf 256 f8)) (time_bit c))).
  { rewrite lor_flags_testbit.
    assert (Rb : N.testbit res1 (time_bit c) = false).
    { destruct R as [-> | ->]; [apply N.bits_0|]. destruct c; reflexivity. }
    rewrite Rb. unfold time_flag_right, lookup_prefix, ordinary_time in *.
    destruct c; cbn [time_bit time_name time_requested limit out_of_time N.eqb Pos.eqb] in *; rewrite Hreq in *;
      rewrite !andb_false_r, !orb_false_r, ?orb_false_l, ?andb_true_r.
    - pose proof (time_check_told (Some id) cs kvs "exp"%string _ _ _ T ltac:(vm_compute; intuition discriminate) eq_refl V5) as G.
      cbv beta in G. change (fun k => prefixb (lit "exp") k) with (prefixb (lit "exp")).
      destruct (value_of _ kvs) as [t|]; [|exact G]. intros z Hz. rewrite (proj2 G z Hz), Z.ltb_lt.
      unfold clamp64, I64_MIN, I64_MAX in *. lia.
    - pose proof (time_check_told (Some id) cs kvs "nbf"%string _ _ _ T ltac:(vm_compute; intuition discriminate) eq_refl V6) as G.
      cbv beta in G. change (fun k => prefixb (lit "nbf") k) with (prefixb (lit "nbf")).
      destruct (value_of _ kvs) as [t|]; [|exact G]. intros z Hz. rewrite (proj2 G z Hz), Z.ltb_lt.
      unfold clamp64, I64_MIN, I64_MAX in *. lia.
    - pose proof (time_check_told (Some id) cs kvs "iat"%string _ _ _ T ltac:(vm_compute; intuition discriminate) eq_refl V7) as G.
      cbv beta in G. change (fun k => prefixb (lit "iat") k) with (prefixb (lit "iat")).
      destruct (value_of _ kvs) as [t|]; [|exact G]. intros z Hz. rewrite (proj2 G z Hz), Z.ltb_lt.
      unfold clamp64, I64_MIN, I64_MAX in *. lia. }
  split; [exact G|]. intros Hx. rewrite <- (lookup_exact _ _ Hx). exact G.
Qed.

(** With validate_exp, the EXP flag is set exactly if no claim's name starts with exp, or the first
    such claim is a decimal integer before now - tolerance; with no claim name extending exp, that
    claim is the exp claim. Any number of digits is covered: strtoll saturates. *)
Theorem C25_expiry_partial : forall p e dp r v, accepted p e dp r v ->
  dp_validate_exp dp = true -> ordinary_time (e_time e - Z.of_N (dp_exp_tolerance dp)) ->
  exists kvs, handed_out r kvs
  /\ time_flag_right e dp Exp (lookup_prefix (lit "exp") kvs) (N.testbit v 4)
  /\ (no_extension (lit "exp") kvs ->
      (lookup (lit "exp") kvs = None -> N.testbit v 4 = true)
      /\ forall t z, lookup (lit "exp") kvs = Some t -> decimal t z ->
         (N.testbit v 4 = true <-> (z < e_time e - Z.of_N (dp_exp_tolerance dp))%Z)).
Proof.
  intros p e dp r v H Hq Hl. destruct (time_partial _ _ _ _ _ H) as (kvs & Ho & G).
  exists kvs. split; [exact Ho|]. destruct (G Exp Hq Hl) as [G1 G2]. split; [exact G1|].
  intros Hx. specialize (G2 Hx). unfold time_flag_right in G2. cbn [time_name time_bit out_of_time limit] in G2.
  split; [intros E; rewrite E in G2; exact G2|]. intros t z E Hz. rewrite E in G2. exact (G2 z Hz).
Qed.
Print Assumptions C25_expiry_partial.

Theorem C26_not_before_issued_at_partial : forall p e dp r v, accepted p e dp r v ->
  exists kvs, handed_out r kvs
  /\ forall c, c = Nbf \/ c = Iat -> time_requested dp c = true -> ordinary_time (limit e dp c) ->
     time_flag_right e dp c (lookup_prefix (time_name c) kvs) (N.testbit v (time_bit c))
  /\ (no_extension (time_name c) kvs ->
      (lookup (time_name c) kvs = None -> N.testbit v (time_bit c) = true)
      /\ forall t z, lookup (time_name c) kvs = Some t -> decimal t z ->
         (N.testbit v (time_bit c) = true <-> (limit e dp c < z)%Z)).
Proof.
  intros p e dp r v H. destruct (time_partial _ _ _ _ _ H) as (kvs & Ho & G).
  exists kvs. split; [exact Ho|]. intros c Hc Hq Hl. destruct (G c Hq Hl) as [G1 G2]. split; [exact G1|].
  intros Hx. specialize (G2 Hx). unfold time_flag_right in G2.
  split; [intros E; rewrite E in G2; exact G2|]. intros t z E Hz. rewrite E in G2.
  destruct Hc as [-> | ->]; exact (G2 z Hz).
Qed.
Print Assumptions C26_not_before_issued_at_partial.

Definition time_params (pl : string) (exp nbf : bool) (tol : N) : dec_params :=
  token_params (signed plain_header pl) Null exp nbf tol Null 0.
Arguments time_params pl%string_scope exp nbf tol%N_scope.

(** Non-vacuous: an accepted token with an exp claim; the boundary is where the claim says, on both
    sides of the tolerance. *)
Example C25_example :
  (exists p e dp r v, accepted p e dp r v /\ dp_validate_exp dp = true
    /\ ordinary_time (e_time e - Z.of_N (dp_exp_tolerance dp))
    /\ handed_out r [(lit "alg", lit "HS256"); (lit "typ", lit "JWT"); (lit "exp", lit "990")]
    /\ decimal (lit "990") 990 /\ N.testbit v 4 = false)
  /\ flags_of 1000 (time_params "{""exp"":990}" true false 10) = Some 0%N
  /\ flags_of 1001 (time_params "{""exp"":990}" true false 10) = Some 16%N
  /\ flags_of 1000 (time_params "{""iss"":""me""}" true false 10) = Some 16%N
  /\ flags_of 1000 (time_params "{""exp"":99999999999999999999}" true false 10) = Some 0%N
  /\ flags_of 1000 (time_params "{""exp"":-5}" true false 10) = Some 16%N.
Proof.
  split; [|vm_compute; auto 6].
  accept 1000%Z (time_params "{""exp"":990}" true false 10).
  split; [reflexivity|]. split; [split; reflexivity|]. split; [told_pairs|].
  split; [|reflexivity]. apply (D_pos (lit "990")). split; [discriminate|].
  repeat constructor; vm_compute; tauto.
Qed.
Example C26_example :
  (exists p e dp r v, accepted p e dp r v /\ time_requested dp Nbf = true /\ ordinary_time (limit e dp Nbf)
    /\ handed_out r [(lit "alg", lit "HS256"); (lit "typ", lit "JWT"); (lit "nbf", lit "1011")]
    /\ N.testbit v 5 = true)
  /\ flags_of 1000 (time_params "{""nbf"":1010}" false true 10) = Some 0%N
  /\ flags_of 1000 (time_params "{""nbf"":1011}" false true 10) = Some 32%N
  /\ flags_of 1000 (time_params "{}" false true 10) = Some 32%N.
Proof.
  split; [|vm_compute; auto].
  accept 1000%Z (time_params "{""nbf"":1011}" false true 10).
  split; [reflexivity|]. split; [split; reflexivity|]. split; [told_pairs|reflexivity].
Qed.

(** As stated the claims are false: a token without any exp claim passes because of "expires", and an
    expired one does when the header carries a claim exp2. *)
Theorem C25_expiry_refuted :
  (exists p e dp r v kvs, accepted p e dp r v /\ dp_validate_exp dp = true /\ handed_out r kvs
     /\ lookup (lit "exp") kvs = None /\ v = L8W8JWT_VALID)
  /\ (exists p e dp r v kvs t z, accepted p e dp r v /\ dp_validate_exp dp = true /\ handed_out r kvs
     /\ lookup (lit "exp") kvs = Some t /\ decimal t z /\ (z < e_time e - Z.of_N (dp_exp_tolerance dp))%Z
     /\ v = L8W8JWT_VALID).
Proof.
  split.
  - assert (X : exists p e dp r v, accepted p e dp r v /\ (dp_validate_exp dp = true
      /\ handed_out r [(lit "alg", lit "HS256"); (lit "typ", lit "JWT"); (lit "expires", lit "2000")] /\ v = L8W8JWT_VALID)).
    { accept 1000%Z (time_params "{""expires"":2000}" true false 0).
      split; [reflexivity|]. split; [told_pairs|reflexivity]. }
    destruct X as (p & e & dp & r & v & A & G & H & V). exists p, e, dp, r, v. eexists.
    split; [exact A|]. split; [exact G|]. split; [exact H|]. split; [reflexivity|exact V].
  - assert (X : exists p e dp r v, accepted p e dp r v /\ (dp_validate_exp dp = true
      /\ handed_out r [(lit "exp2", lit "2000"); (lit "exp", lit "500")]
      /\ (500 < e_time e - Z.of_N (dp_exp_tolerance dp))%Z /\ v = L8W8JWT_VALID)).
    { accept 1000%Z (token_params (signed "{""exp2"":2000}" "{""exp"":500}") Null true false 0 Null 0).
      split; [reflexivity|]. split; [told_pairs|]. split; reflexivity. }
    destruct X as (p & e & dp & r & v & A & G & H & L & V). exists p, e, dp, r, v. eexists _, (lit "500"), 500%Z.
    split; [exact A|]. split; [exact G|]. split; [exact H|]. split; [reflexivity|]. split; [|auto].
    apply (D_pos (lit "500")). split; [discriminate|]. repeat constructor; vm_compute; tauto.
Qed.
Print Assumptions C25_expiry_refuted.
Theorem C26_not_before_refuted :
  exists p e dp r v kvs, accepted p e dp r v /\ dp_validate_nbf dp = true /\ handed_out r kvs
     /\ lookup (lit "nbf") kvs = None /\ v = L8W8JWT_VALID.
Proof.
  assert (X : exists p e dp r v, accepted p e dp r v /\ (dp_validate_nbf dp = true
      /\ handed_out r [(lit "alg", lit "HS256"); (lit "typ", lit "JWT"); (lit "nbfoo", lit "1")] /\ v = L8W8JWT_VALID)).
  { accept 1000%Z (time_params "{""nbfoo"":1}" false true 0).
    split; [reflexivity|]. split; [told_pairs|reflexivity]. }
  destruct X as (p & e & dp & r & v & A & G & H & V). exists p, e, dp, r, v. eexists.
  split; [exact A|]. split; [exact G|]. split; [exact H|]. split; [reflexivity|exact V].
Qed.
Print Assumptions C26_not_before_refuted.

(** ** C27 *)
(** Equal up to ASCII case. *)
Definition same_text_nocase (a b : bytes) : Prop := map ascii_lower a = map ascii_lower b.

(** The TYP flag is clear exactly if the claim found (the first whose name starts with typ) agrees with
    the expected string, up to case, on its first validate_typ_length characters. So with a length beyond the expected string's the check
    is exact; with its own length (what callers pass) it is a check of a prefix, and with length 0 the
    flag is always set. *)
Theorem C27_type_partial : forall p e dp r v b exp rest, accepted p e dp r v ->
  dp_validate_typ dp = Ptr b (exp ++ x00 :: rest) -> no_nul exp ->
  exists kvs, handed_out r kvs
  /\ (N.testbit v 8 = false <-> exists t, lookup_prefix (lit "typ") kvs = Some t
        /\ same_nocase (dp_validate_typ_length dp) t exp /\ (0 < dp_validate_typ_length dp)%N /\ (t <> [] \/ exp <> []))
  /\ (no_extension (lit "typ") kvs ->
      let n := dp_validate_typ_length dp in
      (N.testbit v 8 = false <-> exists t, lookup (lit "typ") kvs = Some t /\ same_nocase n t exp
                                    /\ (0 < n)%N /\ (t <> [] \/ exp <> []))
      /\ ((N.of_nat (length exp) < n)%N -> exp <> [] ->
          (N.testbit v 8 = false <-> exists t, lookup (lit "typ") kvs = Some t /\ same_text_nocase t exp))
      /\ (n = N.of_nat (length exp) -> exp <> [] ->
          (N.testbit v 8 = false <-> exists t, lookup (lit "typ") kvs = Some t
             /\ exists t1 t2, t = t1 ++ t2 /\ same_text_nocase t1 exp))
      /\ (n = 0%N -> N.testbit v 8 = true)).
Proof.
  intros p e dp r v b exp rest H He Hn. destruct (accepted_inv _ _ _ _ _ H) as (kvs & id & cs & res1 & Ho & T & R & V).
  exists kvs. split; [exact Ho|]. set (n := dp_validate_typ_length dp).
  apply validate_claims_inv in V as (f1 & f2 & f3 & f4 & f5 & f6 & f7 & f8 & -> & _ & _ & _ & _ & _ & _ & _ & V8).
  assert (Rb : N.testbit res1 8 = false) by (destruct R as [-> | ->]; reflexivity).
  rewrite lor_flags_testbit, Rb. cbn [N.eqb Pos.eqb]. rewrite !andb_false_r, !orb_false_l, andb_true_r.
  rewrite He in V8. cbn [is_null] in V8. fold n in V8. apply (typ_check_told p (Some id) cs kvs b exp rest n f8 T Hn) in V8.
  change (value_of (prefixb (lit "typ")) kvs) with (lookup_prefix (lit "typ") kvs) in V8.
  split; [exact V8|]. intros Hx. cbv zeta.
  rewrite (lookup_exact _ _ Hx) in V8. split; [exact V8|].
  assert (Lm : forall a c : bytes, map ascii_lower a = map ascii_lower c -> length a = length c).
  { intros a c E. apply (f_equal (@length byte)) in E. rewrite !map_length in E. exact E. }
  split; [|split].
  - intros Hl Hne. rewrite V8. unfold same_nocase, same_text_nocase. split.
    + intros (t & E & K & _). exists t. split; [exact E|]. pose proof (Lm _ _ K) as L.
      rewrite (firstn_all2 exp) in K, L by lia. rewrite firstn_length in L.
      rewrite firstn_all2 in K by lia. exact K.
    + intros (t & E & K). exists t. split; [exact E|]. pose proof (Lm _ _ K) as L.
      rewrite !firstn_all2 by lia. split; [exact K|]. split; [lia|auto].
  - intros Hl Hne. rewrite V8. unfold same_nocase, same_text_nocase.
    assert (L0 : length exp <> 0%nat) by (destruct exp; [congruence|discriminate]). split.
    + intros (t & E & K & _). exists t. split; [exact E|]. exists (firstn (N.to_nat n) t), (skipn (N.to_nat n) t).
      rewrite firstn_skipn. split; [reflexivity|]. rewrite (firstn_all2 exp) in K by lia. exact K.
    + intros (t & E & t1 & t2 & -> & K). exists (t1 ++ t2). split; [exact E|]. pose proof (Lm _ _ K) as L.
      rewrite (firstn_all2 exp) by lia. rewrite firstn_app, firstn_all2 by lia.
      replace (N.to_nat n - length t1)%nat with 0%nat by lia. rewrite app_nil_r.
      split; [exact K|]. split; [lia|auto].
  - intros H0. destruct f8; [reflexivity|]. destruct (proj1 V8 eq_refl) as (t & _ & _ & Hz & _). lia.
Qed.
Print Assumptions C27_type_partial.

Definition typ_params (h : string) (typ : ptr) (n : N) : dec_params :=
  token_params (signed h "{}") Null false false 0 typ n.
Arguments typ_params h%string_scope typ n%N_scope.
Example C27_example :
  (exists p e dp r v, accepted p e dp r v /\ dp_validate_typ dp = Ptr None (lit "jwt" ++ [x00])
    /\ handed_out r [(lit "alg", lit "HS256"); (lit "typ", lit "JWT")] /\ N.testbit v 8 = false)
  /\ flags_of 0 (typ_params "{""typ"":""Jwt""}" (zstr "JWT") 3) = Some 0%N
  /\ flags_of 0 (typ_params "{""typ"":""JOSE""}" (zstr "JWT") 3) = Some 256%N
  /\ flags_of 0 (typ_params "{""alg"":""HS256""}" (zstr "JWT") 3) = Some 256%N
  /\ flags_of 0 (typ_params "{""typ"":""JWTX""}" (zstr "JWT") 4) = Some 256%N.
Proof.
  split; [|vm_compute; auto 6].
  accept 1000%Z (typ_params plain_header (zstr "jwt") 4). split; [reflexivity|]. split; [told_pairs|reflexivity].
Qed.
(** As stated the claim is false: with the natural length 3, "JWTX" passes for "JWT"; with length 0,
    "JWT" does not. *)
Theorem C27_type_refuted :
  (exists p e dp r v kvs t, accepted p e dp r v
     /\ dp_validate_typ dp = Ptr None (lit "JWT" ++ [x00]) /\ dp_validate_typ_length dp = 3%N
     /\ handed_out r kvs /\ lookup (lit "typ") kvs = Some t /\ ~ same_text_nocase t (lit "JWT") /\ v = L8W8JWT_VALID)
  /\ (exists p e dp r v kvs, accepted p e dp r v
     /\ dp_validate_typ dp = Ptr None (lit "JWT" ++ [x00])
     /\ handed_out r kvs /\ lookup (lit "typ") kvs = Some (lit "JWT") /\ N.testbit v 8 = true).
Proof.
  split.
  - assert (X : exists p e dp r v, accepted p e dp r v /\ (dp_validate_typ dp = Ptr None (lit "JWT" ++ [x00])
      /\ dp_validate_typ_length dp = 3%N /\ handed_out r [(lit "typ", lit "JWTX")] /\ v = L8W8JWT_VALID)).
    { accept 1000%Z (typ_params "{""typ"":""JWTX""}" (zstr "JWT") 3).
      split; [reflexivity|]. split; [reflexivity|]. split; [told_pairs|reflexivity]. }
    destruct X as (p & e & dp & r & v & A & G1 & G2 & H & V). exists p, e, dp, r, v. eexists _, (lit "JWTX").
    split; [exact A|]. split; [exact G1|]. split; [exact G2|]. split; [exact H|]. split; [reflexivity|].
    split; [vm_compute; discriminate|exact V].
  - assert (X : exists p e dp r v, accepted p e dp r v /\ (dp_validate_typ dp = Ptr None (lit "JWT" ++ [x00])
      /\ handed_out r [(lit "alg", lit "HS256"); (lit "typ", lit "JWT")] /\ N.testbit v 8 = true)).
    { accept 1000%Z (typ_params plain_header (zstr "JWT") 0).
      split; [reflexivity|]. split; [told_pairs|reflexivity]. }
    destruct X as (p & e & dp & r & v & A & G1 & H & V). exists p, e, dp, r, v. eexists.
    split; [exact A|]. split; [exact G1|]. split; [exact H|]. split; [reflexivity|exact V].
Qed.
Print Assumptions C27_type_refuted.

(** ** C28 *)
(** What the caller asks about flag [k]: nothing, a string of a given length (0: its own), or a time
    with a tolerance. *)
Inductive request := NoRequest | Text (q : ptr) (n : N) | Time (tolerance : N).
Definition text_request (q : ptr) (n : N) : request := match q with Null => NoRequest | _ => Text q n end.
Definition request_for (dp : dec_params) (k : N) : request :=
  match k with
  | 0 => text_request (dp_validate_iss dp) (dp_validate_iss_length dp)
  | 1 => text_request (dp_validate_sub dp) (dp_validate_sub_length dp)
  | 2 => text_request (dp_validate_aud dp) (dp_validate_aud_length dp)
  | 3 => text_request (dp_validate_jti dp) (dp_validate_jti_length dp)
  | 4 => if dp_validate_exp dp then Time (dp_exp_tolerance dp) else NoRequest
  | 5 => if dp_validate_nbf dp then Time (dp_nbf_tolerance dp) else NoRequest
  | 6 => if dp_validate_iat dp then Time (dp_iat_tolerance dp) else NoRequest
  | 8 => text_request (dp_validate_typ dp) (dp_validate_typ_length dp)
  | _ => NoRequest
  end%N.
(** The same token, algorithm and key. *)
Definition same_token (a b : dec_params) : Prop :=
  dp_jwt a = dp_jwt b /\ dp_jwt_length a = dp_jwt_length b /\ dp_alg a = dp_alg b
  /\ dp_verification_key a = dp_verification_key b /\ dp_verification_key_length a = dp_verification_key_length b.

Lemma is_null_request q n : is_null q = match text_request q n with NoRequest => true | _ => false end.
Proof. destruct q; reflexivity. Qed.

Lemma validate_flag_requested p e dp cs n res v k :
  l8w8jwt_validate_claims p e dp cs n res = OK v -> N.testbit v k = true ->
  N.testbit res k = true \/ request_for dp k <> NoRequest.
Proof.
  intros V Hk. apply validate_claims_inv in V
    as (f1 & f2 & f3 & f4 & f5 & f6 & f7 & f8 & -> & V1 & V2 & V3 & V4 & V5 & V6 & V7 & V8).
  rewrite lor_flags_testbit in Hk. rewrite !orb_true_iff, !andb_true_iff, !N.eqb_eq in Hk.
  destruct Hk as [[[[[[[[K|[K ->]]|[K ->]]|[K ->]]|[K ->]]|[K ->]]|[K ->]]|[K ->]]|[K ->]]; [left; exact K|..]; right; subst;
    cbn [request_for].
  - destruct (dp_validate_sub dp); [discriminate V1|discriminate].
  - destruct (dp_validate_aud dp); [discriminate V2|discriminate].
  - destruct (dp_validate_iss dp); [discriminate V3|discriminate].
  - destruct (dp_validate_jti dp); [discriminate V4|discriminate].
  - destruct (dp_validate_exp dp); [discriminate|discriminate V5].
  - destruct (dp_validate_nbf dp); [discriminate|discriminate V6].
  - destruct (dp_validate_iat dp); [discriminate|discriminate V7].
  - destruct (dp_validate_typ dp); [discriminate V8|discriminate].
Qed.

Lemma validate_flag_same p e dp dp' cs n res v v' k :
  l8w8jwt_validate_claims p e dp cs n res = OK v -> l8w8jwt_validate_claims p e dp' cs n res = OK v' ->
  request_for dp k = request_for dp' k -> N.testbit v k = N.testbit v' k.
Proof.
  intros V W Hr.
  apply validate_claims_inv in V
    as (f1 & f2 & f3 & f4 & f5 & f6 & f7 & f8 & -> & V1 & V2 & V3 & V4 & V5 & V6 & V7 & V8).
  apply validate_claims_inv in W
    as (g1 & g2 & g3 & g4 & g5 & g6 & g7 & g8 & -> & W1 & W2 & W3 & W4 & W5 & W6 & W7 & W8).
  rewrite !lor_flags_testbit.
  assert (S : forall q n0 q' n' (X : ptr -> N -> U bool) f g, text_request q n0 = text_request q' n' ->
    (if is_null q then f = false else X q n0 = OK f) -> (if is_null q' then g = false else X q' n' = OK g) -> f = g).
  { intros q n0 q' n' X f g E A B. destruct q, q'; cbn in *; try discriminate; [congruence|].
    inversion E; subst. congruence. }
  assert (T : forall (b b' : bool) t t' (X : N -> U bool) f g,
    (if b then Time t else NoRequest) = (if b' then Time t' else NoRequest) ->
    (if b then X t = OK f else f = false) -> (if b' then X t' = OK g else g = false) -> f = g).
  { intros b b' t t' X f g E A B. destruct b, b'; try discriminate; [|congruence]. inversion E; subst. congruence. }
  destruct (N.eqb_spec k 1) as [->|K1]; [cbn [request_for] in Hr; cbn [N.eqb Pos.eqb];
    rewrite (S _ _ _ _ (fun q m => string_check cs n "sub" q m) f1 g1 Hr V1 W1), !andb_false_r; reflexivity|].
  destruct (N.eqb_spec k 2) as [->|K2]; [cbn [request_for] in Hr; cbn [N.eqb Pos.eqb];
    rewrite (S _ _ _ _ (fun q m => string_check cs n "aud" q m) f2 g2 Hr V2 W2), !andb_false_r; reflexivity|].
  destruct (N.eqb_spec k 0) as [->|K0]; [cbn [request_for] in Hr; cbn [N.eqb Pos.eqb];
    rewrite (S _ _ _ _ (fun q m => string_check cs n "iss" q m) f3 g3 Hr V3 W3), !andb_false_r; reflexivity|].
  destruct (N.eqb_spec k 3) as [->|K3]; [cbn [request_for] in Hr; cbn [N.eqb Pos.eqb];
    rewrite (S _ _ _ _ (fun q m => string_check cs n "jti" q m) f4 g4 Hr V4 W4), !andb_false_r; reflexivity|].
  destruct (N.eqb_spec k 4) as [->|K4]; [cbn [request_for] in Hr; cbn [N.eqb Pos.eqb];
    rewrite (T _ _ _ _ (fun m => time_check cs n "exp" (e_time e - Z.of_N m)%Z (fun now v => (v <? now)%Z)) f5 g5 Hr V5 W5),
      !andb_false_r; reflexivity|].
  destruct (N.eqb_spec k 5) as [->|K5]; [cbn [request_for] in Hr; cbn [N.eqb Pos.eqb];
    rewrite (T _ _ _ _ (fun m => time_check cs n "nbf" (e_time e + Z.of_N m)%Z (fun now v => (now <? v)%Z)) f6 g6 Hr V6 W6),
      !andb_false_r; reflexivity|].
  destruct (N.eqb_spec k 6) as [->|K6]; [cbn [request_for] in Hr; cbn [N.eqb Pos.eqb];
    rewrite (T _ _ _ _ (fun m => time_check cs n "iat" (e_time e + Z.of_N m)%Z (fun now v => (now <? v)%Z)) f7 g7 Hr V7 W7),
      !andb_false_r; reflexivity|].
  destruct (N.eqb_spec k 8) as [->|K8]; [cbn [request_for] in Hr; cbn [N.eqb Pos.eqb];
    rewrite (S _ _ _ _ (fun q m => typ_check p cs n q m) f8 g8 Hr V8 W8), !andb_false_r; reflexivity|].
  rewrite !andb_false_r. reflexivity.
Qed.

Lemma same_token_steps p e dp dp' : same_token dp dp' ->
  l8w8jwt_validate_decoding_params p (Some dp) = l8w8jwt_validate_decoding_params p (Some dp')
  /\ l8w8jwt_decode_segments p dp = l8w8jwt_decode_segments p dp'
  /\ forall res q n, l8w8jwt_verify_signature p e dp res q n = l8w8jwt_verify_signature p e dp' res q n.
Proof.
  intros (E1 & E2 & E3 & E4 & E5). destruct dp, dp'. cbn in E1, E2, E3, E4, E5. subst.
  split; [reflexivity|]. split; reflexivity.
Qed.

Lemma decode_body_same p e dp dp' c w st w1 st' w1' : same_token dp dp' ->
  decode_body p e dp c w = Ret st w1 -> decode_body p e dp' c w = Ret st' w1' ->
  w1 = w1' /\ ds_rc st = ds_rc st' /\ ds_segs st = ds_segs st' /\ ds_claims st = ds_claims st'
  /\ (ds_rc st = L8W8JWT_SUCCESS -> forall k, request_for dp k = request_for dp' k ->
      N.testbit (ds_res st) k = N.testbit (ds_res st') k).
Proof.
  intros Hs H H'. destruct (same_token_steps p e dp dp' Hs) as (_ & E1 & E2).
  unfold decode_body in H, H'. rewrite E1 in H.
  minvas H as [r sg] w2 H1. minvas H' as [r' sg'] w2' H1'. rewrite H1 in H1'. inversion H1'; subst r' sg' w2'. clear H1'.
  destruct (negb (r =? L8W8JWT_SUCCESS)%Z); [inversion H; inversion H'; subst; cbn; auto 6|].
  rewrite E2 in H.
  minvas H as [r2 res] w3 H2. minvas H' as [r2' res'] w3' H2'. rewrite H2 in H2'. inversion H2'; subst r2' res' w3'. clear H2'.
  destruct (negb (r2 =? L8W8JWT_SUCCESS)%Z); [inversion H; inversion H'; subst; cbn; auto 6|].
  minvas H as [r3 c1] w4 H3. minvas H' as [r3' c1'] w4' H3'. rewrite H3 in H3'. inversion H3'; subst r3' c1' w4'. clear H3'.
  destruct (negb (r3 =? L8W8JWT_SUCCESS)%Z); [inversion H; inversion H'; subst; cbn; auto 6|].
  minvas H as [r4 c2] w5 H4. minvas H' as [r4' c2'] w5' H4'. rewrite H4 in H4'. inversion H4'; subst r4' c2' w5'. clear H4'.
  destruct (negb (r4 =? L8W8JWT_SUCCESS)%Z); [inversion H; inversion H'; subst; cbn; auto 6|].
  minvas H as x w6 H5. minvas H' as x' w6' H5'. apply lift_inv in H5 as [H5 ->]. apply lift_inv in H5' as [H5' ->].
  inversion H; inversion H'; subst; cbn [ds_rc ds_segs ds_claims ds_res].
  do 4 (split; [reflexivity|]). intros _ k Hk. exact (validate_flag_same _ _ _ _ _ _ _ _ _ _ H5 H5' Hk).
Qed.

(** - Only flags of requested checks, and the signature flag, are ever set.
    - With no request and the signature flag clear the result is L8W8JWT_VALID.
    - Each flag depends only on its own request: two calls on the same token that agree on the request
      for flag [k] report the same flag [k], whatever else they request; they also return the same
      code, hand out the same claims and leave the heap in the same state.
    For l8w8jwt_decode with any output pointers, every world and platform, any tokenizer. *)
Theorem C28_only_requested_flags :
  (forall p e dp cn ln w r w' v, wf w ->
     l8w8jwt_decode p e (Some dp) true cn ln w = Ret r w' -> dr_rc r = L8W8JWT_SUCCESS -> dr_valid r = Some v ->
     (forall k, N.testbit v k = true -> request_for dp k <> NoRequest \/ (k = 7%N /\ dp_alg dp <> (-1)%Z))
     /\ ((forall k, request_for dp k = NoRequest) -> N.testbit v 7 = false -> v = L8W8JWT_VALID))
  /\ (forall p e dp dp' vn cn ln w r w1 r' w1',
     same_token dp dp' ->
     l8w8jwt_decode p e (Some dp) vn cn ln w = Ret r w1 -> l8w8jwt_decode p e (Some dp') vn cn ln w = Ret r' w1' ->
     dr_rc r = dr_rc r' /\ dr_claims r = dr_claims r' /\ w1 = w1'
     /\ forall v v' k, dr_valid r = Some v -> dr_valid r' = Some v' -> request_for dp k = request_for dp' k ->
          N.testbit v k = N.testbit v' k).
Proof.
  split.
  - intros p e dp cn ln w r w' v Hwf H Hrc Hv. apply decode_success in H; [|exact Hrc].
    destruct H as (dp' & st & w1 & E & _ & _ & _ & _ & Hs & Hv' & _). inversion E; subst dp'. clear E.
    destruct Hs as (sg & w2 & res1 & w3 & c1 & w4 & c2 & res2 & H1 & H2 & _ & _ & H5 & ->).
    cbn [ds_res] in Hv'. assert (v = res2) by congruence. subst res2.
    assert (Hwf2 : wf w2).
    { assert (Hwf1 : wf (w_ok w)) by (eapply adds_wf; [apply adds_ok|exact Hwf]).
      destruct (decode_segments_inv _ _ _ _ _ _ Hwf1 H1) as (Hadd & _). eapply adds_wf; eauto. }
    assert (R : forall k, N.testbit res1 k = true -> k = 7%N /\ dp_alg dp <> (-1)%Z).
    { apply verify_signature_inv in H2 as (_ & [(_ & _ & ->)|(b & sig & vd & Ha & _ & _ & _ & Er)]); [|..|exact Hwf2].
      - intros k K. unfold L8W8JWT_VALID in K. rewrite N.bits_0 in K. discriminate.
      - intros k K. split; [|exact Ha]. destruct vd as [x|f]; cbn [verdict_result] in Er.
        + assert (res1 = L8W8JWT_VALID) by congruence. subst. unfold L8W8JWT_VALID in K. rewrite N.bits_0 in K. discriminate.
        + assert (res1 = if f then 128%N else 0%N) by (destruct f; inversion Er; reflexivity). subst.
          destruct f; [|rewrite N.bits_0 in K; discriminate].
          change 128%N with (2 ^ 7)%N in K. rewrite N.pow2_bits_eqb in K. apply N.eqb_eq in K. auto. }
    assert (A : forall k, N.testbit v k = true -> request_for dp k <> NoRequest \/ (k = 7%N /\ dp_alg dp <> (-1)%Z)).
    { intros k Hk. destruct (validate_flag_requested _ _ _ _ _ _ _ _ H5 Hk) as [K|K]; [right; auto|left; exact K]. }
    split; [exact A|]. intros Hn H7. unfold L8W8JWT_VALID. apply N.bits_inj. intros k. rewrite N.bits_0.
    destruct (N.testbit v k) eqn:Ek; [|reflexivity]. exfalso.
    destruct (A k Ek) as [K|[-> _]]; [exact (K (Hn k))|congruence].
  - intros p e dp dp' vn cn ln w r w1 r' w1' Hs H H'. unfold l8w8jwt_decode in H, H'.
    destruct (same_token_steps p e dp dp' Hs) as (E0 & _ & _). rewrite E0 in H.
    destruct (cn && negb ln); [inversion H; inversion H'; subst; cbn; repeat split; discriminate|].
    destruct (negb (l8w8jwt_validate_decoding_params p (Some dp') =? L8W8JWT_SUCCESS)%Z).
    { unfold mret in *. assert (r = r') by congruence. subst r'. assert (w1 = w1') by congruence.
      assert (Er : r = DecRes (l8w8jwt_validate_decoding_params p (Some dp')) None None) by congruence.
      split; [reflexivity|]. split; [reflexivity|]. split; [assumption|]. rewrite Er. cbn. discriminate. }
    destruct (negb vn); [inversion H; inversion H'; subst; cbn; repeat split; discriminate|].
    minvas H as o w2 H1. minvas H' as o' w2' H1'. rewrite H1 in H1'. inversion H1'; subst o' w2'. clear H1'.
    destruct o as [c|].
    2:{ assert (Er : r = r' /\ w1 = w1').
        { rewrite H in H'. inversion H'. auto. }
        destruct Er as [-> ->]. split; [reflexivity|]. split; [reflexivity|]. split; [reflexivity|].
        intros v v' k K K' _. congruence. }
    minvas H as st w3 H2. minvas H' as st' w3' H2'.
    destruct (decode_body_same _ _ _ _ _ _ _ _ _ _ Hs H2 H2') as (-> & Erc & Esg & Ecl & Hbits).
    rewrite Erc, Esg, Ecl in H.
    minvas H as u1 w4 F1. minvas H' as u1' w4' F1'. rewrite F1 in F1'. inversion F1'; subst u1' w4'. clear F1'.
    minvas H as u2 w5 F2. minvas H' as u2' w5' F2'. rewrite F2 in F2'. inversion F2'; subst u2' w5'. clear F2'.
    minvas H as u3 w6 F3. minvas H' as u3' w6' F3'. rewrite F3 in F3'. inversion F3'; subst u3' w6'. clear F3'.
    minvas H as u4 w7 F4. minvas H' as u4' w7' F4'. rewrite F4 in F4'. inversion F4'; subst u4' w7'. clear F4'.
    inversion H; inversion H'; subst. simpl. do 3 (split; [reflexivity|]).
    intros v v' k K K' Hk. rewrite Erc in Hbits. destruct (Z.eqb_spec (ds_rc st') L8W8JWT_SUCCESS) as [E|E].
    + inversion K; inversion K'; subst. exact (Hbits E k Hk).
    + congruence.
Qed.
Print Assumptions C28_only_requested_flags.

(** Non-vacuous: calls on one token with different requests; each flag appears with its request. *)
Example C28_example :
  same_token (time_params "{""exp"":990}" true false 0) (time_params "{""exp"":990}" true true 0)
  /\ flags_of 1000 (time_params "{""exp"":990}" false false 0) = Some 0%N
  /\ flags_of 1000 (time_params "{""exp"":990}" true false 0) = Some 16%N
  /\ flags_of 1000 (time_params "{""exp"":990}" false true 0) = Some 32%N
  /\ flags_of 1000 (time_params "{""exp"":990}" true true 0) = Some 48%N.
Proof. vm_compute. auto 12. Qed.
