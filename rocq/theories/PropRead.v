(** * Property C103: what was checked is what is read *)
From Verif Require Import Base BaseProofs HeapProofs Util UtilProofs Claim Base64 SpecB64
  Base64EncProofs Base64EncApi Base64DecProofs Base64Api Jsmn Env Encode Decode SpecJson SpecJwa ClaimProofs UnescapeProofs
  EncodeProofs SignProofs EncodeTotal SpecEnc JsonProofs PropEncode DecodeProofs DecodeInv JsmnProofs ParseProofs
  PropClaim ReadProofs ValidateProofs JsmnJson JsmnSize PropVerify PropValidate.
From Coq Require Import ZifyBool ZifyNat ZifyN.
Ltac Zify.zify_post_hook ::= Z.div_mod_to_equations.

(** What a client gets that looks up [key] with l8w8jwt_get_claim in the claims handed out: the text of the claim,
    with its length and a NUL after it, or nothing. *)
Definition client_reads (r : dec_res) (key : bytes) (o : option bytes) : Prop :=
  exists cl n, dr_claims r = Some (cl, n)
  /\ forall kb rest, match l8w8jwt_get_claim cl n (Ptr kb (key ++ x00 :: rest)) (N.of_nat (length key)) with
     | OK None => o = None
     | OK (Some c) => exists s b t, o = Some s /\ no_nul s /\ c_value c = Ptr b (s ++ x00 :: t) /\ c_value_length c = N.of_nat (length s)
     | KO _ => False
     end.
Lemma client_reads_fun r key o o' : client_reads r key o -> client_reads r key o' -> o = o'.
Proof.
  intros (cl & n & E & H) (cl' & n' & E' & H'). rewrite E in E'. injection E' as <- <-. specialize (H None []). specialize (H' None []).
  destruct (l8w8jwt_get_claim _ _ _ _) as [[c|]|]; [|congruence|contradiction].
  destruct H as (s & b & t & -> & N & V & L), H' as (s' & b' & t' & -> & N' & V' & L'). rewrite V in V'. injection V' as _ V'.
  f_equal. assert (Hl : length s = length s') by lia. apply (f_equal (firstn (length s))) in V'.
  rewrite firstn_app, Nat.sub_diag, firstn_all, app_nil_r in V'. rewrite Hl, firstn_app, Nat.sub_diag, firstn_all, app_nil_r in V'. exact V'.
Qed.
Lemma first_value f cs kvs : told cs kvs ->
  match first_with f cs (map fst kvs) with
  | None => value_of f kvs = None
  | Some c => exists s b t, value_of f kvs = Some s /\ no_nul s /\ c_value c = Ptr b (s ++ x00 :: t) /\ c_value_length c = N.of_nat (length s)
  end.
Proof.
  intros T. induction T as [|c [k v] cs kvs H T IH]; [reflexivity|]. cbn [map fst first_with value_of].
  destruct (f k); [|exact IH]. destruct H as (((b & t & Hk) & Lk & (b' & t' & Hv) & Lv) & Nk & Nv). exists v, b', t'. auto.
Qed.
(** Every lookup is defined, and finds the first claim whose name starts with the key, header before payload. *)
Theorem C103_reads :
  forall r kvs key, handed_out r kvs -> no_nul key -> key <> [] ->
    client_reads r key (lookup_prefix key kvs).
Proof.
  intros r kvs key (b & cs & E & T) Hn Hne. exists (CArr b cs), (N.of_nat (length kvs)). split; [exact E|]. intros kb rest.
  rewrite <- (told_len _ _ T), (C35_get_claim_prefix_partial b cs (map fst kvs) kb key rest (told_keyed _ _ T) Hn Hne).
  unfold lookup_prefix. exact (first_value (fun k => prefixb key k) cs kvs T).
Qed.
Print Assumptions C103_reads.

(** The flag of an identity check is clear exactly if a client that looks the claim up reads the expected text. *)
Theorem C103_identity_is_read :
  forall p e dp r v bit name q n s, accepted p e dp r v -> In (bit, name, q, n) (identity_checks dp) -> given q n s ->
    (N.testbit v bit = false <-> client_reads r name (Some s)).
Proof.
  intros p e dp r v bit name q n s A Hi G. destruct (C24_identity_claims_partial p e dp r v A) as (kvs & Ho & C).
  destruct (C bit name q n s Hi G) as (B & _).
  assert (Nn : no_nul name /\ name <> []).
  { destruct Hi as [E|[E|[E|[E|[]]]]]; injection E as _ <- _ _; (split; [vm_compute; intuition discriminate|discriminate]). }
  pose proof (C103_reads r kvs name Ho (proj1 Nn) (proj2 Nn)) as R. rewrite B. split; [intros <-; exact R|].
  intros R'. exact (client_reads_fun _ _ _ _ R R').
Qed.
Print Assumptions C103_identity_is_read.

(** The flag of a date is the verdict on the text a client reads; it is set if the client finds none. *)
Theorem C103_time_is_read :
  forall p e dp r v c, accepted p e dp r v -> time_requested dp c = true -> ordinary_time (limit e dp c) ->
    exists o, client_reads r (time_name c) o /\ time_flag_right e dp c o (N.testbit v (time_bit c)).
Proof.
  intros p e dp r v c A Hq Hl. destruct (time_partial p e dp r v A) as (kvs & Ho & G). destruct (G c Hq Hl) as (B & _).
  exists (lookup_prefix (time_name c) kvs). split; [|exact B].
  apply (C103_reads r kvs (time_name c) Ho); destruct c; try discriminate; vm_compute; intuition discriminate.
Qed.
Print Assumptions C103_time_is_read.

(** The same for the type. *)
Theorem C103_type_is_read :
  forall p e dp r v b exp rest, accepted p e dp r v -> dp_validate_typ dp = Ptr b (exp ++ x00 :: rest) -> no_nul exp ->
    (N.testbit v 8 = false <-> exists t, client_reads r (lit "typ") (Some t)
       /\ same_nocase (dp_validate_typ_length dp) t exp /\ (0 < dp_validate_typ_length dp)%N /\ (t <> [] \/ exp <> [])).
Proof.
  intros p e dp r v b exp rest A Ht Hn. destruct (C27_type_partial p e dp r v b exp rest A Ht Hn) as (kvs & Ho & B & _).
  assert (R : client_reads r (lit "typ") (lookup_prefix (lit "typ") kvs)).
  { apply (C103_reads r kvs (lit "typ") Ho); [vm_compute; intuition discriminate|discriminate]. }
  rewrite B. split; intros (t & L & K); exists t; (split; [|exact K]); [rewrite <- L; exact R|exact (client_reads_fun _ _ _ _ R L)].
Qed.
Print Assumptions C103_type_is_read.

(** It need not be a claim of the payload: a header parameter is checked and read in its place. *)
Definition sub_header : string := ("{""alg"":""HS256"",""typ"":""JWT"",""sub"":""alice""}")%string.
Theorem C103_payload_refuted :
  exists r, accepted pe (toy_at 1000) (sub_params sub_header "{""sub"":""mallory""}") r L8W8JWT_VALID
    /\ client_reads r (lit "sub") (Some (lit "alice")).
Proof.
  assert (X : exists p e dp r v, accepted p e dp r v /\ (p = pe /\ e = toy_at 1000 /\ dp = sub_params sub_header "{""sub"":""mallory""}" /\ v = L8W8JWT_VALID
      /\ handed_out r [(lit "alg", lit "HS256"); (lit "typ", lit "JWT"); (lit "sub", lit "alice"); (lit "sub", lit "mallory")])).
  { accept 1000%Z (sub_params sub_header "{""sub"":""mallory""}"). do 4 (split; [reflexivity|]). told_pairs. }
  destruct X as (p & e & dp & r & v & A & -> & -> & -> & -> & H). exists r. split; [exact A|].
  refine (C103_reads _ _ (lit "sub") H _ _); [vm_compute; intuition discriminate|discriminate].
Qed.
Print Assumptions C103_payload_refuted.

(** An ordinary token: the subject checked is read, another key is not found. *)
Example C103_example :
  exists p e dp r v, accepted p e dp r v
  /\ (In (1%N, lit "sub", dp_validate_sub dp, dp_validate_sub_length dp) (identity_checks dp)
      /\ given (dp_validate_sub dp) (dp_validate_sub_length dp) (lit "alice") /\ N.testbit v 1 = false
      /\ handed_out r [(lit "alg", lit "HS256"); (lit "typ", lit "JWT"); (lit "iss", lit "me"); (lit "sub", lit "alice")]).
Proof.
  accept 1000%Z (sub_params plain_header "{""iss"":""me"",""sub"":""alice""}").
  split; [left; reflexivity|]. split; [exists []; split; [reflexivity|vm_compute; intuition discriminate]|].
  split; [reflexivity|]. told_pairs.
Qed.
