(** * A complete specification of encoding, and lemmas *)
From Verif Require Import Base BaseProofs HeapProofs Util UtilProofs Claim Base64 SpecB64
  Base64EncProofs Base64EncApi Base64DecProofs Base64Api Jsmn Env Encode Decode SpecJson SpecJwa ClaimProofs UnescapeProofs
  EncodeProofs SignProofs EncodeTotal SpecEnc JsonProofs PropEncode DecodeProofs DecodeInv JsmnProofs ParseProofs
  PropClaim ReadProofs ValidateProofs JsmnJson JsmnSize PropVerify PropValidate PropLeak PropJson DecodeTotal DecodeOk
  OverRead PropSafe PropRoundTrip CodeProofs EncCodeProofs Walk Exact PropExact Complete.
From Coq Require Import ZifyBool ZifyNat ZifyN.
Ltac Zify.zify_post_hook ::= Z.div_mod_to_equations.
Local Opaque L8W8JWT_MAX_KEY_SIZE.

(** What a step of encoding comes to: some bytes, an error code, or undefined behaviour. *)
Inductive product := Made (t : bytes) | Fails (rc : Z) | Breaks (u : ub).
(** One step, and with the bytes it makes another one. *)
Inductive andthen (A : product -> Prop) (B : bytes -> product -> Prop) : product -> Prop :=
| At_stop o : A o -> (forall t, o <> Made t) -> andthen A B o
| At_go t o : A (Made t) -> B t o -> andthen A B o.
Definition only (A : product -> Prop) : Prop := forall o o', A o -> A o' -> o = o'.
Lemma andthen_only A B : only A -> (forall t, only (B t)) -> only (andthen A B).
Proof.
  intros HA HB o o' [o1 H1 N1|t o1 H1 H2] [o1' H1' N1'|t' o1' H1' H2'].
  - apply HA; auto.
  - destruct (N1 t'). apply HA; auto.
  - destruct (N1' t). apply HA; auto.
  - assert (E : Made t = Made t') by (apply HA; auto). injection E as ->. eapply HB; eauto.
Qed.

(** ** Strings and numbers *)
(** How a character is written within a JSON string: the quote, the backslash, the slash and the control
    characters (with DEL) escaped, the latter by letter if there is one, else by number. *)
Definition hex_char (n : N) : byte := if (n <? 10)%N then n2b (48 + n) else n2b (87 + n).
Definition spelled (c : byte) : bytes :=
  match b2n c with
  | 34 => lit "\""" | 92 => lit "\\" | 47 => lit "\/" | 8 => lit "\b" | 9 => lit "\t" | 10 => lit "\n" | 12 => lit "\f" | 13 => lit "\r"
  | n => if (n <? 32)%N || (n =? 127)%N then lit "\u00" ++ [hex_char (n / 16); hex_char (n mod 16)] else [c]
  end%N.
Definition spelling (s : bytes) : bytes := flat_map spelled s.
Lemma spelling_escape s : spelling s = escape s.
Proof.
  assert (H : forall c, bytes_eqb (spelled c) (esc c) = true).
  { apply (sweep1 (fun c => bytes_eqb (spelled c) (esc c))). vm_compute. reflexivity. }
  unfold spelling, escape. induction s as [|c s IH]; [reflexivity|]. cbn [flat_map]. rewrite IH. f_equal. apply bytes_eqb_eq, H.
Qed.
(** Decimal digits without leading zeros. *)
Definition decimal (n : N) (d : bytes) : Prop :=
  d <> [] /\ Forall digit d /\ (forall r, d = x30 :: r -> r = []) /\ dec_value d = n.

(** ** Claims *)
(** The text of a member for a claim, and when writing it goes wrong: a character with the sign bit, where char
    is signed, is taken for a negative index. *)
Definition claim_text (c : claim) (t : bytes) : Prop :=
  exists k v, given (c_key c) (c_key_length c) k /\ given (c_value c) (c_value_length c) v
    /\ t = quoted (spelling k) ++ lit ":" ++ (if (c_type c =? 0)%Z then quoted (spelling v) else v).
Definition foreign (p : platform) (s : bytes) : Prop := p_char_signed p = true /\ exists x, In x s /\ (128 <= b2n x)%N.
Definition foreign_claim (p : platform) (c : claim) : Prop :=
  (exists k, given (c_key c) (c_key_length c) k /\ foreign p k)
  \/ (c_type c = 0%Z /\ exists v, given (c_value c) (c_value_length c) v /\ foreign p v).
Inductive members (p : platform) (cs : list claim) : product -> Prop :=
| M_text ts : Forall (fun c => ~ foreign_claim p c) cs -> Forall2 claim_text cs ts -> members p cs (Made (join ts))
| M_foreign : Exists (foreign_claim p) cs -> members p cs (Breaks BadIndex).

(** ** Header and payload *)
Definition plain_member (m : member) : bytes := quoted (m_key m) ++ lit ":" ++ m_value m.
Definition header (p : platform) (ep : enc_params) (j : jwa) : product -> Prop :=
  let first := join (map plain_member (fixed_members j)) in
  if (ep_header_claims_count ep =? 0)%N then eq (Made (lit "{" ++ first ++ lit "}"))
  else andthen (members p (keyed_claims (ep_header_claims ep) (ep_header_claims_count ep)))
         (fun t => eq (Made (lit "{" ++ first ++ lit "," ++ t ++ lit "}"))).
(** The registered claims. *)
Inductive timed (name : bytes) (t : Z) : list bytes -> Prop :=
| T_none : t = 0%Z -> timed name t []
| T_some d : t <> 0%Z -> decimal (Z.to_N (t mod 2 ^ 64)) d -> timed name t [quoted name ++ lit ":" ++ d].
Inductive stringed (name : bytes) (q : ptr) (n : N) : list bytes -> Prop :=
| S_none : q = Null -> stringed name q n []
| S_some v : given q n v -> stringed name q n [quoted name ++ lit ":" ++ quoted (spelling v)].
Definition foreign_string (p : platform) (q : ptr) (n : N) : Prop := exists v, given q n v /\ foreign p v.
Definition foreign_registered (p : platform) (ep : enc_params) : Prop :=
  foreign_string p (ep_sub ep) (ep_sub_length ep) \/ foreign_string p (ep_iss ep) (ep_iss_length ep)
  \/ foreign_string p (ep_aud ep) (ep_aud_length ep) \/ foreign_string p (ep_jti ep) (ep_jti_length ep).
Inductive registered (p : platform) (ep : enc_params) : product -> Prop :=
| R_text iat nbf exp sub iss aud jti : ~ foreign_registered p ep ->
    timed (lit "iat") (ep_iat ep) iat -> timed (lit "nbf") (ep_nbf ep) nbf -> timed (lit "exp") (ep_exp ep) exp ->
    stringed (lit "sub") (ep_sub ep) (ep_sub_length ep) sub -> stringed (lit "iss") (ep_iss ep) (ep_iss_length ep) iss ->
    stringed (lit "aud") (ep_aud ep) (ep_aud_length ep) aud -> stringed (lit "jti") (ep_jti ep) (ep_jti_length ep) jti ->
    registered p ep (Made (join (iat ++ nbf ++ exp ++ sub ++ iss ++ aud ++ jti)))
| R_foreign : foreign_registered p ep -> registered p ep (Breaks BadIndex).
(** The separator between these and the additional claims is written if a time or a length is not zero. *)
Inductive separator (ep : enc_params) : bytes -> Prop :=
| Sep_comma : some_time ep \/ some_length ep -> separator ep (lit ",")
| Sep_none : ~ (some_time ep \/ some_length ep) -> separator ep [].
Definition payload (p : platform) (ep : enc_params) : product -> Prop :=
  andthen (registered p ep) (fun r =>
    if (ep_payload_claims_count ep =? 0)%N then eq (Made (lit "{" ++ r ++ lit "}"))
    else andthen (members p (keyed_claims (ep_payload_claims ep) (ep_payload_claims_count ep)))
           (fun t o => exists sep, separator ep sep /\ o = Made (lit "{" ++ r ++ sep ++ t ++ lit "}"))).
(** base64url; the sizes are computed in size_t, the characters counted in an int. *)
Inductive based (p : platform) (t : bytes) : product -> Prop :=
| B_size : (2 ^ p_size_bits p <= 4 * N.of_nat (length t))%N -> based p t (Fails 310)
| B_int : (4 * N.of_nat (length t) < 2 ^ p_size_bits p)%N -> (INT_MAX < 4 * ((Z.of_nat (length t) + 2) / 3))%Z -> based p t (Breaks SignedOverflow)
| B_text : (4 * N.of_nat (length t) < 2 ^ p_size_bits p)%N -> (4 * ((Z.of_nat (length t) + 2) / 3) <= INT_MAX)%Z ->
    based p t (Made (rfc4648_unpadded true t)).
Definition to_be_signed (p : platform) (ep : enc_params) (j : jwa) : product -> Prop :=
  andthen (header p ep j) (fun ht => andthen (based p ht) (fun h =>
  andthen (payload p ep) (fun pt => andthen (based p pt) (fun pl => eq (Made (h ++ lit "." ++ pl)))))).

(** ** Signatures *)
Definition digest_of (e : env) (j : jwa) (msg : bytes) : option bytes :=
  match e_md e (j_hash j) msg with Some d => Some (fit (md_size (j_hash j)) d) | None => None end.
Definition rsa_ok (e : env) (key : pk) : Prop :=
  (e_can_do e key PK_RSA = true \/ e_can_do e key PK_RSA_ALT = true) /\ (2048 <= e_bitlen e key)%N.
Definition pss_ok (e : env) (key : pk) : Prop := e_can_do e key PK_RSASSA_PSS = true /\ (2048 <= e_bitlen e key)%N.
Inductive rs_signing (e : env) (j : jwa) (key : pk) (msg : bytes) : product -> Prop :=
| RS_kind : ~ rsa_ok e key -> rs_signing e j key msg (Fails 450)
| RS_digest : rsa_ok e key -> digest_of e j msg = None -> rs_signing e j key msg (Fails 410)
| RS_fail d : rsa_ok e key -> digest_of e j msg = Some d -> e_pk_sign e key (j_hash j) d = None \/ e_pk_sign e key (j_hash j) d = Some [] ->
    rs_signing e j key msg (Fails 400)
| RS_sign d s : rsa_ok e key -> digest_of e j msg = Some d -> e_pk_sign e key (j_hash j) d = Some s -> s <> [] ->
    rs_signing e j key msg (Made (firstn (N.to_nat 4096) s)).
(** RSASSA-PSS: the signature buffer has 4096 bytes; as many bytes are taken as the key has bits by 8. *)
Inductive ps_signing (p : platform) (e : env) (j : jwa) (key : pk) (msg : bytes) : product -> Prop :=
| PS_kind : ~ pss_ok e key -> ps_signing p e j key msg (Fails 450)
| PS_digest : pss_ok e key -> digest_of e j msg = None -> ps_signing p e j key msg (Fails 410)
| PS_not_rsa d : pss_ok e key -> digest_of e j msg = Some d -> e_pk_rsa e key = false -> ps_signing p e j key msg (Breaks NullDeref)
| PS_wide d : pss_ok e key -> digest_of e j msg = Some d -> e_pk_rsa e key = true -> (4096 < e_rsa_len e key)%N ->
    ps_signing p e j key msg (Breaks OOBWrite)
| PS_fail d : pss_ok e key -> digest_of e j msg = Some d -> e_pk_rsa e key = true -> (e_rsa_len e key <= 4096)%N ->
    e_pss_sign e key (j_hash j) d = None -> ps_signing p e j key msg (Fails 400)
| PS_size d s : pss_ok e key -> digest_of e j msg = Some d -> e_pk_rsa e key = true -> (e_rsa_len e key <= 4096)%N ->
    e_pss_sign e key (j_hash j) d = Some s -> (2 ^ p_size_bits p <= 4 * (e_bitlen e key / 8))%N -> ps_signing p e j key msg (Fails 425)
| PS_over d s : pss_ok e key -> digest_of e j msg = Some d -> e_pk_rsa e key = true -> (e_rsa_len e key <= 4096)%N ->
    e_pss_sign e key (j_hash j) d = Some s -> (4 * (e_bitlen e key / 8) < 2 ^ p_size_bits p)%N -> (4096 < e_bitlen e key / 8)%N ->
    ps_signing p e j key msg (Breaks OOBRead)
| PS_sign d s : pss_ok e key -> digest_of e j msg = Some d -> e_pk_rsa e key = true -> (e_rsa_len e key <= 4096)%N ->
    e_pss_sign e key (j_hash j) d = Some s -> (4 * (e_bitlen e key / 8) < 2 ^ p_size_bits p)%N -> (e_bitlen e key / 8 <= 4096)%N ->
    ps_signing p e j key msg (Made (fit (e_bitlen e key / 8) (fit (e_rsa_len e key) s))).
(** ECDSA: r and s in big-endian order, [width] bytes each. *)
Inductive es_signing (e : env) (j : jwa) (curve : ecp_group) (bits : N) (width : nat) (key : pk) (msg : bytes) : product -> Prop :=
| ES_kind : e_can_do e key PK_ECDSA = false -> es_signing e j curve bits width key msg (Fails 450)
| ES_not_ec : e_can_do e key PK_ECDSA = true -> e_pk_ec e key = false -> es_signing e j curve bits width key msg (Breaks NullDeref)
| ES_pair : e_can_do e key PK_ECDSA = true -> e_pk_ec e key = true -> e_ecdsa_from_keypair e key = false ->
    es_signing e j curve bits width key msg (Fails 420)
| ES_digest : e_can_do e key PK_ECDSA = true -> e_pk_ec e key = true -> e_ecdsa_from_keypair e key = true -> digest_of e j msg = None ->
    es_signing e j curve bits width key msg (Fails 410)
| ES_curve d : e_can_do e key PK_ECDSA = true -> e_pk_ec e key = true -> e_ecdsa_from_keypair e key = true -> digest_of e j msg = Some d ->
    e_group e key <> curve \/ e_bitlen e key <> bits -> es_signing e j curve bits width key msg (Fails 450)
| ES_fail d : e_can_do e key PK_ECDSA = true -> e_pk_ec e key = true -> e_ecdsa_from_keypair e key = true -> digest_of e j msg = Some d ->
    e_group e key = curve -> e_bitlen e key = bits -> e_ecdsa_sign e key d = None -> es_signing e j curve bits width key msg (Fails 400)
| ES_big d r s : e_can_do e key PK_ECDSA = true -> e_pk_ec e key = true -> e_ecdsa_from_keypair e key = true -> digest_of e j msg = Some d ->
    e_group e key = curve -> e_bitlen e key = bits -> e_ecdsa_sign e key d = Some (r, s) ->
    (256 ^ N.of_nat width <= r \/ 256 ^ N.of_nat width <= s)%N -> es_signing e j curve bits width key msg (Fails 400)
| ES_sign d r s br bs : e_can_do e key PK_ECDSA = true -> e_pk_ec e key = true -> e_ecdsa_from_keypair e key = true -> digest_of e j msg = Some d ->
    e_group e key = curve -> e_bitlen e key = bits -> e_ecdsa_sign e key d = Some (r, s) ->
    length br = width -> big_endian br = r -> length bs = width -> big_endian bs = s -> es_signing e j curve bits width key msg (Made (br ++ bs)).
(** A private key is given as text, which with its NUL must fit into 8192 bytes. *)
Inductive keyed (e : env) (k : bytes) (pw : ptr) (pwl : N) (use : pk -> product -> Prop) : product -> Prop :=
| K_over : (8192 < N.of_nat (length (pem_text k)))%N -> keyed e k pw pwl use (Breaks OOBRead)
| K_parse : (N.of_nat (length (pem_text k)) <= 8192)%N -> e_parse_key e (pem_text k) pw pwl = None -> keyed e k pw pwl use (Fails 420)
| K_key key o : (N.of_nat (length (pem_text k)) <= 8192)%N -> e_parse_key e (pem_text k) pw pwl = Some key -> use key o -> keyed e k pw pwl use o.
Inductive hs_signing (e : env) (j : jwa) (k msg : bytes) : product -> Prop :=
| HS_fail : e_hmac e (j_hash j) (hmac_key k) msg = None -> hs_signing e j k msg (Fails 400)
| HS_sign m : e_hmac e (j_hash j) (hmac_key k) msg = Some m -> hs_signing e j k msg (Made (fit (md_size (j_hash j)) m)).
Inductive ed_signing (p : platform) (e : env) (k msg : bytes) : product -> Prop :=
| ED_unbuilt : p_eddsa p = false -> ed_signing p e k msg (Fails 800)
| ED_key : p_eddsa p = true -> length (hmac_key k) <> 128%nat -> ed_signing p e k msg (Fails 450)
| ED_sign : p_eddsa p = true -> length (hmac_key k) = 128%nat ->
    ed_signing p e k msg (Made (fit 64 (e_ed_sign e msg (loose_unhex p (hmac_key k))))).
Definition signing (p : platform) (e : env) (j : jwa) (k : bytes) (pw : ptr) (pwl : N) (msg : bytes) : product -> Prop :=
  match j_family j with
  | HS => hs_signing e j k msg
  | RS => keyed e k pw pwl (fun key => rs_signing e j key msg)
  | PS => keyed e k pw pwl (fun key => ps_signing p e j key msg)
  | ES curve bits width => keyed e k pw pwl (fun key => es_signing e j curve bits width key msg)
  | ED => ed_signing p e k msg
  end.

(** ** Encoding *)
Definition null_args (ep : enc_params) : Prop := ep_secret_key ep = Null \/ ep_out_nn ep = false \/ ep_out_length_nn ep = false.
Definition bad_args (ep : enc_params) : Prop :=
  ep_secret_key_length ep = 0%N \/ (8192 < ep_secret_key_length ep)%N
  \/ (ep_payload_claims ep <> CNull /\ ep_payload_claims_count ep = 0%N) \/ (ep_header_claims ep <> CNull /\ ep_header_claims_count ep = 0%N).
Definition seeded (e : env) (msg : bytes) (o : product) : Prop := o = if e_seed_ok e then Made msg else Fails 500.
Inductive encoding (p : platform) (e : env) (ep : enc_params) : product -> Prop :=
| En_null : null_args ep -> encoding p e ep (Fails 100)
| En_bad : ~ null_args ep -> bad_args ep -> encoding p e ep (Fails 200)
| En_alg : ~ null_args ep -> ~ bad_args ep -> (forall j, ~ supported (ep_alg ep) j) -> encoding p e ep (Fails 200)
| En_go j k o : ~ null_args ep -> ~ bad_args ep -> supported (ep_alg ep) j ->
    caller_key (ep_secret_key ep) (ep_secret_key_length ep) k ->
    andthen (to_be_signed p ep j) (fun msg => andthen (seeded e msg)
      (fun _ => andthen (signing p e j k (ep_secret_key_pw ep) (ep_secret_key_pw_length ep) msg)
        (fun sig => eq (Made (msg ++ lit "." ++ rfc4648_unpadded true sig))))) o ->
    encoding p e ep o.

(** What is handed in can be read. *)
Definition claim_given (c : claim) : Prop :=
  c_key c = Null \/ exists k v, given (c_key c) (c_key_length c) k /\ given (c_value c) (c_value_length c) v.
Definition claims_given (c : cptr) (n : N) : Prop :=
  match c with CNull => True | CArr _ cs => (n <= N.of_nat (length cs))%N /\ Forall claim_given (firstn (N.to_nat n) cs) end.
Definition string_given (q : ptr) (n : N) : Prop := q = Null \/ exists s, given q n s.
Definition enc_given (ep : enc_params) : Prop :=
  claims_given (ep_header_claims ep) (ep_header_claims_count ep) /\ claims_given (ep_payload_claims ep) (ep_payload_claims_count ep)
  /\ string_given (ep_sub ep) (ep_sub_length ep) /\ string_given (ep_iss ep) (ep_iss_length ep)
  /\ string_given (ep_aud ep) (ep_aud_length ep) /\ string_given (ep_jti ep) (ep_jti_length ep)
  /\ (ep_secret_key ep = Null \/ exists k, caller_key (ep_secret_key ep) (ep_secret_key_length ep) k).

(** ** The relations are functions *)
Lemma dec_pos c s : digit c -> c <> x30 -> (0 < dec_value (c :: s))%N.
Proof.
  intros D Nc. apply EncodeProofs.digit_facts in D as (_ & D & _).
  assert (Hc : (0 < b2n c - 48)%N).
  { destruct (N.eq_dec (b2n c) 48) as [E|E]; [|lia]. destruct Nc. apply b2n_inj. rewrite E. reflexivity. }
  change (c :: s) with ([c] ++ s). rewrite dec_value_app.
  assert (G : forall s v, (0 < v)%N -> (0 < fold_left (fun v c => (10 * v + (b2n c - 48))%N) s v)%N).
  { clear. induction s as [|c s IH]; intros v Hv; [exact Hv|]. cbn [fold_left]. apply IH. lia. }
  apply G. unfold dec_value. cbn [fold_left]. lia.
Qed.
Definition no_zero (d : bytes) : Prop := Forall digit d /\ forall r, d <> x30 :: r.
Lemma no_zero_pos d : no_zero d -> d <> [] -> (0 < dec_value d)%N.
Proof.
  intros (F & Z) N. destruct d as [|c d]; [contradiction|]. inversion F; subst. apply dec_pos; auto.
  intros ->. exact (Z d eq_refl).
Qed.
Lemma no_zero_front d x : no_zero (d ++ [x]) -> no_zero d /\ digit x.
Proof.
  intros (F & Z). apply Forall_app in F as [F X]. inversion X; subst. split; [split; [exact F|]|auto].
  intros r ->. exact (Z (r ++ [x]) eq_refl).
Qed.
Lemma no_zero_fun d : forall d', no_zero d -> no_zero d' -> dec_value d = dec_value d' -> d = d'.
Proof.
  induction d as [|x d IH] using rev_ind; intros d' H H' E.
  - destruct d' as [|c d']; [reflexivity|]. pose proof (no_zero_pos _ H' ltac:(discriminate)) as P. rewrite <- E in P. cbn in P. lia.
  - destruct d' as [|x' d' _] using rev_ind.
    { pose proof (no_zero_pos _ H ltac:(destruct d; discriminate)) as P. rewrite E in P. cbn in P. lia. }
    apply no_zero_front in H as (H & D). apply no_zero_front in H' as (H' & D').
    rewrite !dec_value_app in E. cbn [fold_left] in E.
    apply EncodeProofs.digit_facts in D as (_ & D & _). apply EncodeProofs.digit_facts in D' as (_ & D' & _).
    rewrite (IH d' H H') by lia. do 2 f_equal. apply b2n_inj. lia.
Qed.
Lemma decimal_fun n d d' : decimal n d -> decimal n d' -> d = d'.
Proof.
  assert (C : forall d, decimal n d -> (d = [x30] /\ n = 0%N) \/ (no_zero d /\ dec_value d = n /\ (0 < n)%N)).
  { clear d d'. intros d (N & F & Z & V). destruct d as [|c d]; [contradiction|].
    destruct (Byte.eqb c x30) eqn:Ec; [apply byte_eqb_eq in Ec; subst c|apply byte_eqb_neq in Ec].
    - rewrite (Z d eq_refl) in *. left. split; [reflexivity|]. rewrite <- V. reflexivity.
    - right. assert (Nz : no_zero (c :: d)) by (split; [exact F|]; intros r E; congruence).
      split; [exact Nz|]. split; [exact V|]. rewrite <- V. apply no_zero_pos; [exact Nz|discriminate]. }
  intros H H'. apply C in H as [(-> & E)|(H & V & P)], H' as [(-> & E')|(H' & V' & P')]; try lia; [reflexivity|].
  apply no_zero_fun; congruence.
Qed.

Lemma claim_text_fun c t t' : claim_text c t -> claim_text c t' -> t = t'.
Proof.
  intros (k & v & Hk & Hv & ->) (k' & v' & Hk' & Hv' & ->).
  rewrite (given_det _ _ _ _ Hk Hk'), (given_det _ _ _ _ Hv Hv'). reflexivity.
Qed.
Lemma claim_texts_fun cs ts : forall ts', Forall2 claim_text cs ts -> Forall2 claim_text cs ts' -> ts = ts'.
Proof.
  revert ts. induction cs as [|c cs IH]; intros ts ts' H H'; inversion H; inversion H'; subst; [reflexivity|].
  f_equal; [eapply claim_text_fun; eauto|apply IH; auto].
Qed.
Lemma members_only p cs : only (members p cs).
Proof.
  assert (X : forall cs, Forall (fun c => ~ foreign_claim p c) cs -> Exists (foreign_claim p) cs -> False).
  { clear. intros cs F E. apply Exists_exists in E as (c & Hc & E). rewrite Forall_forall in F. exact (F c Hc E). }
  intros o o' [ts F T|E] [ts' F' T'|E']; [|destruct (X _ F E')|destruct (X _ F' E)|reflexivity].
  rewrite (claim_texts_fun _ _ _ T T'). reflexivity.
Qed.
Lemma eq_only (x : product) : only (eq x).
Proof. intros o o' <- <-. reflexivity. Qed.
Lemma header_only p ep j : only (header p ep j).
Proof.
  unfold header. destruct (_ =? _)%N; [apply eq_only|]. apply andthen_only; [apply members_only|]. intros t. apply eq_only.
Qed.
Lemma timed_fun name t a b : timed name t a -> timed name t b -> a = b.
Proof. intros [E|d N D] [E'|d' N' D']; try contradiction; [reflexivity|]. rewrite (decimal_fun _ _ _ D D'). reflexivity. Qed.
Lemma stringed_fun name q n a b : stringed name q n a -> stringed name q n b -> a = b.
Proof.
  intros [E|v G] [E'|v' G']; [reflexivity|rewrite E in G'; contradiction|rewrite E' in G; contradiction|].
  rewrite (given_det _ _ _ _ G G'). reflexivity.
Qed.
Lemma registered_only p ep : only (registered p ep).
Proof.
  intros o o' [a1 a2 a3 a4 a5 a6 a7 N H1 H2 H3 H4 H5 H6 H7|F] [b1 b2 b3 b4 b5 b6 b7 N' K1 K2 K3 K4 K5 K6 K7|F']; try contradiction; [|reflexivity].
  rewrite (timed_fun _ _ _ _ H1 K1), (timed_fun _ _ _ _ H2 K2), (timed_fun _ _ _ _ H3 K3), (stringed_fun _ _ _ _ _ H4 K4),
    (stringed_fun _ _ _ _ _ H5 K5), (stringed_fun _ _ _ _ _ H6 K6), (stringed_fun _ _ _ _ _ H7 K7). reflexivity.
Qed.
Lemma separator_fun ep a b : separator ep a -> separator ep b -> a = b.
Proof. intros [H|H] [H'|H']; try contradiction; reflexivity. Qed.
Lemma payload_only p ep : only (payload p ep).
Proof.
  apply andthen_only; [apply registered_only|]. intros r. destruct (_ =? _)%N; [apply eq_only|].
  apply andthen_only; [apply members_only|]. intros t o o' (s & Hs & ->) (s' & Hs' & ->). rewrite (separator_fun _ _ _ Hs Hs'). reflexivity.
Qed.
Lemma based_only p t : only (based p t).
Proof. intros o o' [H|H H1|H H1] [K|K K1|K K1]; try reflexivity; lia. Qed.
Lemma to_be_signed_only p ep j : only (to_be_signed p ep j).
Proof.
  apply andthen_only; [apply header_only|]. intros ht. apply andthen_only; [apply based_only|]. intros h.
  apply andthen_only; [apply payload_only|]. intros pt. apply andthen_only; [apply based_only|]. intros pl. apply eq_only.
Qed.
Lemma big_endian_inj a : forall b, length a = length b -> big_endian a = big_endian b -> a = b.
Proof.
  induction a as [|x a IH]; intros [|y b] L E; try discriminate; [reflexivity|]. injection L as L. cbn [big_endian] in E. rewrite L in E.
  pose proof (big_endian_bound a) as Ba. pose proof (big_endian_bound b) as Bb. rewrite L in Ba.
  assert (Exy : b2n x = b2n y).
  { rewrite (N.mul_comm (b2n x)), (N.mul_comm (b2n y)) in E. exact (proj1 (N.div_mod_unique _ _ _ _ _ Ba Bb E)). }
  rewrite (b2n_inj _ _ Exy) in *. f_equal. apply IH; [exact L|]. lia.
Qed.
Lemma rs_only e j key msg : only (rs_signing e j key msg).
Proof. intros o o' [H|H D|d H D F|d s H D F N] [K|K E|d' K E G|d' s' K E G M]; try contradiction; try congruence; try reflexivity;
  rewrite D in E; injection E as <-; destruct F as [F|F] || destruct G as [G|G] || idtac; congruence. Qed.
Lemma ps_only p e j key msg : only (ps_signing p e j key msg).
Proof.
  intros o o' H K. inversion H; inversion K; subst; try contradiction; try congruence; try reflexivity; try lia;
    repeat match goal with H1 : digest_of e j msg = Some ?a, H2 : digest_of e j msg = Some ?b |- _ =>
      assert (a = b) by congruence; subst; clear H2 end; try congruence.
Qed.
Lemma es_only e j c b n key msg : only (es_signing e j c b n key msg).
Proof.
  intros o o' H K.
  assert (D : forall d d', digest_of e j msg = Some d -> digest_of e j msg = Some d' -> d = d') by (intros; congruence).
  inversion H; inversion K; subst; try congruence; try reflexivity; try (exfalso; tauto);
    match goal with H1 : digest_of e j msg = Some ?a, H2 : digest_of e j msg = Some ?b |- _ => rewrite <- (D _ _ H1 H2) in * end; try congruence.
  - match goal with H1 : e_ecdsa_sign _ _ _ = Some (?a, ?b), H2 : e_ecdsa_sign _ _ _ = Some (?a', ?b') |- _ =>
      assert (a = a' /\ b = b') as (Ea & Eb) by (rewrite H1 in H2; injection H2; auto) end.
    exfalso. subst. match goal with O : _ \/ _ |- _ => rename O into Big end.
    pose proof (big_endian_bound br). pose proof (big_endian_bound bs).
    repeat match goal with L : length bs = _ |- _ => rewrite L in *; clear L end. destruct Big; lia.
  - match goal with H1 : e_ecdsa_sign _ _ _ = Some (?a, ?b), H2 : e_ecdsa_sign _ _ _ = Some (?a', ?b') |- _ =>
      assert (a = a' /\ b = b') as (Ea & Eb) by (rewrite H1 in H2; injection H2; auto) end.
    exfalso. subst. match goal with O : _ \/ _ |- _ => rename O into Big end.
    pose proof (big_endian_bound br). pose proof (big_endian_bound bs).
    repeat match goal with L : length bs = _ |- _ => rewrite L in *; clear L end. destruct Big; lia.
  - match goal with H1 : e_ecdsa_sign _ _ _ = Some (?a, ?b), H2 : e_ecdsa_sign _ _ _ = Some (?a', ?b') |- _ =>
      assert (a = a' /\ b = b') as (Ea & Eb) by (rewrite H1 in H2; injection H2; auto) end.
    f_equal. f_equal; apply big_endian_inj; congruence.
Qed.
Lemma keyed_only e k pw pwl use : (forall key, only (use key)) -> only (keyed e k pw pwl use).
Proof.
  intros U o o' [L|L P|key o1 L P H] [L'|L' P'|key' o1' L' P' H']; try lia; try reflexivity; try congruence.
  assert (key = key') as <- by congruence. eapply U; eauto.
Qed.
Lemma signing_only p e j k pw pwl msg : only (signing p e j k pw pwl msg).
Proof.
  unfold signing. destruct (j_family j).
  - intros o o' [H|m H] [K|m' K]; congruence.
  - apply keyed_only. intros. apply rs_only.
  - apply keyed_only. intros. apply ps_only.
  - apply keyed_only. intros. apply es_only.
  - intros o o' [H|H L|H L] [K|K M|K M]; congruence.
Qed.
Lemma encoding_only p e ep : only (encoding p e ep).
Proof.
  intros o o' [H|N B|N B A|j k o1 N B S K T] [H'|N' B'|N' B' A'|j' k' o1' N' B' S' K' T']; try contradiction; try reflexivity;
    try (match goal with A : forall j, ~ supported _ j, S : supported _ _ |- _ => destruct (A _ S) end).
  rewrite (supported_unique _ _ _ S' S) in T'.
  assert (k' = k).
  { destruct K as (b & m & E & _ & ->), K' as (b' & m' & E' & _ & ->). congruence. }
  subst k'. revert T T'. apply andthen_only; [apply to_be_signed_only|]. intros msg.
  apply andthen_only; [intros x y -> ->; reflexivity|]. intros _. apply andthen_only; [apply signing_only|]. intros sig. apply eq_only.
Qed.
