(** * Property C87: the tests of tests.c on arguments, and on a token with escaped slashes *)
From Verif Require Import Base BaseProofs HeapProofs Util UtilProofs Claim Base64 SpecB64
  Base64EncProofs Base64EncApi Base64DecProofs Base64Api Jsmn Env Encode Decode SpecJson SpecJwa ClaimProofs UnescapeProofs
  EncodeProofs SignProofs EncodeTotal SpecEnc JsonProofs PropEncode DecodeProofs DecodeInv JsmnProofs ParseProofs
  PropClaim ReadProofs ValidateProofs JsmnJson JsmnSize PropVerify PropValidate PropLeak PropJson DecodeTotal DecodeOk PropSafe
  PropRoundTrip PropIssued PropTime PropVerdict Examples PropEncMemory PropPrograms Walk Exact Complete PropComplete
  EncComplete PropEncComplete PropUnclosed Tests TestProofs TestBench LocalProofs ArgTests.
From Coq Require Import ZifyBool ZifyNat ZifyN.
Ltac Zify.zify_post_hook ::= Z.div_mod_to_equations.
Local Opaque L8W8JWT_MAX_KEY_SIZE SIGBUF.

(** ** Tests that touch no memory *)
Definition argument_tests (p : platform) (e : env) : list (M bool) :=
  [ t_version; t_validate_encoding; t_validate_decoding p; t_params_init
  ; t_base64_encode_null p; t_base64_encode_invalid p; t_base64_encode_overflow p; t_base64_decode_null
  ; t_decode_null p e; t_decode_null_verdict p e; t_get_claim ].

Lemma asserts_all l w : (forall t, In t l -> t w = Ret true w) -> asserts l w = Ret true w.
Proof.
  induction l as [|a l IH]; intros H; [reflexivity|]. cbn [asserts]. unfold both, mbind. rewrite (H a) by (left; reflexivity).
  rewrite IH by (intros t Ht; apply H; right; exact Ht). reflexivity.
Qed.
(** They pass on every platform whose size_t is as wide as C demands, with any backend, in any state, which
    stays as it is. *)
Theorem C87_argument_tests :
  forall p e w t, (16 <= p_size_bits p)%N -> In t (argument_tests p e) -> t w = Ret true w.
Proof.
  intros p e w t Hp Hin.
  cbn [argument_tests In] in Hin. decompose [or] Hin; clear Hin; try contradiction; subst t; try reflexivity.
  - destruct p as [sb cs ss [|] ic]; reflexivity.
  - unfold t_base64_encode_overflow. apply asserts_all. intros t Ht.
    assert (Hm : (65536 <= size_mod p)%N) by (unfold size_mod; change 65536%N with (2 ^ 16)%N; apply N.pow_le_mono_r; lia).
    assert (G : forall url, enc64 p url six (size_mod p - 1 - 64) true true L8W8JWT_OVERFLOW w = Ret true w).
    { intros url. unfold enc64, l8w8jwt_base64_encode, six. cbn [negb is_null orb].
      destruct (N.eqb_spec (size_mod p - 1 - 64) 0); [lia|]. rewrite olen_lt_iff by lia.
      destruct (N.leb_spec (size_mod p) ((size_mod p - 1 - 64) * 4)); [reflexivity|lia]. }
    cbn [In] in Ht. destruct Ht as [<-|[<-|[]]]; apply G.
  - destruct p as [sb cs ss [|] ic]; reflexivity.
Qed.
Print Assumptions C87_argument_tests.

(** ** Tests that allocate *)
(** With the number of blocks they leave allocated. *)
Definition memory_tests (p : platform) (e : env) (now1 now2 : Z) : list (M bool * nat) :=
  [ (t_base64_encode_success p, 2%nat); (t_base64_decode_success, 1%nat); (t_encode_invalid_alg p e now1 now2, 0%nat)
  ; (t_encode_nul_terminated p e now1 now2, 0%nat); (t_write_claims p, 0%nat) ].

Lemma dots_app a b : dots (a ++ b) = (dots a + dots b)%nat.
Proof. unfold dots. rewrite filter_app, app_length. reflexivity. Qed.
Lemma dots_none s : no_dot s -> dots s = 0%nat.
Proof.
  unfold dots, no_dot. induction s as [|c s IH]; intros H; [reflexivity|]. cbn [filter].
  destruct (Byte.eqb x2e c) eqn:E; [apply byte_eqb_eq in E; destruct H; left; auto|]. apply IH. intros K. apply H. right. exact K.
Qed.
Definition small_issue : issue :=
  Issue L8W8JWT_ALG_HS256 (Inline "test key") (Some 0%Z) None (Some 600%Z) None (Some "test iss"%string) (Some "test sub"%string) None [] [].
Lemma small_issue_params now1 now2 :
  issue_small L8W8JWT_ALG_HS256 now1 now2 = issue_params (fun _ => []) (Clock now1 0 now2 (fun _ => 0%Z)) small_issue.
Proof. unfold issue_params, small_issue, issue_small. cbn [i_alg i_key i_iat i_nbf i_exp i_sub i_iss i_aud i_jti i_header i_payload reading_or_zero at_iat at_exp]. rewrite Z.add_0_r. reflexivity. Qed.
Lemma small_supported : supported 0 (Jwa 0 (lit "HS256") HS SHA256).
Proof. apply hs256_supported. Qed.
Theorem C87_memory_tests :
  forall p e now1 now2 w t n, In (t, n) (memory_tests p e now1 now2) ->
    (32 <= p_size_bits p)%N -> wf w -> allocs w -> grows w ->
    e_seed_ok e = true -> (forall h k m, e_hmac e h k m <> None) ->
    exists w' own, t w = Ret true w' /\ adds w w' own /\ length own = n.
Proof.
  intros p e now1 now2 w t n Hin Hp Hwf Ha Hg Sd Hm.
  assert (Hsz : (2 ^ 32 <= size_mod p)%N) by (unfold size_mod; apply N.pow_le_mono_r; lia).
  cbn [memory_tests In] in Hin. destruct Hin as [E|[E|[E|[E|[E|[]]]]]]; injection E as <- <-.
  - assert (G : forall url w0, w_alloc w0 (w_next w0) = true -> enc64 p url six 6 true true L8W8JWT_SUCCESS w0 = Ret true (w_ok w0)).
    { intros url w0 H0. destruct (encode_success p url None (map n2b [1; 2; 3; 4; 5; 6]%N) 6 w0 ltac:(lia) eq_refl) as (rest & H & _).
      - cbn. lia. - lia. - intros _. unfold INT_MAX. vm_compute. discriminate. - exact H0.
      - unfold enc64, mbind. unfold six. rewrite H. reflexivity. }
    exists (w_ok (w_ok w)), [w_next w; w_next (w_ok w)]. split.
    + unfold t_base64_encode_success, asserts, both, mbind. rewrite (G true w (Ha _)). rewrite (G false (w_ok w) (Ha _)). reflexivity.
    + split; [|reflexivity]. apply (adds_trans w (w_ok w) (w_ok (w_ok w)) [w_next w] [w_next (w_ok w)]); apply adds_ok.
  - exists (w_ok w), [w_next w]. split; [|split; [apply adds_ok|reflexivity]].
    destruct w as [al gr jk nx pu lv]. unfold allocs in Ha. cbn [w_alloc] in Ha. assert (H := Ha nx). clear - H. vm_compute. rewrite H. reflexivity.
  - set (ep := issue_small (-3) now1 now2).
    assert (Gv : enc_given ep).
    { assert (Z : forall s, no_nul (lit s) -> expectable (literal s) 0) by (intros s H; right; exists (lit s); cbn; exists []; auto).
      repeat split; try exact I; try (left; reflexivity).
      - apply Z. vm_compute. intuition discriminate.
      - apply Z. vm_compute. intuition discriminate.
      - right. exists (lit "test key"). do 2 eexists. split; [reflexivity|]. split; [cbn; lia|reflexivity]. }
    destruct (C76_encode_complete p e ep w ltac:(lia) Hwf Ha Hg Gv) as (o & _ & U & D).
    assert (E : encoding p e ep (Fails 200)).
    { apply En_alg.
      - intros [N|[N|N]]; discriminate N.
      - intros [N|[N|[[N1 N2]|[N1 N2]]]]; try discriminate N; cbn in N1; contradiction.
      - intros j [Hj Ej]. cbn [ep issue_small ep_alg] in Ej. cbn in Hj. decompose [or] Hj; try contradiction; subst j; discriminate Ej. }
    rewrite <- (U _ E) in D. destruct D as (_ & w' & D). exists w', []. split; [|split; [|reflexivity]].
    + unfold t_encode_invalid_alg. fold ep. unfold mbind. rewrite D. reflexivity.
    + apply adds_quiet. destruct (encode_inv p e ep _ _ _ ltac:(lia) Hwf D) as [(_ & _ & _ & Q)|(C & _)]; [exact Q|discriminate C].
  - unfold t_encode_nul_terminated. rewrite small_issue_params. set (ep := issue_params _ _ _).
    destruct (issued p e (fun _ => []) (Clock now1 0 now2 (fun _ => 0%Z)) small_issue (Jwa 0 (lit "HS256") HS SHA256) w Hp Hwf Ha Hg eq_refl)
      as (id & h & x & s & w1 & E & _).
    { split; vm_compute; [lia|reflexivity]. } { apply hs256_supported. } { exact Sd. }
    { intros msg. unfold signing. cbn [j_family]. destruct (e_hmac e SHA256 (hmac_key (key_bytes (fun _ => []) (i_key small_issue))) msg) as [mac|] eqn:Em; [|destruct (Hm _ _ _ Em)]. exists (fit 32 mac). apply (HS_sign e (Jwa 0 (lit "HS256") HS SHA256) _ _ mac). exact Em. }
    fold ep in E. set (token := rfc4648_unpadded true h ++ lit "." ++ rfc4648_unpadded true x ++ lit "." ++ rfc4648_unpadded true s) in *.
    destruct (C15_header_names_algorithm p e ep w _ w1 ltac:(lia) Hwf (grows_appended _ _ Hg) E eq_refl)
      as (id0 & j & k & ht & pt & sig & blk & mem & more & Eo & _ & Eh & _).
    cbn [er_out] in Eo. injection Eo as _ Et.
    assert (Et' : token = rfc4648_unpadded true ht ++ lit "." ++ rfc4648_unpadded true pt ++ lit "." ++ rfc4648_unpadded true sig).
    { apply (app_inv_tail [x00]). rewrite <- !app_assoc. exact Et. }
    assert (Hh : exists r, rfc4648_unpadded true ht = x65 :: r).
    { rewrite Eh. eexists. reflexivity. }
    assert (Nz : no_nul token).
    { rewrite Et'. unfold no_nul. rewrite !in_app_iff. intros [K|[[K|[]]|[K|[[K|[]]|K]]]]; try discriminate K; revert K; apply unpadded_clean. }
    assert (Dt : dots token = 2%nat).
    { rewrite Et'. rewrite !dots_app. rewrite !(dots_none (rfc4648_unpadded _ _)) by apply unpadded_clean. reflexivity. }
    destruct Hh as (r & Hh). assert (Ht : exists r', token = x65 :: r') by (rewrite Et', Hh; eexists; reflexivity).
    destruct (encode_inv p e _ _ _ _ ltac:(lia) Hwf E) as [(C & _)|(_ & _ & id' & t' & Eo & _ & Rg & Lt & Lv & _)]; [destruct C; reflexivity|].
    assert (id' = id) as -> by (cbn [er_out] in Eo; congruence).
    clearbody token. destruct Ht as (r' & ->). clear Et Et' Eo.
    set (tk := x65 :: r') in *. assert (Ln : (0 < length tk)%nat) by (cbn; lia).
    exists (w_free w1 id), []. split; [|split; [|reflexivity]].
    + unfold mbind at 1. rewrite E. cbn [er_rc er_out er_len]. change (negb (0 =? L8W8JWT_SUCCESS)%Z) with false. cbv iota. cbn [deref lift].
      unfold mbind, lift. rewrite !read_at_ok by (rewrite app_length; cbn [length]; lia). rewrite take_ok by (rewrite app_length; cbn [length]; lia).
      unfold free. rewrite free_id_eq by (rewrite Lv, Nat.eqb_refl; reflexivity).
      replace (N.to_nat (N.of_nat (length tk))) with (length tk) by lia. rewrite firstn_app_exact, Dt.
      replace (nth (length tk) (tk ++ [x00]) x00) with x00 by (rewrite app_nth2, Nat.sub_diag by lia; reflexivity).
      change (nth (N.to_nat 0) (tk ++ [x00]) x00) with x65.
      assert (Ny : Byte.eqb (nth (N.to_nat (N.of_nat (length tk) - 1)) (tk ++ [x00]) x00) x00 = false).
      { rewrite app_nth1 by lia. destruct (Byte.eqb _ x00) eqn:Ey; [|reflexivity]. apply byte_eqb_eq in Ey. destruct Nz. rewrite <- Ey. apply nth_In. lia. }
      rewrite Ny. destruct (N.ltb_spec 0 (N.of_nat (length tk))); [reflexivity|lia].
    + apply (adds_cons_free w w1 id [] Hwf). split; [exact Lt|]. split; [repeat constructor; intros []|]. split.
      * intros y [<-|[]]. lia.
      * intros y. rewrite Lv. destruct (Nat.eqb_spec y id) as [->|Ny]; cbn [In]; intuition congruence.
  - exists (w_free (w_ok w) (w_next w)), []. split; [|split; [|reflexivity]].
    + destruct w as [al gr jk nx pu lv]. unfold allocs in Ha. cbn [w_alloc] in Ha. unfold t_write_claims, cb_init, mbind, alloc. cbn [w_alloc w_next]. rewrite Ha. cbn -[upd_live free_id cb_free]. unfold cb_free. cbn [cb_id]. rewrite free_id_eq by (cbn [w_live]; unfold upd_live; rewrite Nat.eqb_refl; reflexivity). reflexivity.
    + apply (adds_cons_free w (w_ok w) (w_next w) [] Hwf (adds_ok w)).
Qed.
Print Assumptions C87_memory_tests.


(** ** The token with escaped slashes *)
Definition slashes_header_text : string := "{""alg"":""RS256"",""kid"":""A74pTx9H07LwY2hakeWOKFNe3mh8Z66wfQgAHr0NN-A"",""typ"":""JWT""}"%string.
Definition slashes_payload_text : string :=
  "{""exp"":1670163824,""flight_operation_id"":""3408bce9-dbab-4665-abfc-8ea03b0ad871"",""flight_plan_id"":""12818e87-4c96-4e4c-8c63-82b8e12c3b73"",""iat"":1670160224,""iss"":""https:\/\/test\/domain\/"",""plan_file_hash"":""a2a201efa111dde5aaa8f42b7b46d17b595e39d850500dbacd9f79aef0bbf68e"",""scope"":"""",""sub"":""g37lXifAQoBfVuQZxT3VJFjXIMgdfXIOpa2LdWBQ@clients"",""typ"":""Bearer""}"%string.
Definition slashes_header_members : list member :=
  [ Member (lit "alg") KString (quoted (lit "RS256"))
  ; Member (lit "kid") KString (quoted (lit "A74pTx9H07LwY2hakeWOKFNe3mh8Z66wfQgAHr0NN-A"))
  ; Member (lit "typ") KString (quoted (lit "JWT")) ].
Definition slashes_payload_members : list member :=
  [ Member (lit "exp") KNumber (lit "1670163824")
  ; Member (lit "flight_operation_id") KString (quoted (lit "3408bce9-dbab-4665-abfc-8ea03b0ad871"))
  ; Member (lit "flight_plan_id") KString (quoted (lit "12818e87-4c96-4e4c-8c63-82b8e12c3b73"))
  ; Member (lit "iat") KNumber (lit "1670160224")
  ; Member (lit "iss") KString (quoted (lit "https:\/\/test\/domain\/"))
  ; Member (lit "plan_file_hash") KString (quoted (lit "a2a201efa111dde5aaa8f42b7b46d17b595e39d850500dbacd9f79aef0bbf68e"))
  ; Member (lit "scope") KString (quoted (lit ""))
  ; Member (lit "sub") KString (quoted (lit "g37lXifAQoBfVuQZxT3VJFjXIMgdfXIOpa2LdWBQ@clients"))
  ; Member (lit "typ") KString (quoted (lit "Bearer")) ].
Definition digit_text (s : string) : bool :=
  match lit s with c :: r => forallb (fun c => (48 <=? b2n c)%N && (b2n c <=? 57)%N) (c :: r) && negb (Byte.eqb c x30) | [] => false end.
Lemma digits_value s : digit_text s = true -> json_value KNumber (lit s).
Proof.
  unfold digit_text. intros H. apply JV_number. replace (lit s) with ([] ++ lit s ++ [] ++ []) by (cbn [app]; rewrite app_nil_r; reflexivity).
  apply (JN [] (lit s) [] []); [left; reflexivity| |constructor|constructor].
  destruct (lit s) as [|c r]; [discriminate H|]. apply andb_true_iff in H as [H1 H2]. cbn [forallb] in H1. apply andb_true_iff in H1 as [H1 H3].
  assert (G : forall b, (48 <=? b2n b)%N && (b2n b <=? 57)%N = true -> digit b) by (intros b; destruct b; vm_compute; intuition discriminate).
  apply JI_pos; [apply G; exact H1|intros ->; discriminate H2|]. apply Forall_forall. intros b Hb. apply G. rewrite forallb_forall in H3. apply H3. exact Hb.
Qed.
Lemma slashes_header_object : object_text (lit slashes_header_text) slashes_header_members.
Proof.
  exists [], (lit slashes_header_text), []. split; [constructor|]. split; [|split; [constructor|reflexivity]].
  change (lit slashes_header_text) with (lit "{" ++ ([] ++ quoted (lit "alg") ++ [] ++ lit ":" ++ [] ++ quoted (lit "RS256") ++ []
    ++ lit "," ++ ([] ++ quoted (lit "kid") ++ [] ++ lit ":" ++ [] ++ quoted (lit "A74pTx9H07LwY2hakeWOKFNe3mh8Z66wfQgAHr0NN-A") ++ []
    ++ lit "," ++ ([] ++ quoted (lit "typ") ++ [] ++ lit ":" ++ [] ++ quoted (lit "JWT") ++ []))) ++ lit "}").
  apply JO_members.
  eapply JM_cons; [js_ws|js_body|js_ws|js_ws|eapply JV_string; js_body|js_ws|].
  eapply JM_cons; [js_ws|js_body|js_ws|js_ws|eapply JV_string; js_body|js_ws|].
  eapply JM_one; [js_ws|js_body|js_ws|js_ws|eapply JV_string; js_body|js_ws].
Qed.
Lemma slashes_payload_object : object_text (lit slashes_payload_text) slashes_payload_members.
Proof.
  exists [], (lit slashes_payload_text), []. split; [constructor|]. split; [|split; [constructor|reflexivity]].
  change (lit slashes_payload_text) with (lit "{" ++ ([] ++ quoted (lit "exp") ++ [] ++ lit ":" ++ [] ++ lit "1670163824" ++ []
    ++ lit "," ++ ([] ++ quoted (lit "flight_operation_id") ++ [] ++ lit ":" ++ [] ++ quoted (lit "3408bce9-dbab-4665-abfc-8ea03b0ad871") ++ []
    ++ lit "," ++ ([] ++ quoted (lit "flight_plan_id") ++ [] ++ lit ":" ++ [] ++ quoted (lit "12818e87-4c96-4e4c-8c63-82b8e12c3b73") ++ []
    ++ lit "," ++ ([] ++ quoted (lit "iat") ++ [] ++ lit ":" ++ [] ++ lit "1670160224" ++ []
    ++ lit "," ++ ([] ++ quoted (lit "iss") ++ [] ++ lit ":" ++ [] ++ quoted (lit "https:\/\/test\/domain\/") ++ []
    ++ lit "," ++ ([] ++ quoted (lit "plan_file_hash") ++ [] ++ lit ":" ++ [] ++ quoted (lit "a2a201efa111dde5aaa8f42b7b46d17b595e39d850500dbacd9f79aef0bbf68e") ++ []
    ++ lit "," ++ ([] ++ quoted (lit "scope") ++ [] ++ lit ":" ++ [] ++ quoted (lit "") ++ []
    ++ lit "," ++ ([] ++ quoted (lit "sub") ++ [] ++ lit ":" ++ [] ++ quoted (lit "g37lXifAQoBfVuQZxT3VJFjXIMgdfXIOpa2LdWBQ@clients") ++ []
    ++ lit "," ++ ([] ++ quoted (lit "typ") ++ [] ++ lit ":" ++ [] ++ quoted (lit "Bearer") ++ []))))))))) ++ lit "}").
  apply JO_members.
  eapply JM_cons; [js_ws|js_body|js_ws|js_ws|apply digits_value; reflexivity|js_ws|].
  eapply JM_cons; [js_ws|js_body|js_ws|js_ws|eapply JV_string; js_body|js_ws|].
  eapply JM_cons; [js_ws|js_body|js_ws|js_ws|eapply JV_string; js_body|js_ws|].
  eapply JM_cons; [js_ws|js_body|js_ws|js_ws|apply digits_value; reflexivity|js_ws|].
  eapply JM_cons; [js_ws|js_body|js_ws|js_ws|eapply JV_string; js_body|js_ws|].
  eapply JM_cons; [js_ws|js_body|js_ws|js_ws|eapply JV_string; js_body|js_ws|].
  eapply JM_cons; [js_ws|js_body|js_ws|js_ws|eapply JV_string; js_body|js_ws|].
  eapply JM_cons; [js_ws|js_body|js_ws|js_ws|eapply JV_string; js_body|js_ws|].
  eapply JM_one; [js_ws|js_body|js_ws|js_ws|eapply JV_string; js_body|js_ws].
Qed.

Lemma slashes_first : first_starting (lit "iss") (slashes_header_members ++ slashes_payload_members) (lit "https://test/domain/").
Proof.
  exists (slashes_header_members ++ firstn 4 slashes_payload_members), (Member (lit "iss") KString (quoted (lit "https:\/\/test\/domain\/"))),
    (skipn 5 slashes_payload_members). split; [reflexivity|]. split; [|split].
  - exists []. unfold named. cbn [m_key]. rewrite app_nil_r. js_body.
  - cbn [slashes_header_members slashes_payload_members firstn app]. names_ok.
  - cbn [value_text m_kind]. exists (lit "https:\/\/test\/domain\/"). split; [reflexivity|]. js_body.
Qed.
Lemma no_dot_check l : forallb (fun c => negb (Byte.eqb c x2e)) l = true -> no_dot l.
Proof. intros H Hi. rewrite forallb_forall in H. apply H in Hi. discriminate Hi. Qed.
Ltac slashes_part :=
  split; [discriminate|]; split; [vm_compute; reflexivity|]; eexists; split; [vm_compute; reflexivity|reflexivity].

(** The issuer of that token is handed out with its slashes unescaped, whatever the verdict on its
    signature, if there is memory and the backend can use the key. *)
Theorem C87_slashes_test :
  forall p e key id w, wf w -> allocs w -> grows w -> uses_jsmn e -> checknum_right e -> (32 <= p_size_bits p)%N ->
    (0 < length key < N.to_nat 8192)%nat -> public_key_of e key id -> (forall m, e_md e SHA256 m <> None) ->
    exists w', t_slashes p e key w = Ret true w'.
Proof.
  intros p e key id w Hwf Ha Hg Hj Hc Hp Hlen Hpk Hmd.
  set (dp := set_dec L8W8JWT_ALG_RS256 (Ptr None (slashes_token ++ [x00])) (N.of_nat (length slashes_token))
         (Ptr None (key ++ [x00])) (N.of_nat (length key))).
  assert (Hck : caller_key (dp_verification_key dp) (dp_verification_key_length dp) key).
  { exists None, (key ++ [x00]). change (dp_verification_key_length dp) with (N.of_nat (length key)). split; [reflexivity|]. split.
    - rewrite app_length. lia.
    - rewrite Nat2N.id. symmetry. apply firstn_app_exact. }
  assert (Hk : key_ok (dp_verification_key dp) (dp_verification_key_length dp)).
  { split; [change (dp_verification_key_length dp) with (N.of_nat (length key)); lia|]. exists key. split; [exact Hck|]. left.
    change (dp_verification_key_length dp) with (N.of_nat (length key)). lia. }
  assert (Ht : c_text p dp (lit slashes_header ++ lit "." ++ lit slashes_payload ++ lit "." ++ lit slashes_signature)).
  { split; [exists None, []; reflexivity|]. split; [apply no_nul_b; vm_compute; reflexivity|]. split; [reflexivity|].
    unfold size_mod. apply N.lt_le_trans with (2 ^ 32)%N; [vm_compute; reflexivity|]. apply N.pow_le_mono_r; lia. }
  assert (B1 : exists t, b64_decodes (lit slashes_header) (lit slashes_header_text) t) by (eexists; slashes_part).
  assert (B2 : exists t, b64_decodes (lit slashes_payload) (lit slashes_payload_text) t) by (eexists; slashes_part).
  assert (B3 : exists o t, b64_decodes (lit slashes_signature) o t) by (do 2 eexists; slashes_part).
  destruct B1 as (ht & B1). destruct B2 as (pt & B2). destruct B3 as (sig & st & B3).
  assert (F1 : fits (lit slashes_header_text) slashes_header_members) by (left; apply small_size; vm_compute; reflexivity).
  assert (F2 : fits (lit slashes_payload_text) slashes_payload_members) by (left; apply small_size; vm_compute; reflexivity).
  destruct (object_reads e _ _ ht Hj Hc slashes_header_object F1) as [R1 _].
  destruct (object_reads e _ _ pt Hj Hc slashes_payload_object F2) as [R2 _].
  assert (N1 : no_dot (lit slashes_header)) by (apply no_dot_check; vm_compute; reflexivity).
  assert (N2 : no_dot (lit slashes_payload)) by (apply no_dot_check; vm_compute; reflexivity).
  assert (Hu : sig_looked_at p e dp (lit slashes_header ++ lit "." ++ lit slashes_payload) (sig ++ st)).
  { right. exists (Jwa 3 (lit "RS256") RS SHA256), key. split; [split; [cbn; auto 20|reflexivity]|]. split; [exact Hck|]. split; [exact I|].
    intros [(C & E)|[E|E]].
    - destruct Hpk as [(_ & E')|(C' & _)]; [congruence|contradiction].
    - apply (E id Hpk).
    - apply (Hmd _ E). }
  assert (Hrq : requests_ok p e dp).
  { unfold requests_ok, times_ok, typ_ok, expectable. cbn.
    do 4 (split; [left; reflexivity|]). split; [|left; reflexivity]. split; [|split]; discriminate. }
  destruct (decode_ok p e dp _ _ _ _ ht _ pt sig st _ _ true true w Hwf Ha Hj Hp eq_refl Ht N1 N2 B1 B2 B3
    ltac:(vm_compute; discriminate) ltac:(vm_compute; discriminate) R1 R2 Hk Hu Hrq Hg (or_introl eq_refl)) as (r & w' & H & Hrc).
  exists w'.
  destruct (C31_members_partial p e dp w r w' Hwf (LocalProofs.grows_appended _ _ Hg) Hj Hp Hc H Hrc)
    as (h' & pl' & hj' & pj' & ht' & pt' & TP & D1' & D2' & Hcs).
  assert (h' = lit slashes_header /\ pl' = lit slashes_payload) as (-> & ->).
  { destruct TP as [jwt h0 pl0 rest (b' & Ej) T|jwt h0 s0 rest n _ Ea _ _ _ _ _ _]; [|discriminate Ea].
    assert (jwt = slashes_token ++ [x00]) by (change (dp_jwt dp) with (Ptr None (slashes_token ++ [x00])) in Ej; congruence). subst jwt.
    assert (T' : three_parts (slashes_token ++ [x00]) (lit slashes_header) (lit slashes_payload) (lit slashes_signature ++ [x00])).
    { split; [unfold slashes_token; rewrite <- !app_assoc; reflexivity|]. do 2 (split; [first [exact N1|apply no_nul_b; vm_compute; reflexivity]|]).
      split; [exact N2|apply no_nul_b; vm_compute; reflexivity]. }
    destruct (three_parts_fun _ _ _ _ _ _ _ T T') as (-> & -> & _). auto. }
  destruct (url_decodes_fun _ _ _ _ _ D1' (b64_decodes_url _ _ _ B1)) as [_ ->].
  destruct (url_decodes_fun _ _ _ _ _ D2' (b64_decodes_url _ _ _ B2)) as [_ ->].
  destruct (Hcs _ _ slashes_header_object slashes_payload_object) as (b & cs & Ecs & _ & Hrep).
  assert (Hsm : Forall simple_member (slashes_header_members ++ slashes_payload_members)).
  { cbn [slashes_header_members slashes_payload_members app]. js_members. }
  specialize (Hrep Hsm).
  destruct (decode_reads _ _ _ _ _ _ _ _ Hwf Hj Hp H Hrc)
    as (sg & hb & hm & pb & pm & eh & ep & id' & cs' & sub & res1 & v & _ & _ & _ & _ & _ & _ & _ & _ & T & _ & _ & _ & Ecs').
  rewrite Ecs in Ecs'. assert (cs' = cs) by (cbn in Ecs'; congruence). subst cs'.
  pose proof (told_members _ _ _ T Hrep) as HF.
  pose proof (proj2 (lookup_first _ _ _ _ HF) slashes_first) as HL. unfold lookup_prefix in HL. change (fun k => prefixb (lit "iss") k) with (prefixb (lit "iss")) in HL.
  pose proof (get_claim_told b cs _ "iss"%string T ltac:(apply no_nul_b; reflexivity) eq_refl) as G. rewrite HL in G.
  destruct G as (c & k & G & (_ & _ & (bv & rest & Ev) & _) & Hz).
  unfold t_slashes. unfold mbind at 1. fold dp. rewrite H, Ecs. change (literal "iss") with (Ptr None (clit "iss")).
  unfold mbind at 1, lift at 1. rewrite G. replace (c_string (c_value c)) with (OK (lit "https://test/domain/")).
  - unfold mbind, lift, mret. replace (bytes_eqb _ _) with true; [reflexivity|]. symmetry. apply bytes_eqb_eq. reflexivity.
  - unfold c_string. rewrite Ev. cbn [deref ubind]. rewrite strlen_cstr by exact Hz. cbn [ubind]. rewrite take_app. reflexivity.
Qed.
Print Assumptions C87_slashes_test.

(** On the bench of the tests of [Tests.v], with their RSA key. *)
Example C87_slashes_example :
  uses_jsmn bench /\ checknum_right bench /\ public_key_of bench (ring "RSA_PUBLIC_KEY"%string) 1 /\ (forall m, e_md bench SHA256 m <> None)
  /\ exists w', t_slashes pe bench (ring "RSA_PUBLIC_KEY"%string) we = Ret true w'.
Proof.
  split; [intros js cap; reflexivity|]. split; [apply toy_num_right|].
  assert (K : public_key_of bench (ring "RSA_PUBLIC_KEY"%string) 1) by (apply public_bench; vm_compute; reflexivity).
  split; [exact K|]. split; [discriminate|].
  apply (C87_slashes_test pe bench _ 1%nat); [apply we_wf|intros s; reflexivity|intros s; reflexivity|intros js cap; reflexivity|apply toy_num_right| | |exact K|discriminate].
  - vm_compute. discriminate.
  - split; [vm_compute; lia|]. apply Nat.ltb_lt. vm_compute. reflexivity.
Qed.
