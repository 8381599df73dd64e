(** * Property C56: no memory corruption, whatever the arguments *)
From Verif Require Import Base BaseProofs HeapProofs Util UtilProofs Claim Base64 SpecB64
  Base64EncProofs Base64EncApi Base64DecProofs Base64Api Jsmn Env Encode Decode SpecJson SpecJwa ClaimProofs UnescapeProofs
  EncodeProofs SignProofs EncodeTotal SpecEnc JsonProofs PropEncode DecodeProofs DecodeInv JsmnProofs ParseProofs
  PropClaim ReadProofs ValidateProofs JsmnJson DecodeTotal PropVerify PropValidate PropJson PropSafe PropOverRead.
From Coq Require Import ZifyBool ZifyNat ZifyN Permutation.
Ltac Zify.zify_post_hook ::= Z.div_mod_to_equations.
Local Opaque L8W8JWT_MAX_KEY_SIZE.

(** ** Notions *)
(** Undefined behaviour that only reads: a read outside an object, through NULL, an integer
    overflow, a bad argument to tolower. What is left out corrupts memory: writing outside an object,
    freeing what is not allocated (or twice), using something never initialised, looping for ever. *)
Definition read_fault (u : ub) : Prop :=
  match u with OOBRead | NullDeref | SignedOverflow | BadCtype => True | _ => False end.
(** The outcome of a call: it returns, or ends in undefined behaviour that [P] allows. *)
Definition ends_with {A} (P : ub -> Prop) (r : res A) : Prop :=
  match r with Ret _ _ => True | Undef u => P u end.

(** ** Reads *)
Definition ufine {A} (m : U A) : Prop := match m with OK _ => True | KO u => read_fault u end.
Definition mfine {A} (m : M A) (w : world) : Prop := ends_with read_fault (m w).
Lemma ub_bind {A B} (m : U A) (k : A -> U B) : ufine m -> (forall a, m = OK a -> ufine (k a)) -> ufine (ubind m k).
Proof. unfold ufine at 1, ubind. destruct m; auto. Qed.
Lemma mb_bind {A B} (m : M A) (k : A -> M B) w :
  mfine m w -> (forall a w', m w = Ret a w' -> mfine (k a) w') -> mfine (mbind m k) w.
Proof. unfold mfine, mbind. destruct (m w); cbn; auto. Qed.
Lemma mb_lift {A B} (u : U A) (k : A -> M B) w :
  ufine u -> (forall a, u = OK a -> mfine (k a) w) -> mfine (mbind (lift u) k) w.
Proof. unfold mfine, mbind, lift. destruct u; cbn; auto. Qed.
Lemma mb_ret {A} (m : M A) w a w' : m w = Ret a w' -> mfine m w.
Proof. unfold mfine. intros ->. exact I. Qed.

Ltac uf := repeat first
  [ exact I | assumption
  | match goal with |- ufine (ubind _ _) => apply ub_bind; [|intros ? ?] end
  | match goal with |- ufine (if ?b then _ else _) => destruct b eqn:? end
  | match goal with |- ufine (match ?b with _ => _ end) => destruct b eqn:? end ].

Lemma take_f m n : ufine (take m n).
Proof. unfold take. uf. Qed.
Lemma read_at_f m n : ufine (read_at m n).
Proof. unfold read_at. uf. Qed.
Lemma at_off_f m n : ufine (at_off m n).
Proof. unfold at_off. uf. Qed.
Lemma deref_f q : ufine (deref q).
Proof. unfold deref. uf. Qed.
Lemma strlen_f m : ufine (strlen m).
Proof. induction m; cbn [strlen]; uf. Qed.
Lemma strchr_f c m : ufine (strchr m c).
Proof. induction m; cbn [strchr]; uf. Qed.
Lemma strncmp_f m : forall m2 n, ufine (strncmp m m2 n).
Proof. induction m; intros m2 n; cbn [strncmp]; uf; destruct m2; uf; auto. Qed.
Lemma scan_f m : forall z, ufine (scan_digits m z).
Proof. induction m; intros z; cbn [scan_digits]; uf; auto. Qed.
Lemma strtoll_f m : ufine (strtoll m).
Proof. induction m; cbn [strtoll]; uf; apply scan_f. Qed.
Lemma strstr_f a b : ufine (strstr_found a b).
Proof. unfold strstr_found. uf. apply strlen_f. Qed.
Lemma memcmp_f a b n : ufine (memcmp_eq a b n).
Proof. unfold memcmp_eq. uf; apply take_f. Qed.
Lemma i64_f z : ufine (i64 z).
Proof. unfold i64. uf. Qed.
Lemma get_each_f cs : forall n k l, ufine (get_each cs n k l).
Proof. induction cs; intros n k l; cbn [get_each]; uf; try apply deref_f; try apply strncmp_f; auto. Qed.
Lemma get_claim_f cs n k l : ufine (l8w8jwt_get_claim cs n k l).
Proof. unfold l8w8jwt_get_claim. uf. apply get_each_f. Qed.
Lemma los_f n q : ufine (length_or_strlen n q).
Proof. unfold length_or_strlen. uf; try apply deref_f; apply strlen_f. Qed.
Lemma tolower_f z : ufine (tolower z).
Proof. unfold tolower. uf. Qed.
Lemma cmpic_loop_f p a : forall b n r, ufine (strncmpic_loop p a b n r).
Proof. induction a; intros b n r; cbn [strncmpic_loop]; uf; try apply tolower_f; auto. Qed.
Lemma cmpic_f p a b n : ufine (l8w8jwt_strncmpic p a b n).
Proof. unfold l8w8jwt_strncmpic. uf. apply cmpic_loop_f. Qed.
Lemma string_check_f cs n nm q l : ufine (string_check cs n nm q l).
Proof. unfold string_check. uf; try apply get_claim_f; try apply los_f; try apply deref_f; apply strncmp_f. Qed.
Lemma time_check_f cs n nm z f : ufine (time_check cs n nm z f).
Proof. unfold time_check. uf; try apply get_claim_f; try apply i64_f; try apply deref_f; apply strtoll_f. Qed.
Lemma typ_check_f p cs n q l : ufine (typ_check p cs n q l).
Proof. unfold typ_check. uf; try apply get_claim_f; apply cmpic_f. Qed.
Lemma flag_if_f b c f r : ufine c -> ufine (flag_if b c f r).
Proof. intros H. unfold flag_if. uf. Qed.
Lemma validate_f p e dp cs n r : ufine (l8w8jwt_validate_claims p e dp cs n r).
Proof.
  unfold l8w8jwt_validate_claims. cbv zeta.
  repeat (apply ub_bind; [apply flag_if_f; first [apply string_check_f|apply time_check_f]|intros ? _]).
  apply flag_if_f, typ_check_f.
Qed.

(** ** Verification *)
Lemma load_key_f q n : (n <= L8W8JWT_MAX_KEY_SIZE)%N -> ufine (load_key q n).
Proof. intros H. unfold load_key. uf; try apply deref_f; try apply take_f. lia. Qed.
Lemma load_key_size q n k : load_key q n = OK k -> N.of_nat (length k) = L8W8JWT_MAX_KEY_SIZE.
Proof.
  unfold load_key. intros H. apply ubind_inv in H as (m & _ & H). apply ubind_inv in H as (s & H1 & H).
  apply take_inv in H1 as [H1 ->]. destruct (N.leb_spec n L8W8JWT_MAX_KEY_SIZE); [|discriminate]. inversion H.
  rewrite app_length, firstn_length, repeat_length. lia.
Qed.
Lemma adjust_f k n : ufine (adjust_key_length k n).
Proof. unfold adjust_key_length. uf. apply read_at_f. Qed.
Lemma load_cert_f e k n : ufine (load_cert e k n).
Proof. unfold load_cert. uf; try apply strstr_f; apply take_f. Qed.
Lemma public_key_f e c k n : ufine (public_key e c k n).
Proof. unfold public_key. uf; apply take_f. Qed.
Lemma hexstr_f p b m n ob o size nn : (size <= N.of_nat (length o))%N ->
  ufine (l8w8jwt_hexstr2bin p (Ptr b m) n (Ptr ob o) size nn)
  /\ forall r out l, l8w8jwt_hexstr2bin p (Ptr b m) n (Ptr ob o) size nn = OK (r, out, l) -> r = 0%Z -> out <> None.
Proof.
  intros Hs. destruct (N.eqb_spec n 0) as [->|Hn].
  { cbn [l8w8jwt_hexstr2bin N.eqb]. split; [exact I|]. intros r out l H. inversion H; subst. discriminate. }
  destruct (N.leb_spec n (N.of_nat (length m))) as [Hl|Hl].
  2:{ unfold l8w8jwt_hexstr2bin. destruct (N.eqb_spec n 0); [lia|]. unfold read_at.
      destruct (N.ltb_spec (n - 1) (N.of_nat (length m))); [lia|]. cbn [ubind]. split; [exact I|discriminate]. }
  rewrite hexstr2bin_cases by lia. cbv zeta. set (s := without_final_nul _).
  destruct (negb _); [split; [exact I|intros r out l H; inversion H; subst; discriminate]|].
  destruct (N.ltb_spec size (N.of_nat (length s / 2) + 1)); [split; [exact I|intros r out l H'; inversion H'; subst; discriminate]|].
  destruct (hex_loop_ok p s [] o) as (od & E & _); [lia|]. unfold cur_start. rewrite E. split; [exact I|].
  intros r out l H'. inversion H'; subst. intros _. discriminate.
Qed.
Lemma switch_f p e alg crt key kl msg hash sig n : ufine (verify_switch p e alg crt key kl msg hash sig n).
Proof.
  unfold verify_switch. destruct (dec_md_info_from_alg alg); [|exact I].
  assert (G : forall (P : verdict -> Prop) a, ufine (o <-u public_key e crt key kl ;;
     match o with None => OK (VExit L8W8JWT_KEY_PARSE_FAILURE) | Some pk => a pk end) <->
     forall pk, public_key e crt key kl = OK (Some pk) -> ufine (a pk)).
  { intros _ a. pose proof (public_key_f e crt key kl) as F. destruct (public_key e crt key kl) as [[x|]|u]; cbn [ubind].
    - split; [intros H y K; inversion K; subst; exact H|auto].
    - split; [discriminate|intros _; exact I].
    - split; [discriminate|intros _; exact F]. }
  destruct alg as [|a|a]; try exact I.
  - uf; try apply take_f; apply memcmp_f.
  - repeat (destruct a as [a|a|]; try exact I).
    all: try (apply (G (fun _ => True)); intros x _; cbv zeta; uf; try apply take_f; exact I).
    all: uf; try apply take_f; try apply memcmp_f; try apply read_at_f.
    all: try (apply hexstr_f; rewrite repeat_length; lia).
    exfalso. destruct (hexstr_f p None key kl None (repeat x00 33) 33 false ltac:(rewrite repeat_length; lia)) as [_ X].
    eapply X; [eassumption|lia|reflexivity].
Qed.
Lemma verify_body_f p e dp sig n : (dp_verification_key_length dp <= L8W8JWT_MAX_KEY_SIZE)%N -> ufine (verify_body p e dp sig n).
Proof.
  intros H. unfold verify_body. apply ub_bind; [apply load_key_f; exact H|intros key _].
  apply ub_bind; [apply adjust_f|intros kl _]. apply ub_bind; [apply load_cert_f|intros [crt|] _; [|exact I]].
  apply ub_bind; [apply deref_f|intros jwt _]. apply ub_bind; [apply strchr_f|intros [n1|] _; [|exact I]].
  apply ub_bind; [apply strchr_f|intros [n2|] _; [|exact I]]. destruct (verify_hash _ _ _); [|exact I]. apply switch_f.
Qed.
Lemma verify_f p e dp res q n w : wf w -> (dp_verification_key_length dp <= L8W8JWT_MAX_KEY_SIZE)%N ->
  mfine (l8w8jwt_verify_signature p e dp res q n) w.
Proof.
  intros Hwf H. unfold l8w8jwt_verify_signature. destruct (_ || _ || _); [exact I|]. cbv zeta.
  destruct (p_small_stack p).
  - apply mb_bind; [unfold mfine; rewrite calloc_eq; destruct (w_alloc _ _); exact I|]. intros key w1 H1.
    rewrite calloc_eq in H1. destruct (w_alloc w (w_next w)); inversion H1; subst; cbn [is_null].
    + apply mb_bind.
      { apply mb_lift; [apply deref_f|intros sig _]. unfold mfine, lift.
        pose proof (verify_body_f p e dp sig n H) as F. destruct (verify_body p e dp sig n); exact F. }
      intros v w2 H2. minvas H2 as sig w3 H3. apply lift_inv in H3 as [_ ->]. apply lift_inv in H2 as [_ ->].
      assert (L : w_live (w_ok w) (w_next w) = true) by (cbn; apply upd_live_same).
      assert (Z : zeroize (Ptr (Some (w_next w)) (repeat x00 (N.to_nat L8W8JWT_MAX_KEY_SIZE))) L8W8JWT_MAX_KEY_SIZE (w_ok w) = Ret tt (w_ok w)).
      { unfold zeroize. rewrite repeat_length. replace (negb _) with false by (symmetry; apply negb_false_iff, N.leb_le; lia).
        rewrite L. reflexivity. }
      apply mb_bind; [eapply mb_ret; exact Z|]. intros u w4 H4. rewrite Z in H4. inversion H4; subst.
      apply mb_bind; [eapply mb_ret; cbn [free]; apply free_id_eq; exact L|]. intros u' w5 _. exact I.
    + unfold mfine, mbind, mret. cbn [zeroize]. destruct (_ =? 0)%N; exact I.
  - apply mb_lift; [apply deref_f|intros sig _]. apply mb_lift; [apply verify_body_f; exact H|intros v _; exact I].
Qed.

(** ** Segments *)
Lemma b64_f mem n w : wf w -> mfine (l8w8jwt_base64_decode true (Ptr None mem) n true true) w.
Proof.
  intros Hwf. destruct (N.leb_spec n (N.of_nat (length mem))) as [H|H].
  - destruct (b64_total mem n w Hwf H) as (r & w' & E & _). eapply mb_ret; eauto.
  - unfold l8w8jwt_base64_decode. cbn [is_null negb orb]. destruct (N.eqb_spec n 0); [lia|].
    apply mb_lift; [exact I|intros m E; inversion E; subst m]. apply mb_lift; [apply read_at_f|].
    intros b E'. unfold read_at in E'. destruct (N.ltb_spec (n - 1) (N.of_nat (length mem))); [lia|discriminate].
Qed.
Lemma b64_wf b mem n w r w' : wf w -> l8w8jwt_base64_decode true (Ptr b mem) n true true w = Ret r w' -> wf w'.
Proof. intros Hwf H. apply seg_upd_inv in H as (A & _); [|exact Hwf]. eapply adds_wf; eauto. Qed.
Lemma segments_f p dp w : wf w -> mfine (l8w8jwt_decode_segments p dp) w.
Proof.
  intros Hwf. unfold l8w8jwt_decode_segments. cbv zeta. apply mb_lift; [apply deref_f|intros jwt _].
  apply mb_lift; [apply strchr_f|intros [n1|] _; [|exact I]].
  apply mb_bind; [apply b64_f; exact Hwf|intros r1 w1 H1]. apply b64_wf in H1; [|exact Hwf].
  destruct (negb _); [exact I|]. apply mb_lift; [apply strchr_f|intros n2 _]. destruct (_ && _); [exact I|].
  apply mb_bind; [apply b64_f; exact H1|intros r2 w2 H2]. apply b64_wf in H2; [|exact H1].
  destruct (negb _); [exact I|]. destruct n2 as [n2|]; [|exact I].
  apply mb_bind; [apply b64_f; exact H2|intros r3 w3 _]. destruct (negb _); exact I.
Qed.

(** ** Parsing *)
Lemma tok_at_f a i : ufine (tok_at a i).
Proof. unfold tok_at. uf. Qed.
Lemma skip_f fuel a r vend : forall i, (i <= r)%Z -> (Z.to_nat (r - i) < fuel)%nat -> ufine (skip_nested fuel a r vend i).
Proof.
  induction fuel as [|f IH]; intros i H1 H2; [lia|]. cbn [skip_nested]. apply ub_bind; [apply tok_at_f|intros t _].
  destruct (_ && _) eqn:E; [|exact I]. apply IH; lia.
Qed.
Lemma claim_type_f e json a r i v : (0 <= i <= r)%Z -> ufine (claim_type e json a r i v).
Proof.
  intros H. unfold claim_type. destruct (t_type v); try exact I.
  - apply ub_bind; [apply skip_f; lia|intros; exact I].
  - apply ub_bind; [apply skip_f; lia|intros; exact I].
  - apply ub_bind; [apply at_off_f|intros m _]. uf; try apply strncmp_f; apply take_f.
Qed.
Section Loop.
Variables (p : platform) (e : env) (mem : bytes) (n : nat) (toks : list tok) (cap r : Z) (junk : Z -> tok).
Let a := TokArr toks cap junk.
Hypothesis Hp : (32 <= p_size_bits p)%N.
Hypothesis Hr : (r <= Z.of_nat (length toks))%Z.
Hypothesis Htok : Forall (tok_in n) toks.
Hypothesis Hn : (n <= length mem)%nat.
Hypothesis Hi : (Z.of_nat n <= INT_MAX)%Z.
Lemma loop_f fuel : forall i c w, (0 <= i)%Z -> (Z.to_nat (r - i) < fuel)%nat -> mfine (claims_loop fuel p e mem a r i c) w.
Proof.
  induction fuel as [|f IH]; intros i c w H0 H1; [lia|]. cbn [claims_loop].
  destruct (negb (i <? r)%Z) eqn:Ei; [exact I|]. cbv zeta.
  apply mb_lift; [apply tok_at_f|intros key Hk]. apply mb_lift; [apply tok_at_f|intros value Hv].
  destruct (_ || _) eqn:Eb; [exact I|]. apply mb_lift; [apply claim_type_f; lia|intros [[type i']|] Hc; [|exact I]].
  pose proof (claim_type_next p e mem n toks cap r junk Hp Hn _ _ _ _ Hc) as Hnx.
  destruct (unescape_tok p mem n toks Hp Hn Hi type key value w) as (km & vm & E1 & E2 & E3);
    [eapply (tok_at_real p mem n toks cap r junk); eauto; lia|eapply (tok_at_real p mem n toks cap r junk); eauto; lia|].
  apply mb_lift; [apply at_off_f|intros km' E]. rewrite E1 in E. inversion E; subst km'.
  apply mb_lift; [apply at_off_f|intros vm' E']. rewrite E2 in E'. inversion E'; subst vm'.
  destruct (unescape_fun_ret p type (span mem key) (span mem value) w) as (rc & oc & w1 & E4 & _).
  unfold mfine, mbind. rewrite E3, E4. destruct oc as [x|]; [|exact I].
  destruct (cb_push_total _ c [x] w1) as (c1 & E5). rewrite E5. apply IH; lia.
Qed.
End Loop.
Lemma parse_f p e c q len w : wf w -> uses_jsmn e -> (32 <= p_size_bits p)%N -> mfine (l8w8jwt_parse_claims p e c q len) w.
Proof.
  intros Hwf Hj Hp. unfold l8w8jwt_parse_claims. apply mb_lift; [apply deref_f|intros mem _].
  apply mb_lift; [apply take_f|intros js Ht]. apply take_inv in Ht as [Hl Ejs].
  destruct (Z.ltb_spec INT_MAX (Z.of_N len)) as [Hm|Hm]; [exact I|]. cbv zeta. rewrite !Hj.
  destruct (Z.eqb_spec (fst (jsmn_parse js None)) 0) as [E0|E0]; [exact I|].
  destruct (Z.ltb_spec (fst (jsmn_parse js None)) 0) as [E1|E1]; [exact I|].
  destruct (jsmn_parse js None) as [r tn] eqn:Ej. cbn [fst] in *.
  destruct (jsmn_two_passes _ _ _ Ej E1) as (r2 & toks & Ej2 & Hr2). rewrite Ej2.
  set (a := TokArr toks (if (r <=? 64)%Z then 64 else r) (e_tok_junk e)).
  assert (G : forall w1 blk, wf w1 -> match blk with Some id => w_live w1 id = true | None => True end ->
    mfine (if (r2 <? 0)%Z then mret (L8W8JWT_DECODE_FAILED_INVALID_TOKEN_FORMAT, c)
      else t0 <- lift (tok_at a 0) ;;
          '(rc, buffer) <-
            (if negb (jtype_eqb (t_type t0) JObject)
             then mret (L8W8JWT_DECODE_FAILED_INVALID_TOKEN_FORMAT, c)
             else claims_loop (S (Z.to_nat r2)) p e mem a r2 1 c) ;;
          _ <- (match blk with Some id => free_id id | None => mret tt end) ;;
          mret (rc, buffer)) w1).
  { intros w1 blk W1 Hb. destruct (Z.ltb_spec r2 0) as [E2|E2]; [exact I|]. destruct Hr2 as [->|Hr2]; [|lia].
    destruct (jsmn_tokens _ _ _ _ Ej2 E2) as [Hlen Htok].
    destruct (before_nul_firstn (N.to_nat len) mem) as (B1 & B2 & B3). rewrite <- Ejs in B1, B2, B3.
    apply mb_lift; [apply tok_at_f|intros t0 _]. apply mb_bind.
    { destruct (negb _); [exact I|]. apply (loop_f p e mem (length (before_nul js)) toks _ r); auto; lia. }
    intros [rc buf] w2 H2. apply mb_bind; [|intros; exact I]. destruct blk as [id|]; [|exact I].
    assert (L : w_live w2 id = true).
    { destruct (negb _); [inversion H2; subst; exact Hb|].
      destruct (claims_loop_inv _ _ _ _ _ _ _ _ _ _ _ _ W1 H2) as (new & lost & (_ & _ & _ & _ & _ & _ & Hlv) & _). apply Hlv; auto. }
    eapply mb_ret, free_id_eq, L. }
  destruct (r <=? 64)%Z eqn:E64.
  - apply mb_bind; [exact I|]. intros o w1 H. inversion H; subst. exact (G w1 None Hwf I).
  - apply mb_bind.
    + unfold mfine, mbind. rewrite alloc_eq. destruct (w_alloc w (w_next w)); exact I.
    + intros o w1 H. minvas H as o' w2 H2. rewrite alloc_eq in H2. destruct (w_alloc w (w_next w)); inversion H2; subst; inversion H; subst.
      * cbn [option_map]. apply (G (w_ok w) (Some (w_next w)) (wf_ok _ Hwf)). cbn [w_ok w_live]. apply upd_live_same.
      * exact I.
Qed.

Lemma body_f p e dp c w : wf w -> uses_jsmn e -> (32 <= p_size_bits p)%N ->
  (dp_verification_key_length dp <= L8W8JWT_MAX_KEY_SIZE)%N -> mfine (decode_body p e dp c) w.
Proof.
  intros Hwf Hj Hp Hk. unfold decode_body. apply mb_bind; [apply segments_f; exact Hwf|intros [rc sg] w1 H1].
  destruct (negb _); [exact I|]. apply decode_segments_inv in H1 as (A1 & _ & _); [|exact Hwf].
  assert (W1 : wf w1) by (eapply adds_wf; eauto).
  apply mb_bind; [apply verify_f; auto|intros [r2 res] w2 H2]. apply verify_signature_inv in H2 as [Q _]; [|exact W1].
  assert (W2 : wf w2) by (eapply wf_quiet; eauto). destruct (negb _); [exact I|].
  apply mb_bind; [apply parse_f; auto|intros [r3 c3] w3 H3].
  apply parse_claims_inv in H3 as (_ & _ & n3 & l3 & _ & _ & (_ & _ & _ & A3) & _); [|exact W2].
  assert (W3 : wf w3) by (eapply adds_wf; eauto). destruct (negb _); [exact I|].
  apply mb_bind; [apply parse_f; auto|intros [r4 c4] w4 _]. destruct (negb _); [exact I|].
  apply mb_lift; [apply validate_f|intros; exact I].
Qed.

(** ** The decode functions *)
Lemma key_bound p dp : l8w8jwt_validate_decoding_params p (Some dp) = L8W8JWT_SUCCESS ->
  (dp_verification_key_length dp <= L8W8JWT_MAX_KEY_SIZE)%N.
Proof.
  unfold l8w8jwt_validate_decoding_params. destruct (is_null _ || is_null _); [discriminate|].
  destruct (N.ltb_spec L8W8JWT_MAX_KEY_SIZE (dp_verification_key_length dp)); [|auto].
  rewrite orb_true_r. discriminate.
Qed.

Theorem C56_decode_no_corruption :
  forall p e params vn cn ln w,
    wf w -> uses_jsmn e -> (32 <= p_size_bits p)%N -> init_ok p w ->
    ends_with read_fault (l8w8jwt_decode p e params vn cn ln w).
Proof.
  intros p e [dp|] vn cn ln w Hwf Hj Hp Hi; [|unfold l8w8jwt_decode; destruct (cn && negb ln); exact I].
  destruct (cn && negb ln) eqn:Ec; [unfold l8w8jwt_decode; rewrite Ec; exact I|].
  destruct (Z.eqb_spec (l8w8jwt_validate_decoding_params p (Some dp)) L8W8JWT_SUCCESS) as [Ev|Ev].
  2:{ unfold l8w8jwt_decode. rewrite Ec. apply Z.eqb_neq in Ev. rewrite Ev. cbn [negb]. exact I. }
  destruct vn.
  2:{ unfold l8w8jwt_decode. rewrite Ec, Ev. exact I. }
  destruct (w_alloc w (w_next w)) eqn:Ea.
  - pose proof (body_f p e dp (CB (w_next w) []) (w_ok w) (wf_ok _ Hwf) Hj Hp (key_bound _ _ Ev)) as B.
    unfold mfine in B. destruct (decode_body p e dp (CB (w_next w) []) (w_ok w)) as [st w1|u] eqn:H.
    + destruct (decode_finish p e dp cn ln w st w1 Hwf Ec Ev Ea H) as (w' & ->). exact I.
    + unfold l8w8jwt_decode. rewrite Ec, Ev. change (negb (L8W8JWT_SUCCESS =? L8W8JWT_SUCCESS)%Z) with false. cbn [negb].
      unfold mbind at 1. rewrite cb_init_eq, Ea. unfold mbind at 1. rewrite H. exact B.
  - unfold l8w8jwt_decode. rewrite Ec, Ev. change (negb (L8W8JWT_SUCCESS =? L8W8JWT_SUCCESS)%Z) with false. cbn [negb].
    unfold mbind at 1. rewrite cb_init_eq, Ea. cbn [free_claims_buffer].
    destruct Hi as [->|Hi]; [exact I|congruence].
Qed.
Print Assumptions C56_decode_no_corruption.

Theorem C56_decode_raw_no_corruption :
  forall p e params vn hn hl pn pl sn sl w,
    wf w -> uses_jsmn e -> (32 <= p_size_bits p)%N -> init_ok p w ->
    ends_with read_fault (l8w8jwt_decode_raw p e params vn hn hl pn pl sn sl w)
    /\ ends_with read_fault (l8w8jwt_decode_raw_no_validation p params hn hl pn pl sn sl w).
Proof.
  intros p e [dp|] vn hn hl pn pl sn sl w Hwf Hj Hp Hi; [|split; exact I]. split.
  - destruct (Z.eqb_spec (l8w8jwt_validate_decoding_params p (Some dp)) L8W8JWT_SUCCESS) as [Ev|Ev].
    2:{ unfold l8w8jwt_decode_raw. destruct (_ || _ || _ || _); [exact I|]. apply Z.eqb_neq in Ev. rewrite Ev. exact I. }
    pose proof (body_f p e dp (CB (w_next w) []) (w_ok w) (wf_ok _ Hwf) Hj Hp (key_bound _ _ Ev)) as B.
    unfold mfine in B. destruct (decode_body p e dp (CB (w_next w) []) (w_ok w)) as [st w1|u] eqn:H.
    + destruct (decode_raw_finish p e dp vn hn hl pn pl sn sl w Hwf Hi) as (r & w' & ->); [|exact I]. eauto.
    + destruct (w_alloc w (w_next w)) eqn:Ea.
      * unfold l8w8jwt_decode_raw. destruct (_ || _ || _ || _); [exact I|]. rewrite Ev.
        change (negb (L8W8JWT_SUCCESS =? L8W8JWT_SUCCESS)%Z) with false. cbv iota.
        unfold mbind at 1. rewrite cb_init_eq, Ea. unfold mbind at 1. rewrite decode_raw_body_eq. unfold mbind at 1.
        rewrite H. exact B.
      * destruct (decode_raw_finish p e dp vn hn hl pn pl sn sl w Hwf Hi) as (r & w' & ->); [congruence|exact I].
  - unfold l8w8jwt_decode_raw_no_validation. destruct (_ || _ || _ || _); [exact I|]. cbv zeta.
    destruct (negb _); [exact I|]. change (mfine (' pat <- l8w8jwt_decode_segments p dp ;; (let (r, sg) := pat in
          h <- give_or_free hn (sg_header sg) ;;
          pl <- give_or_free pn (sg_payload sg) ;;
          s <- give_or_free sn (sg_signature sg) ;;
          mret (RawRes r None h pl s))) w).
    apply mb_bind; [apply segments_f; exact Hwf|intros [rc sg] w1 H1].
    apply decode_segments_inv in H1 as (A & (S1 & S2 & S3) & _); [|exact Hwf]. unfold segs_blocks in A.
    destruct (give_or_free_ok w w1 hn _ [] _ Hwf S1 A) as (w2 & F2 & A2). unfold mfine. mstep F2. cbn [app] in A2.
    destruct (give_or_free_ok w w2 pn _ _ _ Hwf S2 A2) as (w3 & F3 & A3). mstep F3. rewrite app_assoc in A3.
    rewrite <- (app_nil_r (seg_blocks (sg_signature sg))) in A3.
    destruct (give_or_free_ok w w3 sn _ _ _ Hwf S3 A3) as (w4 & F4 & A4). mstep F4. exact I.
Qed.
Print Assumptions C56_decode_raw_no_corruption.

(** ** The encoder *)
(** The escape table is indexed with a plain [char]; a negative one reads in front of the table
    (C10). Beside the faults above this is the only one the encoder can run into. *)
Definition enc_fault (u : ub) : Prop := read_fault u \/ u = BadIndex.
Definition efine {A} (m : M A) (w : world) : Prop := ends_with enc_fault (m w).
Lemma ef_bind {A B} (m : M A) (k : A -> M B) w :
  efine m w -> (forall a w', m w = Ret a w' -> efine (k a) w') -> efine (mbind m k) w.
Proof. unfold efine, mbind. destruct (m w); cbn; auto. Qed.
Lemma ef_lift {A B} (u : U A) (k : A -> M B) w :
  ufine u -> (forall a, u = OK a -> efine (k a) w) -> efine (mbind (lift u) k) w.
Proof. unfold efine, mbind, lift, enc_fault. destruct u; cbn; auto. Qed.
Lemma ef_push {A B} (b : chillbuff A) x (k : chillbuff A -> M B) w :
  (forall b', cb_id b' = cb_id b -> efine (k b') (w_push w)) -> efine (mbind (cb_push b x) k) w.
Proof. intros H. destruct (push_step _ b x w) as (b' & E & I & _). unfold efine. mstep E. apply H, I. Qed.
Lemma ef_free {B} i (k : unit -> M B) w :
  w_live w i = true -> efine (k tt) (w_free w i) -> efine (mbind (free_id i) k) w.
Proof. intros H K. unfold efine, mbind. rewrite free_id_eq by exact H. exact K. Qed.

Lemma escape_each_f p s : forall sb w, efine (escape_each p sb s) w.
Proof.
  induction s as [|c s IH]; intros sb w; [exact I|]. cbn [escape_each]. unfold escape_lookup.
  destruct (char_val p c <? 0)%Z; [right; reflexivity|]. apply ef_lift; [exact I|intros o _]. apply ef_push. intros. apply IH.
Qed.
Lemma escape_string_f p sb q n w : efine (l8w8jwt_escape_claim_string p sb q n) w.
Proof.
  unfold l8w8jwt_escape_claim_string. destruct (n =? 0)%N; [exact I|]. apply ef_lift; [apply deref_f|intros m _].
  apply ef_lift; [apply take_f|intros s _]. apply escape_each_f.
Qed.
Lemma write_each_f p cs : forall sb eb n first w, efine (write_each p sb eb cs n first) w.
Proof.
  induction cs as [|c cs IH]; intros sb eb n first w; cbn [write_each]; destruct (n =? 0)%N; try exact I; [left; exact I|].
  destruct (is_null (c_key c)); [apply IH|].
  apply ef_bind; [destruct first; [exact I|destruct (push_step _ sb (lit ",") w) as (b' & E & _); unfold efine; rewrite E; exact I]|].
  intros sb1 w1 _. apply ef_lift; [apply los_f|intros kl _]. apply ef_lift; [apply los_f|intros vl _]. cbv zeta.
  apply ef_bind; [apply escape_string_f|intros eb2 w2 _]. do 3 (apply ef_push; intros ? _).
  apply ef_bind; [|intros [sb5 eb5] w5 _; apply IH].
  destruct (c_type c =? L8W8JWT_CLAIM_TYPE_STRING)%Z.
  - apply ef_push; intros ? _. apply ef_bind; [apply escape_string_f|intros eb3 w3 _].
    do 2 (apply ef_push; intros ? _). exact I.
  - destruct (vl =? 0)%N; [exact I|]. apply ef_lift; [apply deref_f|intros m _]. apply ef_lift; [apply take_f|intros v _].
    apply ef_push; intros ? _. exact I.
Qed.
Lemma write_claims_f p sb claims n w : wf w -> efine (l8w8jwt_write_claims p sb claims n) w.
Proof.
  intros Hwf. unfold l8w8jwt_write_claims. destruct claims as [|b cs]; [exact I|]. destruct (n =? 0)%N; [exact I|].
  unfold efine, mbind at 1. rewrite cb_init_eq. destruct (w_alloc w (w_next w)); [|exact I].
  apply ef_bind; [apply write_each_f|intros sb' w1 H]. apply write_each_inv in H as (Q & _).
  apply ef_free; [|exact I]. cbn [cb_id]. eapply quiet_live; [exact Q|]. cbn. apply upd_live_same.
Qed.
Lemma opt_claims_f p buff claims n (sep : bool) w : wf w ->
  efine (if (0 <? n)%N
   then (buff <- (if sep then cb_push buff (lit ",") else mret buff) ;;
         r <- l8w8jwt_write_claims p buff claims n ;; mret (snd r))
   else mret buff) w.
Proof.
  intros Hwf. destruct (0 <? n)%N; [|exact I]. destruct sep.
  - apply ef_push. intros b' _. apply ef_bind; [apply write_claims_f, wf_push, Hwf|intros; exact I].
  - apply ef_bind; [exact I|intros b' w' E]. inversion E; subst. apply ef_bind; [apply write_claims_f, Hwf|intros; exact I].
Qed.
Lemma b64enc_f p url q n on ln w : (6 <= p_size_bits p)%N ->
  mfine (l8w8jwt_base64_encode p url q n on ln) w.
Proof.
  intros Hp. destruct on, ln, q as [|b mem];
    try (unfold l8w8jwt_base64_encode; cbn [negb is_null orb]; exact I).
  destruct (N.ltb_spec n (size_mod p)) as [Hm|Hm].
  2:{ unfold l8w8jwt_base64_encode. cbn [negb is_null orb].
      assert (H0 : (0 < size_mod p)%N) by (unfold size_mod; apply N.neq_0_lt_0, N.pow_nonzero; lia).
      destruct (N.eqb_spec n 0); [lia|].
      assert (Ho : (b64_olen p n <? n)%N = true).
      { apply N.ltb_lt. eapply N.lt_le_trans; [|exact Hm]. unfold b64_olen. apply N.mod_lt. lia. }
      rewrite Ho. exact I. }
  destruct (N.leb_spec n (N.of_nat (length mem))) as [Hl|Hl].
  - unfold mfine. destruct (encode_cases p url b mem n w Hp Hm Hl)
      as [(_ & E)|[(_ & _ & E)|[(_ & _ & _ & E)|[(_ & _ & _ & _ & _ & E)|(_ & _ & _ & _ & rest & E & _)]]]]; rewrite E; exact I.
  - unfold l8w8jwt_base64_encode. cbn [negb is_null orb]. destruct (n =? 0)%N; [exact I|].
    cbv zeta. destruct (_ <? _)%N; [exact I|]. unfold mfine, mbind at 1. rewrite malloc_eq.
    destruct (w_alloc w (w_next w)); [|exact I]. apply mb_lift; [exact I|intros m E; inversion E; subst m].
    apply mb_lift; [apply take_f|intros s E']. apply take_inv in E' as [E' _]. lia.
Qed.
Lemma encode_segment_f p q n w : (6 <= p_size_bits p)%N -> efine (encode_segment p q n) w.
Proof.
  intros Hp. unfold encode_segment. apply ef_bind.
  - pose proof (b64enc_f p true q n true true w Hp) as H. unfold mfine, efine in *.
    destruct (l8w8jwt_base64_encode p true q n true true w); [exact I|left; exact H].
  - intros r w1 H. destruct (negb (b_rc r =? L8W8JWT_SUCCESS)%Z) eqn:Er; [exact I|].
    assert (Ho : exists s l, b_out r = Some s /\ b_len r = Some l).
    { unfold l8w8jwt_base64_encode in H. destruct (_ || _); [inversion H; subst; discriminate|].
      destruct (n =? 0)%N; [inversion H; subst; discriminate|]. cbv zeta in H.
      destruct (_ <? _)%N; [inversion H; subst; discriminate|]. minvas H as o w2 Hm.
      destruct o as [|blk buf]; [inversion H; subst; discriminate|].
      minvas H as mem w3 Hm2. minvas H as d w4 Hm3. minvas H as [buf' l] w5 Hm4. inversion H; subst. cbn. eauto. }
    destruct Ho as (s & l & -> & ->). apply ef_lift; [apply deref_f|intros m _]. apply ef_lift; [apply take_f|intros t _]. exact I.
Qed.

(** The RSA modulus of a key that mbedtls lets sign PSS fits the signature buffer (mbedtls stops
    at 1024 bytes, MBEDTLS_MPI_MAX_SIZE; the buffer has 4096). *)
Definition rsa_fits (e : env) : Prop :=
  forall k pw n key, e_parse_key e k pw n = Some key -> e_can_do e key PK_RSASSA_PSS = true ->
    (e_rsa_len e key <= 4096)%N.
Lemma sign_f p e ep key kl msg : rsa_fits e -> ufine (sign_switch p e ep key kl msg).
Proof.
  intros Hl. assert (Hhs : forall a, ufine (sign_hs e a key kl msg)) by (intros a; unfold sign_hs; uf; apply take_f).
  assert (Hrs : ufine (sign_rs e ep key kl msg)).
  { unfold sign_rs. destruct (md_info_from_alg _); [|exact I]. apply ub_bind; [apply take_f|intros k _].
    destruct (e_parse_key _ _ _ _); [|exact I]. destruct (_ && _); [exact I|]. destruct (_ <? _)%N; [exact I|].
    destruct (e_md _ _ _); [|exact I]. destruct (e_pk_sign _ _ _ _); exact I. }
  assert (Hps : ufine (sign_ps e ep key kl msg)).
  { unfold sign_ps. destruct (md_info_from_alg _); [|exact I]. apply ub_bind; [apply take_f|intros k _].
    destruct (e_parse_key _ _ _ _) as [pk|] eqn:Ek; [|exact I]. destruct (e_can_do e pk PK_RSASSA_PSS) eqn:Ec; [|exact I].
    cbn [negb]. destruct (_ <? _)%N; [exact I|]. destruct (e_md _ _ _); [|exact I]. destruct (negb _); [exact I|].
    apply Hl in Ek; auto. destruct (N.ltb_spec SIGBUF (e_rsa_len e pk)) as [H|_]; [unfold SIGBUF in H; lia|].
    destruct (e_pss_sign _ _ _ _); exact I. }
  assert (Hes : ufine (sign_es e ep key kl msg)).
  { unfold sign_es. destruct (md_info_from_alg _); [|exact I]. apply ub_bind; [apply take_f|intros k _].
    destruct (e_parse_key _ _ _ _); [|exact I]. do 3 (destruct (negb _); [exact I|]). destruct (e_md _ _ _); [|exact I].
    destruct (es_params _) as [[[? ?] ?]|]; [|exact I]. do 2 (destruct (negb _); [exact I|]).
    destruct (e_ecdsa_sign _ _ _) as [[? ?]|]; [|exact I]. destruct (mpi_write_binary _ _); [|exact I].
    destruct (mpi_write_binary _ _); exact I. }
  assert (Hed : ufine (sign_ed p e ep msg)).
  { unfold sign_ed. destruct (negb _); [exact I|]. destruct (ep_secret_key ep) as [|b m]; [exact I|]. cbn [deref ubind].
    cbv zeta. apply ub_bind; [uf; apply read_at_f|intros ok _]. destruct (negb ok); [exact I|].
    destruct (hexstr_f p b m (ep_secret_key_length ep) None (repeat x00 65) 65 false) as [H1 H2];
      [rewrite repeat_length; lia|].
    apply ub_bind; [exact H1|intros [[r out] l] E]. destruct (Z.eqb_spec r 0) as [->|]; [|exact I]. cbn [negb].
    apply H2 in E; auto. destruct out; [exact I|congruence]. }
  unfold sign_switch. destruct (ep_alg ep) as [|a|a]; auto; try exact I.
  do 4 (destruct a as [a|a|]; auto; try exact I).
Qed.

Lemma whp_f p sb ep w : (6 <= p_size_bits p)%N -> wf w -> efine (write_header_and_payload p sb ep) w.
Proof.
  intros Hp Hwf. unfold write_header_and_payload, efine, mbind at 1. rewrite cb_init_eq.
  destruct (w_alloc w (w_next w)); [|exact I].
  set (w0 := w_ok w). assert (W0 : wf w0) by (apply wf_ok; auto).
  assert (Hlive : w_live w0 (w_next w) = true) by (unfold w0; cbn; apply upd_live_same).
  assert (Hend : forall A (a : A) b w1, quiet w0 w1 -> cb_id b = w_next w -> efine (_ <- cb_free (A := byte) b ;; mret a) w1).
  { intros A a b w1 Q E. unfold cb_free. rewrite E. apply ef_free; [eapply quiet_live; eauto|exact I]. }
  match goal with |- ends_with enc_fault (?m w0) => change (efine m w0) end.
  destruct (header_prefix (ep_alg ep)) as [h|]; [|apply Hend; [apply quiet_refl|reflexivity]].
  apply ef_push. intros b1 I1. apply ef_bind; [exact (opt_claims_f p b1 _ _ true _ (wf_push _ W0))|intros b2 w2 H2].
  apply (opt_claims_inv p b1 _ _ true w0) in H2 as (Q2 & I2 & _); [|apply later_push|apply wf_push; auto].
  apply ef_push. intros b3 I3.
  assert (Q3 : quiet w0 (w_push w2)) by (eapply quiet_trans; [apply quiet_push|]; eapply quiet_trans; [exact Q2|apply quiet_push]).
  assert (W3 : wf (w_push w2)) by (eapply wf_quiet; eauto). set (w3 := w_push w2) in *. clearbody w3.
  assert (E3 : cb_id b3 = w_next w) by (rewrite I3, I2, I1; reflexivity).
  apply ef_bind; [apply encode_segment_f; exact Hp|intros [[r1 seg1] s1] w4 H]. apply encode_seg_inv in H; auto.
  destruct H as [(Hr & -> & -> & Q4)|(-> & _ & _ & _ & _ & -> & (m1 & ->) & _)].
  { destruct (Z.eqb_spec r1 L8W8JWT_SUCCESS); [congruence|]. apply Hend; auto. eapply quiet_trans; eauto. }
  cbn [negb Z.eqb L8W8JWT_SUCCESS]. apply ef_push. intros sb1 _. cbv zeta. cbn [free].
  apply ef_free; [cbn; apply upd_live_same|]. set (w5 := w_free (w_push (w_ok w3)) (w_next w3)).
  assert (Q5 : quiet w0 w5).
  { eapply quiet_trans; [exact Q3|]. apply quiet_alloc_free; [exact W3|apply quiet_push]. }
  clearbody w5. rewrite iatnbfexp_eq. apply ef_lift; [exact I|intros tbuf _]. apply ef_push. intros b4 I4.
  assert (Q6 : quiet w0 (w_push w5)) by (eapply quiet_trans; [exact Q5|apply quiet_push]).
  assert (W6 : wf (w_push w5)) by (eapply wf_quiet; eauto). set (w6 := w_push w5) in *. clearbody w6.
  apply ef_bind; [apply write_claims_f; exact W6|intros [r5 b5] w7 H5]. apply write_claims_inv in H5 as (Q7 & I5 & _); [|exact W6].
  cbn [snd]. assert (Q7' : quiet w0 w7) by (eapply quiet_trans; eauto). assert (W7 : wf w7) by (eapply wf_quiet; eauto).
  apply ef_bind; [apply opt_claims_f; exact W7|intros b6 w8 H6].
  apply (opt_claims_inv p b5 _ _ _ w7) in H6 as (Q8 & I6 & _); [|apply quiet_later, quiet_refl|exact W7].
  apply ef_push. intros b7 I7.
  assert (Q9 : quiet w0 (w_push w8)).
  { eapply quiet_trans; [exact Q7'|]. eapply quiet_trans; [exact Q8|apply quiet_push]. }
  assert (W9 : wf (w_push w8)) by (eapply wf_quiet; eauto). set (w9 := w_push w8) in *. clearbody w9.
  assert (E7 : cb_id b7 = w_next w) by (rewrite I7, I6, I5, I4; exact E3).
  apply ef_bind; [apply encode_segment_f; exact Hp|intros [[r2 seg2] s2] w10 H]. apply encode_seg_inv in H; auto.
  destruct H as [(Hr & -> & -> & Q10)|(-> & _ & _ & _ & _ & -> & (m2 & ->) & _)].
  { destruct (Z.eqb_spec r2 L8W8JWT_SUCCESS); [congruence|]. apply Hend; auto. eapply quiet_trans; eauto. }
  cbn [negb Z.eqb L8W8JWT_SUCCESS]. do 2 (apply ef_push; intros ? _). cbn [free].
  apply ef_free; [cbn; apply upd_live_same|]. apply Hend; auto.
  eapply quiet_trans; [exact Q9|]. apply quiet_alloc_free; [exact W9|]. eapply quiet_trans; apply quiet_push.
Qed.

Lemma wsb_f p e sb ep w : (6 <= p_size_bits p)%N -> rsa_fits e ->
  (ep_secret_key_length ep <= L8W8JWT_MAX_KEY_SIZE)%N -> efine (write_signature_body p e sb ep) w.
Proof.
  intros Hp Hl Hk. unfold write_signature_body. apply ef_lift; [apply load_key_f; exact Hk|intros key _].
  apply ef_lift; [apply adjust_f|intros kl _]. destruct (negb _); [exact I|].
  apply ef_lift; [apply sign_f; exact Hl|intros [[r buf] n] _]. destruct (negb _); [exact I|]. destruct (n =? 0)%N; [exact I|].
  apply ef_bind; [apply encode_segment_f; exact Hp|intros [[r1 seg] s] w1 _]. destruct (negb _); [exact I|].
  do 2 (apply ef_push; intros ? _). exact I.
Qed.
Local Opaque SIGBUF.
Lemma ws_f p e sb ep w : (6 <= p_size_bits p)%N -> rsa_fits e -> wf w ->
  (ep_secret_key_length ep <= L8W8JWT_MAX_KEY_SIZE)%N -> efine (write_signature p e sb ep) w.
Proof.
  intros Hp Hl Hwf Hk. unfold write_signature.
  assert (Hbody : forall w, wf w -> efine (write_signature_body p e sb ep) w
    /\ forall rc sb' sg w1, write_signature_body p e sb ep w = Ret (rc, sb', sg) w1 ->
       (forall i, w_live w i = true -> w_live w1 i = true) /\
       exists w2, free sg w1 = Ret tt w2 /\ quiet w w2).
  { clear -Hp Hk Hl. intros w Hwf. split; [apply wsb_f; auto|]. intros rc sb' sg w1 H.
    apply wsb_inv in H; auto. destruct H as [(_ & _ & -> & Q)|(_ & _ & Q & (m & ->) & _)].
    - split; [intros i; apply quiet_live; exact Q|]. exists w1. split; [reflexivity|exact Q].
    - split.
      + intros i Hi. eapply quiet_live; [exact Q|]. cbn. unfold upd_live. destruct (Nat.eqb _ _); auto.
      + exists (w_free w1 (w_next w)). cbn [free]. split; [|apply quiet_alloc_free; auto].
        apply free_id_eq. eapply quiet_live; [exact Q|]. cbn. apply upd_live_same. }
  destruct (p_small_stack p).
  - unfold efine, mbind at 1. rewrite calloc_eq. destruct (w_alloc w (w_next w)) eqn:Ea.
    + unfold mbind at 1. rewrite calloc_eq. destruct (w_alloc (w_ok w) (w_next (w_ok w))) eqn:Eb; cbn [is_null orb].
      * match goal with |- ends_with enc_fault (?m ?x) => change (efine m x) end.
        set (w2 := w_ok (w_ok w)). assert (W2 : wf w2) by (apply wf_ok, wf_ok, Hwf).
        destruct (Hbody w2 W2) as [B1 B2]. apply ef_bind; [exact B1|intros [[rc sb'] sg] w3 H3].
        destruct (B2 _ _ _ _ H3) as (L & w4 & F & Q).
        assert (K1 : w_live w2 (w_next (w_ok w)) = true) by (unfold w2; cbn; apply upd_live_same).
        assert (K2 : w_live w2 (w_next w) = true).
        { unfold w2. cbn [w_ok w_live w_next]. rewrite upd_live_other by lia. apply upd_live_same. }
        unfold efine, mbind at 1, zeroize.
        replace (negb _) with false by (rewrite repeat_length; symmetry; apply negb_false_iff, N.leb_le; lia).
        rewrite (L _ K1). unfold mbind at 1. rewrite F. cbn [free].
        match goal with |- ends_with enc_fault (?m ?x) => change (efine m x) end.
        apply ef_free; [eapply quiet_live; eauto|]. apply ef_free; [|exact I].
        cbn [w_free w_live]. rewrite upd_live_other by (cbn; lia). eapply quiet_live; eauto.
      * left. exact I.
    + unfold mbind at 1. rewrite calloc_eq. destruct (w_alloc (w_no w) (w_next (w_no w))) eqn:Eb; cbn [is_null orb].
      * match goal with |- ends_with enc_fault (?m ?x) => change (efine m x) end.
        set (w2 := w_ok (w_no w)). apply ef_bind; [exact I|intros [[rc sb'] sg] w3 H3]. inversion H3; subst.
        assert (K1 : w_live w2 (w_next (w_no w)) = true) by (unfold w2; cbn; apply upd_live_same).
        unfold efine, mbind at 1, zeroize.
        replace (negb _) with false by (rewrite repeat_length; symmetry; apply negb_false_iff, N.leb_le; lia).
        rewrite K1. unfold mbind at 1. cbn [free]. unfold mret at 1.
        match goal with |- ends_with enc_fault (?m ?x) => change (efine m x) end.
        apply ef_free; [exact K1|]. exact I.
      * left. exact I.
  - destruct (Hbody w Hwf) as [B1 B2]. apply ef_bind; [exact B1|intros [[rc sb'] sg] w3 H3].
    destruct (B2 _ _ _ _ H3) as (_ & w4 & F & _). unfold efine, mbind at 1. rewrite F. exact I.
Qed.

Theorem C56_encode_no_corruption :
  forall p e params w,
    wf w -> (6 <= p_size_bits p)%N -> rsa_fits e ->
    ends_with enc_fault (l8w8jwt_encode p e params w).
Proof.
  intros p e [ep|] w Hwf Hp Hl; [|exact I]. unfold l8w8jwt_encode.
  destruct (negb (l8w8jwt_validate_encoding_params (Some ep) =? L8W8JWT_SUCCESS)%Z) eqn:Ev; [exact I|].
  assert (Hk : (ep_secret_key_length ep <= L8W8JWT_MAX_KEY_SIZE)%N).
  { clear -Ev. unfold l8w8jwt_validate_encoding_params in Ev. destruct (_ || _ || _); [discriminate|].
    destruct (N.ltb_spec L8W8JWT_MAX_KEY_SIZE (ep_secret_key_length ep)); [|auto].
    rewrite orb_true_r in Ev. discriminate. }
  clear Ev. unfold mbind at 1. rewrite cb_init_eq. destruct (w_alloc w (w_next w)); [|exact I].
  pose proof (wf_ok _ Hwf) as W1.
  match goal with |- ends_with enc_fault (?m ?x) => change (efine m x) end.
  assert (B : efine (encode_body p e (CB (w_next w) []) ep) (w_ok w)).
  { unfold encode_body. apply ef_bind; [apply whp_f; auto|intros [r1 sb1] w2 H1].
    apply whp_inv in H1 as (Q1 & _); auto. assert (W2 : wf w2) by (eapply wf_quiet; eauto).
    destruct (negb _); [exact I|]. apply ef_bind; [destruct (negb _); [apply ws_f; auto|exact I]|intros [r2 sb2] w3 _].
    destruct (negb _); [exact I|]. destruct (write_token_total sb2 w3) as (res & w4 & H3). unfold efine. mstep H3. exact I. }
  apply ef_bind; [exact B|intros [res sb'] w' H].
  assert (Q : cb_id sb' = w_next w /\ w_live w' (w_next w) = true).
  { assert (L : w_live (w_ok w) (w_next w) = true) by (cbn; apply upd_live_same).
    unfold encode_body in H. minvas H as [r1 sb1] w2 H1. apply whp_inv in H1 as (Q1 & I1 & _); auto. cbn [cb_id] in I1.
    destruct (negb _); [inversion H; subst; split; [exact I1|eapply quiet_live; eauto]|].
    assert (W2 : wf w2) by (eapply wf_quiet; eauto). minvas H as [r2 sb2] w3 H2.
    assert (H2' : quiet w2 w3 /\ cb_id sb2 = cb_id sb1).
    { destruct (negb (ep_alg ep =? -1)%Z); [apply ws_inv in H2; auto; tauto|inversion H2; subst; split; [apply quiet_refl|reflexivity]]. }
    destruct H2' as (Q2 & I2). assert (Q3 : quiet (w_ok w) w3) by (eapply quiet_trans; eauto).
    clear H2. destruct (negb _); [inversion H; subst; split; [congruence|eapply quiet_live; eauto]|].
    minvas H as res' w4 H3. inversion H; subst. split; [congruence|].
    apply write_token_inv in H3 as [(_ & _ & ->)|(_ & _ & ->)];
      [eapply quiet_live; [eapply quiet_trans; [exact Q3|apply quiet_no]|exact L]|].
    cbn [w_ok w_live]. unfold upd_live at 1. destruct (Nat.eqb _ _); [reflexivity|]. eapply quiet_live; eauto. }
  destruct Q as [I L]. unfold cb_free. rewrite I. apply ef_free; [exact L|exact Logic.I].
Qed.
Print Assumptions C56_encode_no_corruption.

Theorem C56_base64_no_corruption :
  forall p url q n on ln w, wf w -> (6 <= p_size_bits p)%N ->
    ends_with read_fault (l8w8jwt_base64_encode p url q n on ln w)
    /\ ends_with read_fault (l8w8jwt_base64_decode url q n on ln w).
Proof.
  intros p url q n on ln w Hwf Hp. split; [apply b64enc_f; exact Hp|].
  destruct on, ln, q as [|b mem];
    try (unfold l8w8jwt_base64_decode; cbn [negb is_null orb]; exact I).
  destruct (N.leb_spec n (N.of_nat (length mem))) as [H|H].
  - destruct (decode_cases url b mem n w Hwf H) as (r & w' & -> & _). exact I.
  - unfold l8w8jwt_base64_decode. cbn [is_null negb orb]. destruct (N.eqb_spec n 0); [lia|].
    match goal with |- ends_with read_fault (?m ?x) => change (mfine m x) end.
    apply mb_lift; [exact I|intros m E; inversion E; subst m]. apply mb_lift; [apply read_at_f|].
    intros c E'. unfold read_at in E'. destruct (N.ltb_spec (n - 1) (N.of_nat (length mem))); [lia|discriminate].
Qed.
Print Assumptions C56_base64_no_corruption.

(** The other functions of the library that touch memory. *)
Theorem C56_helpers_no_corruption :
  forall p e w, wf w ->
    (forall sb claims n, ends_with enc_fault (l8w8jwt_write_claims p sb claims n w))
    /\ (forall cs n k l u, l8w8jwt_get_claim cs n k l = KO u -> read_fault u)
    /\ (forall dp cs n r u, l8w8jwt_validate_claims p e dp cs n r = KO u -> read_fault u)
    /\ (forall c q len, uses_jsmn e -> (32 <= p_size_bits p)%N -> ends_with read_fault (l8w8jwt_parse_claims p e c q len w))
    /\ (forall a b n u, l8w8jwt_strncmpic p a b n = KO u -> read_fault u)
    /\ (forall b m n ob o size nn u, (size <= N.of_nat (length o))%N ->
          l8w8jwt_hexstr2bin p (Ptr b m) n (Ptr ob o) size nn = KO u -> read_fault u).
Proof.
  intros p e w Hwf.
  assert (G : forall A (m : U A) u, ufine m -> m = KO u -> read_fault u) by (intros A m u H ->; exact H).
  split; [intros; apply write_claims_f; exact Hwf|]. split; [intros; eapply G; [apply get_claim_f|eassumption]|].
  split; [intros; eapply G; [apply validate_f|eassumption]|]. split; [intros; apply parse_f; auto|].
  split; [intros; eapply G; [apply cmpic_f|eassumption]|].
  intros b m n ob o size nn u Hs. apply G, hexstr_f, Hs.
Qed.
Print Assumptions C56_helpers_no_corruption.

(** ** Termination *)
(** The two loops of the model whose step bound is not visible as [OutOfFuel] never reach it: any
    larger bound gives the same result. *)
Lemma dec_digits_more f : forall g n acc, (n < 10 ^ N.of_nat f)%N -> (0 < f)%nat ->
  dec_digits (f + g) n acc = dec_digits f n acc.
Proof.
  induction f as [|f IH]; intros g n acc H H0; [lia|]. cbn [dec_digits plus].
  destruct (N.ltb_spec n 10) as [|H10]; [reflexivity|]. apply IH.
  - rewrite Nat2N.inj_succ, N.pow_succ_r' in H. apply N.div_lt_upper_bound; lia.
  - destruct f; [|lia]. cbn in H. lia.
Qed.
Theorem C56_loops_end :
  (forall js cap extra, jmain (S (length js) + extra) cap js 0 [] 0 = jmain (S (length js)) cap js 0 [] 0)
  /\ (forall n extra, (n < 2 ^ 64)%N -> dec_digits (20 + extra) n [] = print_u64 n)
  /\ ~ enc_fault OutOfFuel.
Proof.
  split; [intros; apply jmain_fuel; lia|]. split.
  - intros n extra H. apply dec_digits_more; [|lia]. eapply N.lt_trans; [exact H|vm_compute; reflexivity].
  - intros [[]|H]. discriminate H.
Qed.
Print Assumptions C56_loops_end.

(** ** Examples: calls that do go wrong, and how *)
Definition raw_params (mem : bytes) (n : N) (k : bytes) (kl : N) : dec_params :=
  DecParams (Ptr None mem) n 0 Null 0 Null 0 Null 0 Null 0 false false false 0 0 0 (Ptr None k) kl Null 0.
Example C56_decode_example :
  wf we /\ uses_jsmn toy_num /\ (32 <= p_size_bits pe)%N /\ init_ok pe we
  (* a forged token with too many values *)
  /\ l8w8jwt_decode pe toy_num (Some (forged_params 60)) true true true we = Undef OOBRead
  (* a buffer without a NUL, a wrong length, a key length beyond the key *)
  /\ l8w8jwt_decode pe toy_num (Some (raw_params (lit "e30") 3 (clit "k") 1)) true true true we = Undef OOBRead
  /\ l8w8jwt_decode pe toy_num (Some (raw_params (clit "e30.e30.AAAA") 1 (clit "k") 1)) true true true we = Undef OOBRead
  /\ l8w8jwt_decode pe toy_num (Some (raw_params (clit "e30.e30.AAAA") 12 (clit "k") 100)) true true true we = Undef OOBRead
  (* nothing allocatable *)
  /\ (exists r w, l8w8jwt_decode pe toy_num (Some (forged_params 60)) true true true no_memory = Ret r w).
Proof.
  split; [apply we_wf|]. split; [intros js cap; reflexivity|]. split; [vm_compute; discriminate|]. split; [left; reflexivity|].
  repeat split; try (vm_compute; reflexivity). do 2 eexists; vm_compute; reflexivity.
Qed.
Example C56_encode_example :
  wf we /\ (6 <= p_size_bits pe)%N /\ rsa_fits toy
  /\ l8w8jwt_encode pe toy (Some (ep_with (Ptr None [xc3; xa9; x00]) 2 (zstr "secret") 6 0)) we = Undef BadIndex
  /\ l8w8jwt_encode pe toy (Some (ep_with (Ptr None (lit "me")) 200 (zstr "secret") 6 0)) we = Undef OOBRead
  /\ l8w8jwt_encode pe toy (Some (ep_with (zstr "me") 2 (zstr "secret") 600 0)) we = Undef OOBRead
  /\ l8w8jwt_base64_encode pe true (Ptr None (lit "me")) 3 true true we = Undef OOBRead
  /\ l8w8jwt_base64_decode true (Ptr None (lit "me")) 3 true true we = Undef OOBRead.
Proof.
  split; [apply we_wf|]. split; [vm_compute; discriminate|]. split; [intros k pw n key _ _; vm_compute; discriminate|].
  repeat split; vm_compute; reflexivity.
Qed.
