(** * Encoding when memory is short: specification and lemmas *)
From Verif Require Import Base BaseProofs HeapProofs Util UtilProofs Claim Base64 SpecB64
  Base64EncProofs Base64EncApi Base64DecProofs Base64Api Jsmn Env Encode Decode SpecJson SpecJwa ClaimProofs UnescapeProofs
  EncodeProofs SignProofs EncodeTotal SpecEnc JsonProofs PropEncode DecodeProofs DecodeInv ReadProofs
  CodeProofs EncCodeProofs Complete EncComplete EncRun EncSign.
From Coq Require Import ZifyBool ZifyNat ZifyN.
Ltac Zify.zify_post_hook ::= Z.div_mod_to_equations.
Local Opaque L8W8JWT_MAX_KEY_SIZE SIGBUF.

(** ** Specification *)
Section Short.
(** May an allocation be refused, and may an append be? *)
Variables no_mem no_room : Prop.
(** All the pieces, or if appends may be refused some of them, in order. *)
Definition kept (ps : list bytes) (t : bytes) : Prop := exists qs, subseq qs ps /\ t = concat qs /\ (qs = ps \/ no_room).
(** A member: name, is it written as a string, value. Its pieces are the separator, the quotes and the name and value
    as far as these were kept, character by character. *)
Record entry := Entry { en_name : bytes; en_string : bool; en_value : bytes }.
Inductive entry_short (first : bool) (x : entry) : bytes -> Prop :=
| Ey n v t : kept (map spelled (en_name x)) n ->
    (if en_string x then kept (map spelled (en_value x)) v else v = en_value x) ->
    kept ((if first then [] else [lit ","]) ++ [lit """"; n; lit """:"] ++ (if en_string x then [lit """"; v; lit """"] else [v])) t ->
    entry_short first x t.
Inductive entries_short : bool -> list entry -> bytes -> Prop :=
| Es_nil first : entries_short first [] []
| Es_cons first x xs t u : entry_short first x t -> entries_short false xs u -> entries_short first (x :: xs) (t ++ u).
Definition entry_of (c : claim) (x : entry) : Prop :=
  given (c_key c) (c_key_length c) (en_name x) /\ given (c_value c) (c_value_length c) (en_value x) /\ en_string x = (c_type c =? 0)%Z.
(** Without the buffer for escaping nothing is written, and nobody notices. *)
Inductive members_short (p : platform) (cs : list claim) : product -> Prop :=
| Ms_text es t : Forall (fun c => ~ foreign_claim p c) cs -> Forall2 entry_of cs es -> entries_short true es t -> members_short p cs (Made t)
| Ms_foreign : Exists (foreign_claim p) cs -> members_short p cs (Breaks BadIndex)
| Ms_none : no_mem -> members_short p cs (Made []).
Definition header_short (p : platform) (ep : enc_params) (j : jwa) : product -> Prop :=
  let start := lit "{" ++ join (map plain_member (fixed_members j)) in
  if (ep_header_claims_count ep =? 0)%N then fun o => exists t, kept [start; lit "}"] t /\ o = Made t
  else andthen (members_short p (keyed_claims (ep_header_claims ep) (ep_header_claims_count ep)))
         (fun m o => exists a b, kept [start; lit ","] a /\ kept [lit "}"] b /\ o = Made (a ++ m ++ b)).
Inductive timed_entry (name : bytes) (t : Z) : list entry -> Prop :=
| Te_none : t = 0%Z -> timed_entry name t []
| Te_some d : t <> 0%Z -> decimal (Z.to_N (t mod 2 ^ 64)) d -> timed_entry name t [Entry name false d].
Inductive string_entry (name : bytes) (q : ptr) (n : N) : list entry -> Prop :=
| Se_none : q = Null -> string_entry name q n []
| Se_some v : given q n v -> string_entry name q n [Entry name true v].
Inductive registered_entries (ep : enc_params) : list entry -> Prop :=
| Re iat nbf exp sub iss aud jti :
    timed_entry (lit "iat") (ep_iat ep) iat -> timed_entry (lit "nbf") (ep_nbf ep) nbf -> timed_entry (lit "exp") (ep_exp ep) exp ->
    string_entry (lit "sub") (ep_sub ep) (ep_sub_length ep) sub -> string_entry (lit "iss") (ep_iss ep) (ep_iss_length ep) iss ->
    string_entry (lit "aud") (ep_aud ep) (ep_aud_length ep) aud -> string_entry (lit "jti") (ep_jti ep) (ep_jti_length ep) jti ->
    registered_entries ep (iat ++ nbf ++ exp ++ sub ++ iss ++ aud ++ jti).
Inductive registered_short (p : platform) (ep : enc_params) : product -> Prop :=
| Rs_text es t : ~ foreign_registered p ep -> registered_entries ep es -> entries_short true es t -> registered_short p ep (Made t)
| Rs_foreign : foreign_registered p ep -> registered_short p ep (Breaks BadIndex)
| Rs_none : no_mem -> registered_short p ep (Made []).
Definition payload_short (p : platform) (ep : enc_params) : product -> Prop :=
  andthen (registered_short p ep) (fun r =>
    if (ep_payload_claims_count ep =? 0)%N
    then fun o => exists a b, kept [lit "{"] a /\ kept [lit "}"] b /\ o = Made (a ++ r ++ b)
    else andthen (members_short p (keyed_claims (ep_payload_claims ep) (ep_payload_claims_count ep)))
           (fun m o => exists sep a b c, separator ep sep /\ kept [lit "{"] a /\ kept [sep] b /\ kept [lit "}"] c
                         /\ o = Made (a ++ r ++ b ++ m ++ c))).
(** base64url: of nothing at all, without memory, or as before. *)
Inductive based_short (p : platform) (t : bytes) : product -> Prop :=
| Bs_empty : t = [] -> based_short p t (Fails 200)
| Bs_memory : no_mem -> t <> [] -> (4 * N.of_nat (length t) < 2 ^ p_size_bits p)%N -> based_short p t (Fails 300)
| Bs_other o : t <> [] -> based p t o -> based_short p t o.
Definition to_be_signed_short (p : platform) (ep : enc_params) (j : jwa) : product -> Prop :=
  andthen (header_short p ep j) (fun ht => andthen (based_short p ht) (fun h =>
  andthen (payload_short p ep) (fun pt => andthen (based_short p pt) (fun pl o => exists t, kept [h; lit "."; pl] t /\ o = Made t)))).
(** Room for key and signature, in builds where these are on the heap. *)
Inductive key_room (p : platform) : product -> Prop :=
| Kr_ok : key_room p (Made [])
| Kr_memory : no_mem -> p_small_stack p = true -> key_room p (Fails 300)
| Kr_null : no_mem -> p_small_stack p = true -> key_room p (Breaks NullDeref).
(** Reading past the signature happens while it is base64 encoded, for which memory is needed. *)
Inductive signing_short (p : platform) (e : env) (ep : enc_params) (j : jwa) (k msg : bytes) : product -> Prop :=
| Ss_same o : signing p e j k (ep_secret_key_pw ep) (ep_secret_key_pw_length ep) msg o -> signing_short p e ep j k msg o
| Ss_memory : no_mem -> signing p e j k (ep_secret_key_pw ep) (ep_secret_key_pw_length ep) msg (Breaks OOBRead) ->
    signing_short p e ep j k msg (Fails 425).
Definition signed_short (p : platform) (e : env) (ep : enc_params) (j : jwa) (k msg : bytes) : product -> Prop :=
  andthen (key_room p) (fun _ => andthen (seeded e msg) (fun _ =>
    andthen (signing_short p e ep j k msg)
      (fun sig o => (no_mem /\ o = Fails 425) \/ exists t, kept [lit "."; rfc4648_unpadded true sig] t /\ o = Made (msg ++ t)))).
Inductive encoding_short (p : platform) (e : env) (ep : enc_params) : product -> Prop :=
| Sh_null : null_args ep -> encoding_short p e ep (Fails 100)
| Sh_bad : ~ null_args ep -> bad_args ep -> encoding_short p e ep (Fails 200)
| Sh_memory : no_mem -> ~ null_args ep -> ~ bad_args ep -> encoding_short p e ep (Fails 300)
| Sh_alg : ~ null_args ep -> ~ bad_args ep -> (forall j, ~ supported (ep_alg ep) j) -> encoding_short p e ep (Fails 200)
| Sh_go j k o : ~ null_args ep -> ~ bad_args ep -> supported (ep_alg ep) j ->
    caller_key (ep_secret_key ep) (ep_secret_key_length ep) k ->
    andthen (to_be_signed_short p ep j) (fun msg => signed_short p e ep j k msg) o -> encoding_short p e ep o.

(** ** Pieces *)
Definition strain (w : world) : Prop := (forall i, w_alloc w i = false -> no_mem) /\ (forall i, w_grow w i = false -> no_room).
Lemma strain_later w w' : later w w' -> strain w -> strain w'.
Proof. intros (E & F & _) (A & G). unfold strain. rewrite E, F. auto. Qed.
Lemma strain_quiet w w' : quiet w w' -> strain w -> strain w'.
Proof. intros Q. apply strain_later, quiet_later, Q. Qed.
Lemma strain_push w : strain w -> strain (w_push w).
Proof. apply strain_later, later_push. Qed.
Lemma strain_ok w : strain w -> strain (w_ok w).
Proof. apply strain_later, later_ok. Qed.
Lemma kept_nil : kept [] [].
Proof. exists []. split; [constructor|]. auto. Qed.
Lemma kept_app a b x y : kept a x -> kept b y -> kept (a ++ b) (x ++ y).
Proof.
  intros (qa & Sa & -> & Ra) (qb & Sb & -> & Rb). exists (qa ++ qb). split; [apply subseq_app; auto|]. split; [symmetry; apply concat_app|].
  destruct Ra as [->|R]; [|auto]. destruct Rb as [->|R]; auto.
Qed.
Lemma kept_cons e a x y : kept [e] x -> kept a y -> kept (e :: a) (x ++ y).
Proof. intros H K. exact (kept_app [e] a x y H K). Qed.
Lemma kept_one e : kept [e] e.
Proof. exists [e]. split; [apply subseq_refl|]. split; [symmetry; apply app_nil_r|auto]. Qed.
Lemma kept_none e : no_room -> kept [e] [].
Proof. intros R. exists []. split; [repeat constructor|]. auto. Qed.
Lemma kept_empty : kept [[]] [].
Proof. apply kept_one. Qed.
Lemma grown_app A (b : chillbuff A) x y : grown (grown b x) y = grown b (x ++ y).
Proof. unfold grown. cbn [cb_id cb_elems]. rewrite app_assoc. reflexivity. Qed.
Lemma grown_nil A (b : chillbuff A) : grown b [] = b.
Proof. unfold grown. rewrite app_nil_r. destruct b; reflexivity. Qed.
Lemma push_short (b : chillbuff byte) e w : strain w -> exists x, kept [e] x /\ cb_push b e w = Ret (grown b x) (w_push w).
Proof.
  intros (_ & R). rewrite cb_push_eq. destruct (w_grow w (w_pushes w)) eqn:E.
  - exists e. split; [apply kept_one|reflexivity].
  - exists []. split; [apply kept_none; eauto|]. rewrite grown_nil. reflexivity.
Qed.

(** ** Writing claims *)
Lemma spelled_esc c : spelled c = esc c.
Proof. pose proof (spelling_escape [c]) as H. unfold spelling, escape in H. cbn [flat_map] in H. rewrite !app_nil_r in H. exact H. Qed.
Lemma escape_each_short p s : Forall (plain p) s -> forall sb w, strain w ->
  exists t w', kept (map spelled s) t /\ escape_each p sb s w = Ret (grown sb t) w' /\ quiet w w'.
Proof.
  induction 1 as [|c s Hc Hs IH]; intros sb w R.
  - exists [], w. split; [apply kept_nil|]. split; [cbn; rewrite grown_nil; reflexivity|apply quiet_refl].
  - cbn [escape_each map]. unfold mbind at 1. rewrite escape_lookup_plain by auto. cbn [lift].
    match goal with |- context [cb_push sb ?e] => change e with (esc c) end.
    destruct (push_short sb (esc c) w R) as (x & K & E). mstep E. rewrite <- spelled_esc in K.
    destruct (IH (grown sb x) (w_push w) (strain_push _ R)) as (t & w' & K' & E' & Q). exists (x ++ t), w'. split; [apply kept_cons; auto|].
    rewrite E', grown_app. split; [reflexivity|]. eapply quiet_trans; [apply quiet_push|exact Q].
Qed.
Lemma escape_string_short p sb q n s w : strain w -> given q n s -> Forall (plain p) s ->
  exists t w', kept (map spelled s) t /\ l8w8jwt_escape_claim_string p sb q (N.of_nat (length s)) w = Ret (grown sb t) w' /\ quiet w w'.
Proof.
  intros R Hg Hp. unfold l8w8jwt_escape_claim_string.
  destruct (N.eqb_spec (N.of_nat (length s)) 0) as [E|E].
  - destruct s; [|cbn in E; lia]. exists [], w. split; [apply kept_nil|]. split; [cbn; rewrite grown_nil; reflexivity|apply quiet_refl].
  - destruct (given_read _ _ _ Hg) as (b' & m' & -> & Ht'). unfold mbind. cbn [deref lift]. rewrite Ht'. cbn [lift].
    apply escape_each_short; auto.
Qed.
Lemma write_each_short p : forall cs sb eb n first w, strain w ->
  (n <= N.of_nat (length cs))%N -> Forall (ClaimProofs.readable p) (firstn (N.to_nat n) cs) ->
  exists es t w', Forall2 entry_of (filter has_key (firstn (N.to_nat n) cs)) es /\ entries_short first es t
    /\ write_each p sb eb cs n first w = Ret (grown sb t) w' /\ quiet w w'.
Proof.
  induction cs as [|c cs IH]; intros sb eb n first w R Hn Hr.
  - cbn [length] in Hn. assert (n = 0%N) as -> by lia. exists [], [], w. cbn. split; [constructor|]. split; [constructor|].
    rewrite grown_nil. split; [reflexivity|apply quiet_refl].
  - cbn [write_each]. destruct (N.eqb_spec n 0) as [->|Hn0].
    { exists [], [], w. cbn. split; [constructor|]. split; [constructor|]. rewrite grown_nil. split; [reflexivity|apply quiet_refl]. }
    replace (N.to_nat n) with (S (N.to_nat (n - 1))) in Hr |- * by lia. cbn [firstn filter] in Hr |- *.
    inversion Hr as [|? ? Hc Hr']; subst. cbn [length] in Hn.
    destruct Hc as [Hnull|(k & v & Hk & Hv & Hpk & Hpv)].
    { unfold has_key at 1. rewrite Hnull. cbn [is_null negb]. apply IH; auto. lia. }
    pose proof (given_key _ _ Hk) as Hnn. unfold has_key at 1. rewrite Hnn. cbn [negb].
    set (m := if first then mret sb else cb_push sb (lit ",")).
    assert (Hm1 : exists x w1, kept (if first then [] else [lit ","]) x /\ m w = Ret (grown sb x) w1 /\ quiet w w1).
    { unfold m. destruct first.
      - exists [], w. split; [apply kept_nil|]. split; [rewrite grown_nil; reflexivity|apply quiet_refl].
      - destruct (push_short sb (lit ",") w R) as (x & K & E). exists x, (w_push w). split; [exact K|]. split; [exact E|apply quiet_push]. }
    clearbody m. destruct Hm1 as (x0 & w1 & K0 & Hm1 & Q1). mstep Hm1.
    pose proof (strain_quiet _ _ Q1 R) as R1.
    unfold mbind at 1. rewrite (given_len _ _ _ Hk). cbn [lift].
    unfold mbind at 1. rewrite (given_len _ _ _ Hv). cbn [lift].
    destruct (escape_string_short p (cb_clear eb) _ _ _ w1 R1 Hk Hpk) as (kn & w2 & Kn & He & Q2). mstep He.
    pose proof (strain_quiet _ _ Q2 R1) as R2.
    destruct (push_short (grown sb x0) (lit """") w2 R2) as (x1 & K1 & E1). mstep E1.
    assert (En : cb_elems (grown (cb_clear eb) kn) = kn) by reflexivity.
    destruct (push_short (grown (grown sb x0) x1) (cb_elems (grown (cb_clear eb) kn)) (w_push w2) (strain_push _ R2)) as (x2 & K2 & E2). rewrite En in K2. mstep E2.
    destruct (push_short (grown (grown (grown sb x0) x1) x2) (lit """:") (w_push (w_push w2)) (strain_push _ (strain_push _ R2))) as (x3 & K3 & E3). mstep E3.
    assert (Q3 : quiet w (w_push (w_push (w_push w2)))).
    { eapply quiet_trans; [exact Q1|]. eapply quiet_trans; [exact Q2|]. eapply quiet_trans; [apply quiet_push|]. eapply quiet_trans; apply quiet_push. }
    pose proof (strain_quiet _ _ Q3 R) as R3.
    set (w3 := w_push (w_push (w_push w2))) in *. clearbody w3.
    destruct (Z.eqb_spec (c_type c) L8W8JWT_CLAIM_TYPE_STRING) as [T|T].
    + unfold mbind at 1.
      match goal with |- context [cb_push ?b (lit """")] => destruct (push_short b (lit """") w3 R3) as (x4 & K4 & E4) end. mstep E4.
      match goal with |- context [l8w8jwt_escape_claim_string p ?b] =>
        destruct (escape_string_short p b _ _ _ (w_push w3) (strain_push _ R3) Hv) as (vn & w4 & Kv & Hev & Q4) end.
      { apply Hpv. unfold is_str. rewrite T. reflexivity. }
      mstep Hev. pose proof (strain_quiet _ _ Q4 (strain_push _ R3)) as R4.
      match goal with |- context [cb_push ?b ?e] => change e with vn; destruct (push_short b vn w4 R4) as (x5 & K5 & E5) end. mstep E5.
      match goal with |- context [cb_push ?b (lit """")] => destruct (push_short b (lit """") (w_push w4) (strain_push _ R4)) as (x6 & K6 & E6) end. mstep E6.
      cbn [mret].
      match goal with |- context [write_each p ?b ?e cs (n - 1) false ?w'] =>
        destruct (IH b e (n - 1)%N false w') as (es & t & w5 & F & S & E & Q5); [apply strain_push, strain_push, R4|lia|exact Hr'|] end.
      exists (Entry k true v :: es), ((x0 ++ x1 ++ x2 ++ x3 ++ x4 ++ x5 ++ x6) ++ t), w5.
      split; [constructor; [|exact F]; repeat split; auto; cbn [en_string]; rewrite T; reflexivity|].
      split; [constructor; [|exact S]; apply Ey with (n := kn) (v := vn); cbn [en_name en_string en_value]; auto|].
      { apply kept_app; [exact K0|]. cbn [app]. do 5 (apply kept_cons; [assumption|]). exact K6. }
      split; [rewrite E, !grown_app, !app_assoc; reflexivity|].
      eapply quiet_trans; [exact Q3|]. eapply quiet_trans; [apply quiet_push|]. eapply quiet_trans; [exact Q4|].
      eapply quiet_trans; [apply quiet_push|]. eapply quiet_trans; [apply quiet_push|exact Q5].
    + assert (Hraw : exists y w4, kept [v] y /\ quiet w3 w4 /\
        (if (N.of_nat (length v) =? 0)%N then mret (grown (grown (grown (grown sb x0) x1) x2) x3, grown (cb_clear eb) kn)
         else (m <- lift (deref (c_value c)) ;; v <- lift (take m (N.of_nat (length v))) ;;
               sb <- cb_push (grown (grown (grown (grown sb x0) x1) x2) x3) v ;; mret (sb, grown (cb_clear eb) kn))) w3
        = Ret (grown (grown (grown (grown (grown sb x0) x1) x2) x3) y, grown (cb_clear eb) kn) w4).
      { destruct (N.eqb_spec (N.of_nat (length v)) 0) as [E|E].
        - destruct v; [|cbn in E; lia]. exists [], w3. split; [apply kept_empty|]. split; [apply quiet_refl|]. rewrite !grown_app, app_nil_r. reflexivity.
        - destruct (given_read _ _ _ Hv) as (b' & m' & Eq & Ht'). rewrite Eq.
          unfold mbind at 1. cbn [deref lift]. unfold mbind at 1. rewrite Ht'. cbn [lift].
          match goal with |- context [cb_push ?b v] => destruct (push_short b v w3 R3) as (y & Ky & Ey) end. exists y, (w_push w3).
          split; [exact Ky|]. split; [apply quiet_push|]. mstep Ey. reflexivity. }
      destruct Hraw as (y & w4 & Ky & Q4 & Eraw). mstep Eraw.
      match goal with |- context [write_each p ?b ?e cs (n - 1) false ?w'] =>
        destruct (IH b e (n - 1)%N false w') as (es & t & w5 & F & S & E & Q5); [eapply strain_quiet; eauto|lia|exact Hr'|] end.
      exists (Entry k false v :: es), ((x0 ++ x1 ++ x2 ++ x3 ++ y) ++ t), w5.
      split; [constructor; [|exact F]; repeat split; auto; cbn [en_string]; destruct (Z.eqb_spec (c_type c) 0); [contradiction|reflexivity]|].
      split; [constructor; [|exact S]; apply Ey with (n := kn) (v := v); cbn [en_name en_string en_value]; auto|].
      { apply kept_app; [exact K0|]. cbn [app]. do 3 (apply kept_cons; [assumption|]). exact Ky. }
      split; [rewrite E, !grown_app, !app_assoc; reflexivity|].
      eapply quiet_trans; [exact Q3|]. eapply quiet_trans; [exact Q4|exact Q5].
Qed.
Lemma claims_short p sb claims n w :
  strain w -> wf w -> (0 < n)%N -> claims_given claims n ->
  exists o, members_short p (keyed_claims claims n) o
    /\ appends (l8w8jwt_write_claims p sb claims n w) (fun t w' r => snd r = grown sb t /\ quiet w w') (fun _ _ _ => False) o.
Proof.
  intros R W Hn Hg. destruct claims as [|b cs].
  - exists (Made []). split; [apply Ms_text with (es := []); constructor|]. cbn [appends]. do 2 eexists. split; [reflexivity|].
    split; [|apply quiet_refl]. rewrite grown_nil. reflexivity.
  - destruct Hg as (Hl & Hg). cbn [keyed_claims].
    change (filter (fun c => negb (is_null (c_key c))) (firstn (N.to_nat n) cs)) with (filter has_key (firstn (N.to_nat n) cs)).
    unfold l8w8jwt_write_claims. destruct (N.eqb_spec n 0); [lia|].
    unfold mbind at 1. rewrite cb_init_eq. destruct (w_alloc w (w_next w)) eqn:A.
    2:{ exists (Made []). split; [apply Ms_none; destruct R; eauto|]. cbn [appends]. do 2 eexists. split; [reflexivity|].
        split; [cbn [snd]; rewrite grown_nil; reflexivity|apply quiet_no]. }
    destruct (claims_cases p _ Hg) as [Rd|X].
    + destruct (write_each_short p cs sb (CB (w_next w) []) n true (w_ok w) (strain_ok _ R) Hl Rd) as (es & t & w1 & F & S & E & Q).
      exists (Made t). split; [eapply Ms_text; eauto; apply readables_not, Rd|]. cbn [appends].
      mstep E. unfold mbind, cb_free. cbn [cb_id]. rewrite free_id_eq by (eapply quiet_live; [exact Q|cbn; apply upd_live_same]).
      do 2 eexists. split; [reflexivity|]. split; [reflexivity|]. apply quiet_alloc_free; auto.
    + exists (Breaks BadIndex). split; [apply Ms_foreign, X|]. cbn [appends].
      unfold mbind at 1. rewrite write_each_breaks; auto.
Qed.

(** ** The registered claims *)
Lemma time_entry c name t cs es :
  time_fact c name t -> Forall2 entry_of (filter has_key (c :: cs)) es ->
  exists a b, es = a ++ b /\ timed_entry name t a /\ Forall2 entry_of (filter has_key cs) b.
Proof.
  intros (Ht & [(-> & Hk)|(Hn & Hk & Hv)]) H; cbn [filter] in H; unfold has_key in H at 1.
  - rewrite Hk in H. exists [], es. split; [reflexivity|]. split; [constructor; reflexivity|exact H].
  - rewrite (given_key _ _ Hk) in H. cbn [negb] in H. inversion H as [|? x ? r (Gk & Gv & E) T]; subst.
    exists [x], r. split; [reflexivity|]. split; [|exact T]. destruct x as [nm st v]. cbn [en_name en_string en_value] in *.
    rewrite (given_det _ _ _ _ Gk Hk), (given_det _ _ _ _ Gv Hv), E, Ht. constructor; [exact Hn|].
    pose proof (print_u64_digits (to_u64 t)) as [D L].
    destruct (print_u64_value _ (to_u64_lt t)) as (V & Z & Z0). unfold decimal. fold (to_u64 t).
    split; [intros E0; rewrite E0 in L; cbn in L; lia|]. split; [exact D|]. split; [|exact V].
    intros r0 E0. destruct (N.eq_dec (to_u64 t) 0) as [E1|N0]; [rewrite (Z0 E1) in E0; congruence|destruct (Z N0 _ _ E0 eq_refl)].
Qed.
Lemma str_entry c name q n cs es :
  str_fact c name q n -> Forall2 entry_of (filter has_key (c :: cs)) es ->
  exists a b, es = a ++ b /\ string_entry name q n a /\ Forall2 entry_of (filter has_key cs) b.
Proof.
  intros (Ht & [(-> & Hk)|(Hn & Hk & Hv & Hl)]) H; cbn [filter] in H; unfold has_key in H at 1.
  - rewrite Hk in H. exists [], es. split; [reflexivity|]. split; [constructor; reflexivity|exact H].
  - rewrite (given_key _ _ Hk) in H. cbn [negb] in H. inversion H as [|? x ? r (Gk & Gv & E) T]; subst.
    exists [x], r. split; [reflexivity|]. split; [|exact T]. destruct x as [nm st v]. cbn [en_name en_string en_value] in *.
    rewrite (given_det _ _ _ _ Gk Hk), E, Ht. constructor. exact Gv.
Qed.
Lemma registered_short_of p ep tbuf o :
  iatnbfexp ep = OK tbuf -> members_short p (keyed_claims (CArr None (registered_claims ep tbuf)) 7) o -> registered_short p ep o.
Proof.
  intros H M. destruct (registered_facts _ _ H) as (c1 & c2 & c3 & c4 & c5 & c6 & c7 & E & F1 & F2 & F3 & F4 & F5 & F6 & F7).
  unfold keyed_claims in M. rewrite E in M. change (firstn (N.to_nat 7) [c1; c2; c3; c4; c5; c6; c7]) with [c1; c2; c3; c4; c5; c6; c7] in M.
  change (fun c => negb (is_null (c_key c))) with has_key in M.
  assert (X : Exists (foreign_claim p) (filter has_key [c1; c2; c3; c4; c5; c6; c7]) <-> foreign_registered p ep).
  { rewrite (time_foreign p _ _ _ _ F1), (time_foreign p _ _ _ _ F2), (time_foreign p _ _ _ _ F3), (str_foreign p _ _ _ _ _ F4),
      (str_foreign p _ _ _ _ _ F5), (str_foreign p _ _ _ _ _ F6), (str_foreign p _ _ _ _ _ F7) by (apply name_plain; reflexivity).
    cbn [filter]. rewrite Exists_nil. unfold foreign_registered. tauto. }
  inversion M as [es t N T S|Y|Nm]; subst; [|apply Rs_foreign, X, Y|apply Rs_none; assumption].
  apply none_foreign in N. eapply Rs_text; [intros Y; apply N, X, Y| |exact S].
  apply (time_entry _ _ _ _ _ F1) in T as (a1 & b1 & -> & A1 & T). apply (time_entry _ _ _ _ _ F2) in T as (a2 & b2 & -> & A2 & T).
  apply (time_entry _ _ _ _ _ F3) in T as (a3 & b3 & -> & A3 & T). apply (str_entry _ _ _ _ _ _ F4) in T as (a4 & b4 & -> & A4 & T).
  apply (str_entry _ _ _ _ _ _ F5) in T as (a5 & b5 & -> & A5 & T). apply (str_entry _ _ _ _ _ _ F6) in T as (a6 & b6 & -> & A6 & T).
  apply (str_entry _ _ _ _ _ _ F7) in T as (a7 & b7 & -> & A7 & T). inversion T; subst. rewrite app_nil_r.
  constructor; auto.
Qed.

(** ** A segment *)
Lemma segment_short p b t w : strain w -> (6 <= p_size_bits p)%N ->
  exists o, based_short p t o
    /\ match o with
       | Made s => exists m, encode_segment p (Ptr b t) (N.of_nat (length t)) w = Ret (L8W8JWT_SUCCESS, Ptr (Some (w_next w)) m, s) (w_ok w)
       | Fails rc => rc <> L8W8JWT_SUCCESS /\ exists w', encode_segment p (Ptr b t) (N.of_nat (length t)) w = Ret (rc, Null, []) w' /\ quiet w w'
       | Breaks u => encode_segment p (Ptr b t) (N.of_nat (length t)) w = Undef u
       end.
Proof.
  intros R Hp. destruct t as [|c t'].
  { exists (Fails 200). split; [apply Bs_empty; reflexivity|]. split; [discriminate|]. exists w. split; [reflexivity|apply quiet_refl]. }
  set (t := c :: t') in *. assert (Nt : t <> []) by discriminate. assert (L : (0 < N.of_nat (length t))%N) by (cbn; lia). clearbody t. clear c t'.
  destruct (N.leb_spec (size_mod p) (4 * N.of_nat (length t))) as [O|O].
  - exists (Fails 310). split; [apply Bs_other; [exact Nt|apply B_size; exact O]|]. split; [discriminate|]. exists w. split; [|apply quiet_refl].
    unfold encode_segment, mbind at 1.
    assert (E : l8w8jwt_base64_encode p true (Ptr b t) (N.of_nat (length t)) true true w = Ret (B64 L8W8JWT_OVERFLOW None None) w).
    { destruct (N.ltb_spec (N.of_nat (length t)) (size_mod p)) as [Hs|Hs].
      - apply encode_size_overflow; auto. lia.
      - unfold l8w8jwt_base64_encode. cbn [negb is_null orb]. destruct (N.eqb_spec (N.of_nat (length t)) 0); [lia|].
        assert (H0 : (0 < size_mod p)%N) by (unfold size_mod; apply N.neq_0_lt_0, N.pow_nonzero; lia).
        assert (Ho : (b64_olen p (N.of_nat (length t)) <? N.of_nat (length t))%N = true).
        { apply N.ltb_lt. eapply N.lt_le_trans; [|exact Hs]. unfold b64_olen. apply N.mod_lt. lia. }
        rewrite Ho. reflexivity. }
    rewrite E. reflexivity.
  - destruct (w_alloc w (w_next w)) eqn:A.
    + destruct (Z.leb_spec (4 * ((Z.of_nat (length t) + 2) / 3)) INT_MAX) as [I|I].
      * exists (Made (b64url t)). split; [apply Bs_other; [exact Nt|apply B_text; [exact O|exact I]]|].
        destruct (encode_seg_ok p b t (N.of_nat (length t)) w) as (m & H); auto; try lia; try (rewrite nat_N_Z; exact I).
        exists m. rewrite H. rewrite Nat2N.id, firstn_all. reflexivity.
      * exists (Breaks SignedOverflow). split; [apply Bs_other; [exact Nt|apply B_int; [exact O|exact I]]|].
        unfold encode_segment, mbind at 1.
        destruct (encode_cases p true b t (N.of_nat (length t)) w Hp ltac:(lia) ltac:(lia))
          as [(? & E)|[(_ & ? & E)|[(_ & _ & Hx & E)|[(_ & _ & _ & _ & Hx & E)|(_ & _ & _ & Hx & _)]]]]; try lia;
          try (rewrite A in Hx; discriminate).
        rewrite E. reflexivity.
    + exists (Fails 300). split; [apply Bs_memory; [destruct R; eauto|exact Nt|exact O]|]. split; [discriminate|]. exists (w_no w). split; [|apply quiet_no].
      unfold encode_segment, mbind at 1.
      destruct (encode_cases p true b t (N.of_nat (length t)) w Hp ltac:(lia) ltac:(lia))
        as [(? & E)|[(_ & ? & E)|[(_ & _ & Hx & E)|[(_ & _ & Hx & _)|(_ & _ & Hx & _)]]]]; try lia; try congruence.
      rewrite E. reflexivity.
Qed.

(** ** Header and payload *)
Lemma opt_short p buff claims n (sep : bool) w :
  strain w -> wf w -> claims_given claims n ->
  exists o, (if (n =? 0)%N then o = Made [] else andthen (members_short p (keyed_claims claims n))
              (fun m o => exists a, kept [if sep then lit "," else []] a /\ o = Made (a ++ m)) o)
    /\ appends ((if (0 <? n)%N
                 then (buff <- (if sep then cb_push buff (lit ",") else mret buff) ;;
                       r <- l8w8jwt_write_claims p buff claims n ;; mret (snd r))
                 else mret buff) w)
         (fun t w' b => b = grown buff t /\ quiet w w') (fun _ _ _ => False) o.
Proof.
  intros R W Hg. destruct (N.eqb_spec n 0) as [->|Hn].
  - exists (Made []). split; [reflexivity|]. cbn. do 2 eexists. split; [reflexivity|]. split; [|apply quiet_refl].
    rewrite grown_nil. reflexivity.
  - destruct (N.ltb_spec 0 n) as [_|L]; [|lia].
    assert (H : exists a w1, kept [if sep then lit "," else []] a /\ (if sep then cb_push buff (lit ",") else mret buff) w = Ret (grown buff a) w1 /\ quiet w w1).
    { destruct sep.
      - destruct (push_short buff (lit ",") w R) as (a & K & E). exists a, (w_push w). split; [exact K|]. split; [exact E|apply quiet_push].
      - exists [], w. split; [apply kept_empty|]. split; [rewrite grown_nil; reflexivity|apply quiet_refl]. }
    destruct H as (a & w1 & K & H & Q1).
    destruct (claims_short p (grown buff a) claims n w1) as (o & M & D);
      [eapply strain_quiet; eauto|eapply wf_quiet; eauto|lia|exact Hg|].
    destruct o as [t|rc|u]; cbn [appends] in D |- *.
    + exists (Made (a ++ t)). split; [eapply At_go; [exact M|]; exists a; auto|]. cbn [appends].
      destruct D as (r & w2 & D & E & Q2). mstep H. mstep D. do 2 eexists. split; [reflexivity|].
      split; [|eapply quiet_trans; eauto]. rewrite E. apply grown_app.
    + destruct D as (r & w2 & _ & F). contradiction.
    + exists (Breaks u). split; [apply At_stop; [exact M|discriminate]|]. cbn [appends]. mstep H. unfold mbind. rewrite D. reflexivity.
Qed.

Lemma whp_short p sb ep j w :
  (6 <= p_size_bits p)%N -> strain w -> wf w -> supported (ep_alg ep) j -> enc_given ep -> w_alloc w (w_next w) = true ->
  exists o, to_be_signed_short p ep j o
    /\ appends (write_header_and_payload p sb ep w)
         (fun t _ r => r = (L8W8JWT_SUCCESS, grown sb t)) (fun rc _ r => rc <> L8W8JWT_SUCCESS /\ fst r = rc) o.
Proof.
  intros Hp R Hwf Hj Hr A0. pose proof Hr as (Hh & Hpl & _).
  unfold write_header_and_payload. unfold mbind at 1. rewrite cb_init_eq, A0.
  set (w0 := w_ok w). assert (W0 : wf w0) by (apply wf_ok; auto).
  assert (R0 : forall w', quiet w0 w' -> strain w').
  { intros w' Q. eapply strain_quiet; [exact Q|]. apply strain_ok, R. }
  assert (Hlive : w_live w0 (w_next w) = true) by (unfold w0; cbn; apply upd_live_same).
  assert (Hfree : forall w1 B (a : B), quiet w0 w1 ->
            exists w', (_ <- free_id (w_next w) ;; mret a) w1 = Ret a w').
  { intros w1 B a Q. unfold mbind. rewrite free_id_eq by (eapply quiet_live; eauto). eexists. reflexivity. }
  destruct (header_prefix (ep_alg ep)) as [h|] eqn:Eh.
  2:{ exfalso. pose proof (supported_range _ _ Hj) as Rg. destruct Hj as [Hin E]. revert Eh. rewrite <- E. simpl in Hin.
      decompose [or] Hin; try contradiction; subst j; discriminate. }
  pose proof (header_start _ _ _ Eh Hj) as Es.
  destruct (push_short (CB (w_next w) []) h w0 (R0 _ (quiet_refl _))) as (x1 & K1 & E1). mstep E1.
  set (b1 := grown (CB (w_next w) []) x1).
  assert (Q1 : quiet w0 (w_push w0)) by apply quiet_push.
  destruct (opt_short p b1 (ep_header_claims ep) (ep_header_claims_count ep) true (w_push w0)) as (oh & Mh & Dh);
    [auto|eapply wf_quiet; eauto|auto|].
  cbn iota in Dh.
  destruct oh as [th|rc|u]; cbn [appends] in Dh.
  2:{ destruct Dh as (r & w2 & _ & F). contradiction. }
  2:{ exists (Breaks u). split; [|cbn [appends]; unfold mbind at 1; rewrite Dh; reflexivity].
      apply At_stop; [|discriminate]. unfold header_short. destruct (ep_header_claims_count ep =? 0)%N; [discriminate Mh|].
      inversion Mh as [o' M N|m o' M (a & Ka & X)]; subst; [|discriminate X]. apply At_stop; [exact M|exact N]. }
  destruct Dh as (b2 & w2 & Dh & -> & Q2). mstep Dh. clear Dh.
  assert (Q2' : quiet w0 w2) by (eapply quiet_trans; eauto).
  destruct (push_short (grown b1 th) (lit "}") w2 (R0 _ Q2')) as (x3 & K3 & E3). mstep E3.
  set (ht := x1 ++ th ++ x3) in *.
  assert (HH : header_short p ep j (Made ht)).
  { unfold header_short. rewrite <- Es. destruct (ep_header_claims_count ep =? 0)%N.
    - injection Mh as ->. exists ht. split; [|reflexivity]. unfold ht. cbn [app]. apply kept_cons; auto.
    - inversion Mh as [o' M N|m o' M (a & Ka & X)]; subst; [destruct (N th); reflexivity|]. injection X as X.
      eapply At_go; [exact M|]. exists (x1 ++ a), x3. split; [apply kept_cons; auto|]. split; [exact K3|].
      unfold ht. rewrite X, <- !app_assoc. reflexivity. }
  assert (E4 : grown (grown b1 th) x3 = CB (w_next w) ht).
  { unfold b1. rewrite !grown_app. unfold grown. cbn [cb_id cb_elems app]. unfold ht. rewrite <- ?app_assoc. reflexivity. }
  rewrite E4. clear E4 E3. assert (Q3 : quiet w0 (w_push w2)) by (eapply quiet_trans; [exact Q2'|apply quiet_push]).
  assert (W3 : wf (w_push w2)) by (eapply wf_quiet; eauto).
  set (w3 := w_push w2) in *. clearbody w3.
  clearbody ht. clear b1 E1.
  destruct (segment_short p (Some (w_next w)) ht w3 (R0 _ Q3) Hp) as (o1 & B1 & S1).
  unfold cb_ptr at 1, cb_len at 1. cbn [cb_id cb_elems].
  destruct o1 as [s1|rc|u].
  2:{ destruct S1 as (Nz & w4 & S1 & Q4). exists (Fails rc). split; [eapply At_go; [exact HH|]; apply At_stop; [exact B1|discriminate]|].
     mstep S1. destruct (Z.eqb_spec rc L8W8JWT_SUCCESS) as [E|_]; [contradiction|]. cbn [negb]. unfold cb_free. cbn [cb_id].
      destruct (Hfree w4 _ (rc, sb) (quiet_trans _ _ _ Q3 Q4)) as (w' & K). exists (rc, sb), w'. split; [exact K|auto]. }
  2:{ exists (Breaks u). split; [eapply At_go; [exact HH|]; apply At_stop; [exact B1|discriminate]|]. unfold mbind at 1. cbn [appends]. rewrite S1. reflexivity. }
  destruct S1 as (m1 & S1). mstep S1. cbn [negb Z.eqb L8W8JWT_SUCCESS]. clear S1.
  destruct (push_short sb s1 (w_ok w3) (strain_ok _ (R0 _ Q3))) as (y1 & Ky1 & Ey1). mstep Ey1.
  cbn [free]. unfold mbind at 1. rewrite free_id_eq by (cbn; apply upd_live_same).
  set (w5 := w_free (w_push (w_ok w3)) (w_next w3)).
  assert (Q5 : quiet w0 w5).
  { eapply quiet_trans; [exact Q3|]. apply quiet_alloc_free; [exact W3|apply quiet_push]. }
  clearbody w5.
  pose proof (iatnbfexp_eq ep) as Htb.
  set (tbuf := field (dec_time (ep_iat ep)) 21 ++ field (dec_time (ep_nbf ep)) 21
                     ++ field (dec_time (ep_exp ep)) 21 ++ [x00]) in Htb.
  clearbody tbuf. unfold mbind at 1. rewrite Htb. cbn [lift].
  destruct (push_short (cb_clear (CB (w_next w) ht)) (lit "{") w5 (R0 _ Q5)) as (x5 & K5 & E5). mstep E5.
  assert (E6 : grown (cb_clear (CB (w_next w) ht)) x5 = CB (w_next w) x5) by reflexivity.
  rewrite E6. clear E6 E5.
  assert (Q6 : quiet w0 (w_push w5)) by (eapply quiet_trans; [exact Q5|apply quiet_push]).
  assert (W6 : wf (w_push w5)) by (eapply wf_quiet; eauto).
  set (w6 := w_push w5) in *. clearbody w6.
  destruct (claims_short p (CB (w_next w) x5) (CArr None (registered_claims ep tbuf)) 7 w6 (R0 _ Q6) W6)
    as (o2 & M2 & D2); [lia|apply registered_given; auto|].
  apply (registered_short_of p ep tbuf o2 Htb) in M2.
  assert (Front : forall o, payload_short p ep o -> (forall t, o <> Made t) -> to_be_signed_short p ep j o).
  { intros o P N. eapply At_go; [exact HH|]. eapply At_go; [exact B1|]. apply At_stop; [exact P|exact N]. }
  destruct o2 as [r|rc|u]; cbn [appends] in D2.
  2:{ destruct D2 as (r & w2' & _ & F). contradiction. }
  2:{ exists (Breaks u). split; [apply Front; [apply At_stop; [exact M2|discriminate]|discriminate]|]. unfold mbind at 1. cbn [appends]. rewrite D2. reflexivity. }
  destruct D2 as (r2 & w7 & D2 & E2 & Q7). mstep D2. clear D2. rewrite E2. clear E2 r2.
  assert (Q7' : quiet w0 w7) by (eapply quiet_trans; eauto).
  match goal with |- context [if ?c then cb_push ?b (lit ",") else mret ?b] =>
    destruct (opt_short p b (ep_payload_claims ep) (ep_payload_claims_count ep) c w7) as (op & Mp & Dp);
      [auto|eapply wf_quiet; eauto|auto|] end.
  rewrite <- comma_if in Mp.
  destruct op as [tp|rc|u]; cbn [appends] in Dp.
  2:{ destruct Dp as (r' & w2' & _ & F). contradiction. }
  2:{ exists (Breaks u). split; [|cbn [appends]; unfold mbind at 1; rewrite Dp; reflexivity].
      apply Front; [|discriminate]. eapply At_go; [exact M2|]. cbv beta. destruct (ep_payload_claims_count ep =? 0)%N; [discriminate Mp|].
      inversion Mp as [o' M N|m o' M (a & Ka & X)]; subst; [|discriminate X]. apply At_stop; [exact M|exact N]. }
  destruct Dp as (b6 & w8 & Dp & -> & Q8). mstep Dp. clear Dp.
  assert (Q8' : quiet w0 w8) by (eapply quiet_trans; eauto).
  match goal with |- context [cb_push ?b (lit "}")] => destruct (push_short b (lit "}") w8 (R0 _ Q8')) as (x8 & K8 & E8) end. mstep E8. clear E8.
  set (pt := x5 ++ r ++ tp ++ x8) in *.
  assert (HP : payload_short p ep (Made pt)).
  { eapply At_go; [exact M2|]. cbv beta. destruct (ep_payload_claims_count ep =? 0)%N.
    - injection Mp as ->. exists x5, x8. auto.
    - inversion Mp as [o' M N|m o' M (a & Ka & X)]; subst; [destruct (N tp); reflexivity|]. injection X as X.
      eapply At_go; [exact M|]. exists (comma ep), x5, a, x8. split; [apply separator_comma|]. split; [exact K5|]. split; [exact Ka|]. split; [exact K8|].
      unfold pt. rewrite X, <- !app_assoc. reflexivity. }
  match goal with |- context [cb_ptr ?b] => assert (E7 : b = CB (w_next w) pt) end.
  { unfold grown. cbn [cb_id cb_elems]. unfold pt. rewrite <- !app_assoc. reflexivity. }
  rewrite E7. clear E7.
  assert (Q9 : quiet w0 (w_push w8)) by (eapply quiet_trans; [exact Q8'|apply quiet_push]).
  assert (W9 : wf (w_push w8)) by (eapply wf_quiet; eauto).
  set (w9 := w_push w8) in *. clearbody w9. clearbody pt.
  destruct (segment_short p (Some (w_next w)) pt w9 (R0 _ Q9) Hp) as (o3 & B3 & S3).
  unfold cb_ptr, cb_len. cbn [cb_id cb_elems].
  assert (Front2 : forall o, based_short p pt o -> (forall t, o <> Made t) -> to_be_signed_short p ep j o).
  { intros o P N. eapply At_go; [exact HH|]. eapply At_go; [exact B1|]. eapply At_go; [exact HP|]. apply At_stop; [exact P|exact N]. }
  destruct o3 as [s3|rc|u].
  2:{ destruct S3 as (Nz & w10 & S3 & Q10). exists (Fails rc). split; [apply Front2; [exact B3|discriminate]|].
     mstep S3. destruct (Z.eqb_spec rc L8W8JWT_SUCCESS) as [E|_]; [contradiction|]. cbn [negb]. unfold cb_free. cbn [cb_id].
      match goal with |- context [mret (rc, ?b)] => destruct (Hfree w10 _ (rc, b) (quiet_trans _ _ _ Q9 Q10)) as (w' & K); exists (rc, b), w' end. split; [exact K|auto]. }
  2:{ exists (Breaks u). split; [apply Front2; [exact B3|discriminate]|]. unfold mbind at 1. cbn [appends]. rewrite S3. reflexivity. }
  destruct S3 as (m3 & S3). mstep S3. cbn [negb Z.eqb L8W8JWT_SUCCESS]. clear S3.
  match goal with |- context [cb_push ?b (lit ".")] => destruct (push_short b (lit ".") (w_ok w9) (strain_ok _ (R0 _ Q9))) as (y2 & Ky2 & Ey2) end. mstep Ey2.
  match goal with |- context [cb_push ?b s3] => destruct (push_short b s3 (w_push (w_ok w9)) (strain_push _ (strain_ok _ (R0 _ Q9)))) as (y3 & Ky3 & Ey3) end. mstep Ey3.
  exists (Made (y1 ++ y2 ++ y3)). split.
  { eapply At_go; [exact HH|]. eapply At_go; [exact B1|]. eapply At_go; [exact HP|]. eapply At_go; [exact B3|].
    eexists. split; [|reflexivity]. do 2 (apply kept_cons; [assumption|]). assumption. }
  cbn [free]. unfold mbind at 1. rewrite free_id_eq by (cbn; apply upd_live_same).
  unfold cb_free. cbn [cb_id].
  match goal with |- context [mret (?z, ?b)] => destruct (Hfree (w_free (w_push (w_push (w_ok w9))) (w_next w9)) _ (z, b)) as (w' & K) end.
  { eapply quiet_trans; [exact Q9|]. apply quiet_alloc_free; [exact W9|]. eapply quiet_trans; apply quiet_push. }
  do 2 eexists. split; [exact K|]. rewrite !grown_app, !app_assoc. reflexivity.
Qed.

(** ** The signature *)
Lemma finish_short p sb x o w : (15 <= p_size_bits p)%N -> strain w -> signs p x o ->
  exists o', ((o' = o /\ (forall s, o <> Made s)) \/ (no_mem /\ o = Breaks OOBRead /\ o' = Fails 425)
              \/ (exists s, o = Made s /\ ((no_mem /\ o' = Fails 425) \/ exists t, kept [lit "."; b64url s] t /\ o' = Made t)))
   /\ appends (finish p sb x w) (fun t _ r => fst r = (L8W8JWT_SUCCESS, grown sb t))
    (fun rc _ r => rc <> L8W8JWT_SUCCESS /\ fst (fst r) = rc) o'.
Proof.
  intros Hp R H. assert (Am : w_alloc w (w_next w) = false -> no_mem) by (destruct R; eauto).
  destruct o as [s|rc|u]; cbn [signs] in H.
  - destruct H as (buf & n & -> & Hn & L & Es & Hs). unfold finish. unfold mbind at 1. cbn [lift negb Z.eqb L8W8JWT_SUCCESS].
    destruct (N.eqb_spec n 0) as [E|_]; [lia|].
    destruct (w_alloc w (w_next w)) eqn:A.
    + destruct (encode_seg_ok p None buf n w) as (m & E); [lia|lia|exact Hs|lia|unfold INT_MAX; lia|exact A|].
      mstep E. cbn [negb Z.eqb L8W8JWT_SUCCESS]. clear E.
      destruct (push_short sb (lit ".") (w_ok w) (strain_ok _ R)) as (y & Ky & Ey). mstep Ey.
      match goal with |- context [cb_push ?b ?t] => destruct (push_short b t (w_push (w_ok w)) (strain_push _ (strain_ok _ R))) as (z & Kz & Ez) end. mstep Ez.
      rewrite Es in Kz.
      exists (Made (y ++ z)). split; [right; right; exists s; split; [reflexivity|]; right; exists (y ++ z); split; [apply kept_cons; auto|reflexivity]|].
      do 2 eexists. split; [reflexivity|]. cbn [fst]. rewrite grown_app. reflexivity.
    + exists (Fails 425). split; [right; right; exists s; split; [reflexivity|]; left; auto|].
      unfold encode_segment. unfold mbind at 1. unfold mbind at 1.
      destruct (encode_cases p true None buf n w) as [(? & E)|[(_ & ? & E)|[(_ & _ & Hx & E)|[(_ & _ & Hx & _)|(_ & _ & Hx & _)]]]];
        try lia; try congruence.
      rewrite E. cbn. do 2 eexists. split; [reflexivity|]. split; [discriminate|reflexivity].
  - exists (Fails rc). split; [left; split; [reflexivity|discriminate]|].
    cbn [appends].
    destruct H as (Nz & [(buf & n & ->)|[(-> & buf & ->)|(-> & buf & n & -> & Hn & Hs)]]); unfold finish, mbind at 1; cbn [lift].
    + destruct (Z.eqb_spec rc L8W8JWT_SUCCESS) as [E|_]; [contradiction|]. cbn [negb]. do 2 eexists. split; [reflexivity|]. auto.
    + cbn [negb Z.eqb L8W8JWT_SUCCESS N.eqb]. do 2 eexists. split; [reflexivity|]. split; [discriminate|reflexivity].
    + cbn [negb Z.eqb L8W8JWT_SUCCESS]. destruct (N.eqb_spec n 0) as [E|_]; [lia|].
      assert (E : encode_segment p (Ptr None buf) n w = Ret (L8W8JWT_OVERFLOW, Null, []) w).
      { unfold encode_segment, mbind at 1.
        destruct (N.ltb_spec n (size_mod p)) as [Hm|Hm]; [rewrite encode_size_overflow by (auto; lia); reflexivity|].
        unfold l8w8jwt_base64_encode. cbn [negb is_null orb]. destruct (N.eqb_spec n 0); [lia|].
        assert (H0 : (0 < size_mod p)%N) by (unfold size_mod; apply N.neq_0_lt_0, N.pow_nonzero; lia).
        assert (Ho : (b64_olen p n <? n)%N = true).
        { apply N.ltb_lt. eapply N.lt_le_trans; [|exact Hm]. unfold b64_olen. apply N.mod_lt. lia. }
        rewrite Ho. reflexivity. }
      mstep E. cbn [negb Z.eqb L8W8JWT_SUCCESS L8W8JWT_OVERFLOW]. do 2 eexists. split; [reflexivity|]. split; [discriminate|reflexivity].
  - destruct H as [->|(-> & buf & n & -> & Hl & Hs)].
    { exists (Breaks u). split; [left; split; [reflexivity|discriminate]|]. reflexivity. }
    destruct (w_alloc w (w_next w)) eqn:A.
    + exists (Breaks OOBRead). split; [left; split; [reflexivity|discriminate]|]. cbn [appends].
      unfold finish. unfold mbind at 1. cbn [lift negb Z.eqb L8W8JWT_SUCCESS].
      destruct (N.eqb_spec n 0) as [E|_]; [lia|].
      assert (E : encode_segment p (Ptr None buf) n w = Undef OOBRead).
      { unfold encode_segment, mbind at 1. unfold l8w8jwt_base64_encode. cbn [negb is_null orb]. destruct (N.eqb_spec n 0); [lia|].
        rewrite olen_lt_iff by lia. destruct (N.leb_spec (size_mod p) (n * 4)); [lia|].
        unfold mbind at 1. rewrite malloc_eq, A. unfold mbind at 1. cbn [deref lift]. unfold mbind at 1.
        unfold take. destruct (N.leb_spec n (N.of_nat (length buf))); [lia|]. reflexivity. }
      unfold mbind at 1. rewrite E. reflexivity.
    + exists (Fails 425). split; [right; left; auto|]. cbn [appends].
      unfold finish. unfold mbind at 1. cbn [lift negb Z.eqb L8W8JWT_SUCCESS].
      destruct (N.eqb_spec n 0) as [E|_]; [lia|].
      assert (E : encode_segment p (Ptr None buf) n w = Ret (L8W8JWT_OUT_OF_MEM, Null, []) (w_no w)).
      { unfold encode_segment, mbind at 1. unfold l8w8jwt_base64_encode. cbn [negb is_null orb]. destruct (N.eqb_spec n 0); [lia|].
        rewrite olen_lt_iff by lia. destruct (N.leb_spec (size_mod p) (n * 4)); [lia|].
        unfold mbind at 1. rewrite malloc_eq, A. reflexivity. }
      mstep E. cbn [negb Z.eqb L8W8JWT_SUCCESS L8W8JWT_OUT_OF_MEM]. do 2 eexists. split; [reflexivity|]. split; [discriminate|reflexivity].
Qed.

Definition sign_part (p : platform) (e : env) (ep : enc_params) (j : jwa) (k msg : bytes) : product -> Prop :=
  andthen (seeded e msg) (fun _ => andthen (signing_short p e ep j k msg)
    (fun sig o => (no_mem /\ o = Fails 425) \/ exists t, kept [lit "."; b64url sig] t /\ o = Made t)).
Lemma wsb_short p e sb ep j k w :
  (15 <= p_size_bits p)%N -> strain w -> supported (ep_alg ep) j ->
  caller_key (ep_secret_key ep) (ep_secret_key_length ep) k -> (0 < ep_secret_key_length ep <= 8192)%N ->
  exists o, sign_part p e ep j k (cb_elems sb) o
    /\ appends (write_signature_body p e sb ep w) (fun t _ r => fst r = (L8W8JWT_SUCCESS, grown sb t))
         (fun rc _ r => rc <> L8W8JWT_SUCCESS /\ fst (fst r) = rc) o.
Proof.
  intros Hp R Hj Hk Hn. unfold write_signature_body.
  pose proof Hk as (b & m & Eq & Hm & Ek).
  assert (Lk : length k = N.to_nat (ep_secret_key_length ep)) by (rewrite Ek, firstn_length; lia).
  unfold mbind at 1. rewrite Eq, load_key_ok by lia. rewrite <- Ek. cbn [lift].
  destruct (adjust_key_eq k (ep_secret_key_length ep) Lk Hn) as (kl & Ha & Ekl & Ht1 & Ht2).
  unfold mbind at 1. rewrite Ha. cbn [lift].
  set (key := k ++ repeat x00 (N.to_nat (L8W8JWT_MAX_KEY_SIZE - ep_secret_key_length ep))) in *. clearbody key.
  destruct (e_seed_ok e) eqn:Es; cbn [negb].
  2:{ exists (Fails 500). split; [apply At_stop; [unfold seeded; rewrite Es; reflexivity|discriminate]|].
      do 2 eexists. split; [reflexivity|]. split; [discriminate|reflexivity]. }
  assert (Lp : N.of_nat (length (pem_text k)) = kl).
  { rewrite Ekl. unfold pem_text. destruct (is_nul (last k x01)); [|rewrite app_length; cbn [length]]; lia. }
  rewrite <- Lp in Ht2. rewrite Lp in Ht2 at 1.
  destruct (sign_does p e ep k (cb_elems sb) j kl key Hp Hj Ht1 Ht2) as (o & S & Rs); [lia|exact Hk|].
  destruct (finish_short p sb _ o w Hp R Rs) as (o' & C & D). exists o'. split; [|exact D].
  eapply At_go; [unfold seeded; rewrite Es; reflexivity|].
  destruct C as [(-> & N)|[(N & -> & ->)|(s & -> & C)]].
  - apply At_stop; [apply Ss_same, S|exact N].
  - apply At_stop; [apply Ss_memory; auto|discriminate].
  - eapply At_go; [apply Ss_same, S|exact C].
Qed.

Lemma ws_short p e sb ep j k w :
  (15 <= p_size_bits p)%N -> strain w -> wf w -> supported (ep_alg ep) j ->
  caller_key (ep_secret_key ep) (ep_secret_key_length ep) k -> (0 < ep_secret_key_length ep <= 8192)%N ->
  exists o, andthen (key_room p) (fun _ => sign_part p e ep j k (cb_elems sb)) o
    /\ appends (write_signature p e sb ep w) (fun t _ r => r = (L8W8JWT_SUCCESS, grown sb t))
         (fun rc _ r => rc <> L8W8JWT_SUCCESS /\ fst r = rc) o.
Proof.
  intros Hp R Hwf Hj Hk Hn. unfold write_signature.
  assert (Hfree : forall w rc sb' sg w1, wf w -> write_signature_body p e sb ep w = Ret (rc, sb', sg) w1 ->
            exists w2, free sg w1 = Ret tt w2 /\ quiet w w2).
  { clear -Hp. intros w rc sb' sg w1 Hwf H. apply wsb_inv in H; [|lia|auto].
    destruct H as [(_ & _ & -> & Q)|(_ & _ & Q & (m & ->) & _)].
    - exists w1. split; [reflexivity|exact Q].
    - exists (w_free w1 (w_next w)). cbn [free]. split; [|apply quiet_alloc_free; auto].
      apply free_id_eq. eapply quiet_live; [exact Q|]. cbn. apply upd_live_same. }
  destruct (p_small_stack p) eqn:Es.
  - unfold mbind at 1. rewrite calloc_eq. destruct (w_alloc w (w_next w)) eqn:A.
    2:{ assert (Nm : no_mem) by (destruct R; eauto). unfold mbind at 1. rewrite calloc_eq.
        change (w_alloc (w_no w)) with (w_alloc w). cbn [is_null orb].
        destruct (w_alloc w (w_next (w_no w))).
        - exists (Fails 300). split; [apply At_stop; [apply Kr_memory; auto|discriminate]|].
          unfold mbind at 1. cbn [mret]. unfold mbind at 1. unfold zeroize.
          replace (negb _) with false by (rewrite repeat_length; symmetry; apply negb_false_iff, N.leb_le; lia).
          cbn [w_ok w_live]. rewrite upd_live_same. unfold mbind at 1. cbn [free mret]. unfold mbind at 1.
          rewrite free_id_eq by (cbn; apply upd_live_same). unfold mbind at 1. cbn [mret].
          do 2 eexists. split; [reflexivity|]. split; [discriminate|reflexivity].
        - exists (Breaks NullDeref). split; [apply At_stop; [apply Kr_null; auto|discriminate]|]. reflexivity. }
    unfold mbind at 1.
    rewrite calloc_eq. change (w_alloc (w_ok w)) with (w_alloc w). destruct (w_alloc w (w_next (w_ok w))) eqn:A2.
    2:{ assert (Nm : no_mem) by (destruct R; eauto).
        exists (Breaks NullDeref). split; [apply At_stop; [apply Kr_null; auto|discriminate]|]. reflexivity. }
    cbn [is_null orb].
    destruct (wsb_short p e sb ep j k (w_ok (w_ok w)) Hp (strain_ok _ (strain_ok _ R)) Hj Hk Hn) as (o & S & D). exists o.
    split; [eapply At_go; [apply Kr_ok|exact S]|].
    assert (Rest : forall rc sb' sg w1, write_signature_body p e sb ep (w_ok (w_ok w)) = Ret (rc, sb', sg) w1 ->
      exists w', (_ <- zeroize (Ptr (Some (w_next (w_ok w))) (repeat x00 (N.to_nat L8W8JWT_MAX_KEY_SIZE))) L8W8JWT_MAX_KEY_SIZE ;;
        _ <- free sg ;; _ <- free (Ptr (Some (w_next (w_ok w))) (repeat x00 (N.to_nat L8W8JWT_MAX_KEY_SIZE))) ;;
        _ <- free (Ptr (Some (w_next w)) (repeat x00 (N.to_nat SIGBUF))) ;; mret (rc, sb')) w1 = Ret (rc, sb') w').
    { intros rc sb' sg w1 H1. destruct (Hfree _ _ _ _ _ (wf_ok _ (wf_ok _ Hwf)) H1) as (w2 & H2 & Q).
      unfold mbind at 1. unfold zeroize.
      replace (negb _) with false by (rewrite repeat_length; symmetry; apply negb_false_iff, N.leb_le; lia).
      assert (L1 : w_live w1 (w_next (w_ok w)) = true).
      { apply wsb_inv in H1; [|lia|auto using wf_ok].
        destruct H1 as [(_ & _ & _ & Q1)|(_ & _ & Q1 & _)]; eapply quiet_live; try exact Q1.
        - cbn. apply upd_live_same.
        - cbn. unfold upd_live. rewrite Nat.eqb_refl. destruct (Nat.eqb _ _); reflexivity. }
      rewrite L1. mstep H2.
      cbn [free]. unfold mbind at 1. rewrite free_id_eq.
      2:{ eapply quiet_live; [exact Q|]. cbn. apply upd_live_same. }
      unfold mbind at 1. rewrite free_id_eq.
      2:{ cbn [w_free w_live]. rewrite upd_live_other by (cbn; lia).
          eapply quiet_live; [exact Q|]. cbn [w_ok w_live w_next]. rewrite upd_live_other by lia.
          apply upd_live_same. }
      eexists. reflexivity. }
    destruct o as [s|rc|u]; cbn [appends] in D |- *.
    + destruct D as (((rc & sb') & sg) & w1 & H & E). cbn [fst] in E. injection E as -> ->. mstep H.
      destruct (Rest _ _ _ _ H) as (w' & K). do 2 eexists. split; [exact K|reflexivity].
    + destruct D as (((rc' & sb') & sg) & w1 & H & Nz & E). cbn [fst] in E. subst rc'. mstep H.
      destruct (Rest _ _ _ _ H) as (w' & K). do 2 eexists. split; [exact K|]. auto.
    + unfold mbind at 1. rewrite D. reflexivity.
  - destruct (wsb_short p e sb ep j k w Hp R Hj Hk Hn) as (o & S & D). exists o. split; [eapply At_go; [apply Kr_ok|exact S]|].
    destruct o as [s|rc|u]; cbn [appends] in D |- *.
    + destruct D as (((rc & sb') & sg) & w1 & H & E). cbn [fst] in E. injection E as -> ->.
      destruct (Hfree _ _ _ _ _ Hwf H) as (w2 & H2 & Q). mstep H. mstep H2. do 2 eexists. split; reflexivity.
    + destruct D as (((rc' & sb') & sg) & w1 & H & Nz & E). cbn [fst] in E. subst rc'.
      destruct (Hfree _ _ _ _ _ Hwf H) as (w2 & H2 & Q). mstep H. mstep H2. do 2 eexists. split; [reflexivity|]. auto.
    + unfold mbind at 1. rewrite D. reflexivity.
Qed.

(** ** The token *)
Lemma encode_short p e ep w :
  (15 <= p_size_bits p)%N -> strain w -> wf w -> enc_given ep ->
  exists o, encoding_short p e ep o
    /\ appends (l8w8jwt_encode p e (Some ep) w)
         (fun t _ r => exists id, r = EncRes L8W8JWT_SUCCESS (Some (Ptr (Some id) (t ++ [x00]))) (Some (N.of_nat (length t))))
         (fun rc _ r => rc <> L8W8JWT_SUCCESS /\ (r = EncRes rc None None \/ (no_mem /\ rc = 300%Z /\ r = EncRes rc (Some Null) None))) o.
Proof.
  intros Hp R Hwf Hr. unfold l8w8jwt_encode.
  assert (Am : forall i, w_alloc w i = false -> no_mem) by (destruct R; eauto).
  destruct (checked ep) as [(Nz & C)|(Ev & Nn & Nb)].
  { destruct (Z.eqb_spec (l8w8jwt_validate_encoding_params (Some ep)) L8W8JWT_SUCCESS) as [E|_]; [contradiction|]. cbn [negb].
    exists (Fails (l8w8jwt_validate_encoding_params (Some ep))). split.
    - destruct C as [(N & ->)|(N & B & ->)]; [apply Sh_null; exact N|apply Sh_bad; auto].
    - do 2 eexists. split; [reflexivity|]. split; [exact Nz|left; reflexivity]. }
  rewrite Ev. cbn [negb Z.eqb L8W8JWT_SUCCESS].
  assert (Hk : exists k, caller_key (ep_secret_key ep) (ep_secret_key_length ep) k).
  { destruct Hr as (_ & _ & _ & _ & _ & _ & [H|H]); [|exact H]. destruct Nn. left. exact H. }
  destruct Hk as (k & Hk).
  assert (Hn : (0 < ep_secret_key_length ep <= 8192)%N) by (unfold bad_args in Nb; lia).
  unfold mbind at 1. rewrite cb_init_eq. destruct (w_alloc w (w_next w)) eqn:A.
  2:{ exists (Fails 300). split; [apply Sh_memory; eauto|]. do 2 eexists. split; [reflexivity|]. split; [discriminate|left; reflexivity]. }
  pose proof (wf_ok _ Hwf) as W1.
  assert (L : w_live (w_ok w) (w_next w) = true) by (cbn; apply upd_live_same).
  assert (Hfree : forall (sb' : chillbuff byte) w' (res : enc_res), cb_id sb' = w_next w -> w_live w' (w_next w) = true ->
            exists w'', (_ <- cb_free sb' ;; mret res) w' = Ret res w'').
  { intros sb' w' res I Lv. unfold cb_free. rewrite I. unfold mbind. rewrite free_id_eq by exact Lv. eexists. reflexivity. }
  destruct (w_alloc (w_ok w) (w_next (w_ok w))) eqn:A1.
  2:{ exists (Fails 300). split; [apply Sh_memory; eauto|]. unfold encode_body.
      assert (E : write_header_and_payload p (CB (w_next w) []) ep (w_ok w) = Ret (L8W8JWT_OUT_OF_MEM, CB (w_next w) []) (w_no (w_ok w)))
        by (unfold write_header_and_payload, mbind at 1; rewrite cb_init_eq, A1; reflexivity).
      cbn [appends]. unfold mbind at 1. mstep E. cbn [negb Z.eqb L8W8JWT_SUCCESS L8W8JWT_OUT_OF_MEM mret].
      destruct (Hfree (CB (w_next w) []) (w_no (w_ok w)) (EncRes L8W8JWT_OUT_OF_MEM None None) eq_refl L) as (w'' & K).
      do 2 eexists. split; [exact K|]. split; [discriminate|left; reflexivity]. }
  destruct (Z_le_dec 0 (ep_alg ep)) as [R0|R0]; [destruct (Z_le_dec (ep_alg ep) 13) as [R1|R1]|].
  2,3: assert (Ns : forall j, ~ supported (ep_alg ep) j) by (intros j Hj; apply supported_range in Hj; lia);
    exists (Fails 200); split; [apply Sh_alg; auto|]; unfold encode_body;
    assert (E : exists w', write_header_and_payload p (CB (w_next w) []) ep (w_ok w) = Ret (L8W8JWT_INVALID_ARG, CB (w_next w) []) w' /\ w_live w' (w_next w) = true);
    [unfold write_header_and_payload, mbind at 1; rewrite cb_init_eq, A1, header_prefix_none by lia; unfold cb_free, mbind; cbn [cb_id];
     rewrite free_id_eq by (cbn; apply upd_live_same); eexists; split; [reflexivity|]; cbn [w_free w_live w_ok w_next]; rewrite !upd_live_other by lia; apply upd_live_same|];
    destruct E as (w' & E & Lw); unfold mbind at 1; mstep E; cbn [negb Z.eqb L8W8JWT_SUCCESS L8W8JWT_INVALID_ARG mret];
    destruct (Hfree (CB (w_next w) []) w' (EncRes L8W8JWT_INVALID_ARG None None) eq_refl Lw) as (w'' & K);
    do 2 eexists; split; [exact K|]; split; [discriminate|left; reflexivity].
  destruct (supported_exists (ep_alg ep)) as (j & Hj); [lia|].
  destruct (whp_short p (CB (w_next w) []) ep j (w_ok w)) as (o1 & T & D); [lia|auto using strain_ok..|].
  unfold encode_body.
  destruct o1 as [t|rc|u]; cbn [appends] in D.
  2:{ destruct D as ((rc' & sb1) & w1 & D & Nz & E). cbn [fst] in E. subst rc'.
      exists (Fails rc). split; [eapply Sh_go; eauto; apply At_stop; [exact T|discriminate]|]. unfold mbind at 1. mstep D.
      apply whp_inv in D as (Q & I & _); [|lia|auto]. destruct (Z.eqb_spec rc L8W8JWT_SUCCESS) as [E|_]; [contradiction|]. cbn [negb mret].
      destruct (Hfree sb1 w1 (EncRes rc None None) I (quiet_live _ _ _ Q L)) as (w'' & K).
      do 2 eexists. split; [exact K|]. auto. }
  2:{ exists (Breaks u). split; [eapply Sh_go; eauto; apply At_stop; [exact T|discriminate]|]. unfold mbind at 1. unfold mbind at 1. cbn [appends]. rewrite D. reflexivity. }
  destruct D as (r1 & w1 & D & ->). unfold mbind at 1. mstep D. apply whp_inv in D as (Q & _ & _); [|lia|auto].
  cbn [negb Z.eqb L8W8JWT_SUCCESS]. unfold grown. cbn [cb_id cb_elems app].
  destruct (Z.eqb_spec (ep_alg ep) (-1)) as [E|_]; [lia|]. cbn [negb].
  assert (W2 : wf w1) by (eapply wf_quiet; eauto).
  destruct (ws_short p e (CB (w_next w) t) ep j k w1 Hp (strain_quiet _ _ Q (strain_ok _ R)) W2) as (o2 & S & D); auto.
  cbn [cb_elems] in S.
  assert (S' : signed_short p e ep j k t (match o2 with Made s => Made (t ++ s) | _ => o2 end)).
  { inversion S as [o' S1 N1|m o' S1 S2]; subst.
    - destruct o2; [destruct (N1 t0); reflexivity|..]; apply At_stop; auto.
    - eapply At_go; [exact S1|]. inversion S2 as [o' S3 N3|m' o' S3 S4]; subst.
      + destruct o2; [destruct (N3 t0); reflexivity|..]; apply At_stop; auto.
      + eapply At_go; [exact S3|]. inversion S4 as [o' S5 N5|m2 o' S5 S6]; subst.
        * destruct o2; [destruct (N5 t0); reflexivity|..]; apply At_stop; auto.
        * eapply At_go; [exact S5|]. destruct S6 as [(Nm & ->)|(s & Ks & ->)]; [left; auto|right; exists s; auto]. }
  destruct o2 as [s|rc|u]; cbn [appends] in D.
  2:{ destruct D as ((rc' & sb1) & w2 & D & Nz & E). cbn [fst] in E. subst rc'.
      exists (Fails rc). split; [eapply Sh_go; eauto; eapply At_go; [exact T|exact S']|].
      mstep D. apply ws_inv in D as (Q2 & I & _); [|lia|auto]. destruct (Z.eqb_spec rc L8W8JWT_SUCCESS) as [E|_]; [contradiction|]. cbn [negb mret].
      destruct (Hfree sb1 w2 (EncRes rc None None) I (quiet_live _ _ _ (quiet_trans _ _ _ Q Q2) L)) as (w'' & K).
      do 2 eexists. split; [exact K|]. auto. }
  2:{ exists (Breaks u). split; [eapply Sh_go; eauto; eapply At_go; [exact T|exact S']|].
      unfold mbind at 1. cbn [appends]. rewrite D. reflexivity. }
  destruct D as (r2 & w2 & D & ->). mstep D. apply ws_inv in D as (Q2 & _ & _); [|lia|auto]. unfold grown. cbn [cb_id cb_elems].
  cbn [negb Z.eqb L8W8JWT_SUCCESS].
  set (tok := t ++ s) in *. clearbody tok.
  destruct (write_token_total (CB (w_next w) tok) w2) as (res & w3 & K).
  assert (L2 : w_live w2 (w_next w) = true) by (eapply quiet_live; [|exact L]; eapply quiet_trans; eauto).
  mstep K. cbn [mret].
  pose proof K as K'. apply write_token_inv in K' as [(-> & F & ->)|(-> & _ & ->)].
  - assert (Nm : no_mem) by (destruct (strain_quiet _ _ (quiet_trans _ _ _ Q Q2) (strain_ok _ R)); eauto).
    exists (Fails 300). split; [apply Sh_memory; auto|].
    match goal with |- context [mret ?r] => destruct (Hfree (CB (w_next w) tok) (w_no w2) r eq_refl) as (w'' & K2) end; [exact L2|].
    do 2 eexists. split; [exact K2|]. split; [discriminate|right; auto].
  - exists (Made tok). split; [eapply Sh_go; eauto; eapply At_go; [exact T|exact S']|].
    match goal with |- context [mret ?r] => destruct (Hfree (CB (w_next w) tok) (w_ok w2) r eq_refl) as (w'' & K2) end.
    { cbn [w_ok w_live]. unfold upd_live at 1. destruct (Nat.eqb _ _); [reflexivity|]. exact L2. }
    do 2 eexists. split; [exact K2|]. exists (w_next w2). reflexivity.
Qed.
End Short.

(** ** If nothing is refused *)
Definition entry_text (x : entry) : bytes :=
  quoted (spelling (en_name x)) ++ lit ":" ++ (if en_string x then quoted (spelling (en_value x)) else en_value x).
Section Exact.
Variables no_mem no_room : Prop.
Hypothesis Hroom : ~ no_room.
Lemma kept_exact ps t : kept no_room ps t -> t = concat ps.
Proof. intros (qs & _ & -> & [->|R]); [reflexivity|contradiction]. Qed.
Lemma concat_spelled s : concat (map spelled s) = spelling s.
Proof. unfold spelling. rewrite flat_map_concat_map. reflexivity. Qed.
Lemma entry_exact first x t : entry_short no_room first x t -> t = (if first then [] else lit ",") ++ entry_text x.
Proof.
  intros [n v u Kn Kv Kt]. apply kept_exact in Kn, Kt. rewrite concat_spelled in Kn. subst n u. unfold entry_text.
  rewrite concat_app. f_equal; [destruct first; reflexivity|].
  destruct (en_string x).
  - apply kept_exact in Kv. rewrite concat_spelled in Kv. subst v. unfold quoted. cbn [concat app lit].
    rewrite ?app_nil_r. change (lit """") with [x22]. change (lit """:") with (x22 :: lit ":"). cbn [app]. rewrite <- !app_assoc. reflexivity.
  - subst v. unfold quoted. cbn [concat app]. rewrite ?app_nil_r. change (lit """") with [x22]. change (lit """:") with (x22 :: lit ":"). cbn [app].
    rewrite <- !app_assoc. reflexivity.
Qed.
Lemma entries_exact first es t : entries_short no_room first es t -> t = (if first then join else join_more) (map entry_text es).
Proof.
  induction 1 as [[|]|first x xs t u H1 H2 IH]; [reflexivity..|]. apply entry_exact in H1. subst t u. cbn [map].
  destruct first; [rewrite join_cons; reflexivity|]. cbn [join_more flat_map]. rewrite <- app_assoc. reflexivity.
Qed.
Lemma entry_claim c x : entry_of c x -> claim_text c (entry_text x).
Proof. intros (K & V & E). exists (en_name x), (en_value x). split; [exact K|]. split; [exact V|]. unfold entry_text. rewrite E. reflexivity. Qed.
Lemma members_exact p cs o : members_short no_mem no_room p cs o -> members p cs o \/ (no_mem /\ o = Made []).
Proof.
  intros [es t N F S|X|Nm]; [left|left; apply M_foreign, X|right; auto].
  apply entries_exact in S. subst t. apply M_text; [exact N|]. clear N. induction F; constructor; auto using entry_claim.
Qed.
Lemma timed_exact name t a : spelling name = name -> timed_entry name t a -> timed name t (map entry_text a).
Proof. intros E [Z|d N D]; [constructor; exact Z|]. cbn [map]. unfold entry_text. cbn [en_name en_string en_value]. rewrite E. constructor; auto. Qed.
Lemma stringed_exact name q n a : spelling name = name -> string_entry name q n a -> stringed name q n (map entry_text a).
Proof. intros E [Z|v G]; [constructor; exact Z|]. cbn [map]. unfold entry_text. cbn [en_name en_string en_value]. rewrite E. constructor; auto. Qed.
Lemma registered_exact p ep o : registered_short no_mem no_room p ep o -> registered p ep o \/ (no_mem /\ o = Made []).
Proof.
  intros [es t N F S|X|Nm]; [left|left; apply R_foreign, X|right; auto].
  apply entries_exact in S. subst t. destruct F as [iat nbf exp sub iss aud jti F1 F2 F3 F4 F5 F6 F7].
  rewrite !map_app. apply R_text; auto using timed_exact, stringed_exact; apply timed_exact || apply stringed_exact; auto.
Qed.
Hypothesis Hmem : ~ no_mem.
Lemma andthen_mono (A A' : product -> Prop) (B B' : bytes -> product -> Prop) o :
  (forall o, A o -> A' o) -> (forall t o, A (Made t) -> B t o -> B' t o) -> andthen A B o -> andthen A' B' o.
Proof. intros HA HB [o' H N|t o' H K]; [apply At_stop; auto|eapply At_go; eauto]. Qed.
Lemma members_exact' p cs o : members_short no_mem no_room p cs o -> members p cs o.
Proof. intros H. apply members_exact in H as [H|(N & _)]; [exact H|contradiction]. Qed.
Lemma registered_exact' p ep o : registered_short no_mem no_room p ep o -> registered p ep o.
Proof. intros H. apply registered_exact in H as [H|(N & _)]; [exact H|contradiction]. Qed.
Lemma header_exact p ep j o : header_short no_mem no_room p ep j o -> header p ep j o.
Proof.
  unfold header_short, header. destruct (_ =? 0)%N.
  - intros (t & K & ->). apply kept_exact in K. subst t. cbn [concat]. rewrite app_nil_r, <- app_assoc. reflexivity.
  - apply andthen_mono; [apply members_exact'|]. intros t o' _ (a & b & Ka & Kb & ->). apply kept_exact in Ka, Kb. subst a b.
    cbn [concat]. rewrite !app_nil_r, <- !app_assoc. reflexivity.
Qed.
Lemma payload_exact p ep o : payload_short no_mem no_room p ep o -> payload p ep o.
Proof.
  unfold payload_short, payload. apply andthen_mono; [apply registered_exact'|]. intros r o' _. destruct (_ =? 0)%N.
  - intros (a & b & Ka & Kb & ->). apply kept_exact in Ka, Kb. subst a b. cbn [concat]. rewrite !app_nil_r. reflexivity.
  - apply andthen_mono; [apply members_exact'|]. intros t o2 _ (sep & a & b & c & Hs & Ka & Kb & Kc & ->).
    apply kept_exact in Ka, Kb, Kc. subst a b c. exists sep. split; [exact Hs|]. cbn [concat]. rewrite !app_nil_r. reflexivity.
Qed.
Lemma based_exact p t o : t <> [] -> based_short no_mem p t o -> based p t o.
Proof. intros Nt [E|N _ _|o' _ B]; [contradiction|contradiction|exact B]. Qed.
Lemma header_not_empty p ep j t : header p ep j (Made t) -> t <> [].
Proof.
  unfold header. destruct (_ =? 0)%N; [intros H; injection H as <-; discriminate|].
  intros H. inversion H as [o N1 N2|m o M E]; subst; [destruct (N2 t); reflexivity|]. injection E as <-. discriminate.
Qed.
Lemma payload_not_empty p ep t : payload p ep (Made t) -> t <> [].
Proof.
  intros H. inversion H as [o N1 N2|r o R K]; subst; [destruct (N2 t); reflexivity|]. destruct (_ =? 0)%N; [injection K as <-; discriminate|].
  inversion K as [o N1 N2|m o M (sep & _ & E)]; subst; [destruct (N2 t); reflexivity|]. injection E as ->. discriminate.
Qed.
Lemma tbs_exact p ep j o : to_be_signed_short no_mem no_room p ep j o -> to_be_signed p ep j o.
Proof.
  unfold to_be_signed_short, to_be_signed. apply andthen_mono; [apply header_exact|]. intros ht o1 Hh.
  apply header_exact, header_not_empty in Hh. apply andthen_mono; [intros; apply based_exact; auto|]. intros h o2 _.
  apply andthen_mono; [apply payload_exact|]. intros pt o3 Hpt. apply payload_exact, payload_not_empty in Hpt.
  apply andthen_mono; [intros; apply based_exact; auto|]. intros pl o4 _ (t & K & ->). apply kept_exact in K. subst t.
  cbn [concat]. rewrite app_nil_r. reflexivity.
Qed.
Lemma encoding_exact p e ep o : encoding_short no_mem no_room p e ep o -> encoding p e ep o.
Proof.
  intros [N|N B|Nm|N B A|j k o' N B Hj Hk H]; [apply En_null|apply En_bad|contradiction|apply En_alg|eapply En_go]; eauto.
  revert H. apply andthen_mono; [apply tbs_exact|]. intros msg o1 _ H. unfold signed_short in H.
  inversion H as [o2 [|Nm|Nm] N2|t o2 _ S]; subst; try contradiction; [destruct (N2 []); reflexivity|].
  revert S. apply andthen_mono; [auto|]. intros u o3 _. apply andthen_mono.
  - intros o4 [o5 S|Nm]; [exact S|contradiction].
  - intros sig o4 _ [(Nm & _)|(t' & K & ->)]; [contradiction|]. apply kept_exact in K. subst t'. cbn [concat]. rewrite app_nil_r. reflexivity.
Qed.
End Exact.
