(** * Properties C10, C12, C13, C35, C47: claims *)
From Verif Require Import Base BaseProofs HeapProofs Util UtilProofs Claim Jsmn Env Encode Decode
  SpecJson ClaimProofs UnescapeProofs LocalProofs.
From Coq Require Import ZifyBool ZifyNat ZifyN.
Ltac Zify.zify_post_hook ::= Z.div_mod_to_equations.

Definition p_s : platform := Platform 64 true false true true.
Definition w_s : world :=
  World (fun _ => true) (fun _ => true) (fun _ _ => xff) 1 0 (fun _ => false).
Definition cstr (s : string) : ptr := Ptr None (clit s).
Arguments cstr s%string_scope.

(** ** C10 *)
(** The text of one member: a JSON string denoting the key, a colon, and for a string claim a JSON
    string denoting the value, otherwise the caller's value bytes. *)
Definition denotes_member (c : claim) (t : bytes) : Prop :=
  exists k v kb, given (c_key c) (c_key_length c) k /\ given (c_value c) (c_value_length c) v
    /\ json_body kb k
    /\ (c_type c = 0%Z ->
        exists vb, json_body vb v /\ t = quoted kb ++ lit ":" ++ quoted vb)
    /\ (c_type c <> 0%Z -> t = quoted kb ++ lit ":" ++ v).

Lemma text_of_denotes c t : text_of c t -> denotes_member c t.
Proof.
  intros (k & v & Hk & Hv & ->). exists k, v, (escape k).
  split; [exact Hk|]. split; [exact Hv|]. split; [apply escape_body|].
  unfold member_bytes, is_str. split; intros H.
  - exists (escape v). split; [apply escape_body|]. rewrite H. reflexivity.
  - apply Z.eqb_neq in H. change L8W8JWT_CLAIM_TYPE_STRING with 0%Z. rewrite H. reflexivity.
Qed.

(** Whatever l8w8jwt_write_claims appended is the comma-separated texts of the claims that have a
    key, in order, each of them denoting that claim. *)
Theorem C10_no_json_injection :
  forall p sb claims n w sb' w',
    wf w -> appended w w' ->
    l8w8jwt_write_claims p sb claims n w = Ret (L8W8JWT_SUCCESS, sb') w' ->
    exists b cs ts,
      claims = CArr b cs /\ (n <= N.of_nat (length cs))%N
      /\ cb_elems sb' = cb_elems sb ++ join ts
      /\ Forall2 denotes_member
           (filter (fun c => negb (is_null (c_key c))) (firstn (N.to_nat n) cs)) ts.
Proof.
  intros p sb claims n w sb' w' Hwf Hg H. as_growing (local_write_claims p sb claims n) H Hg.
  apply write_claims_inv in H as (_ & _ & H); auto.
  destruct H as [(H & _)|[(H & _)|[(H & _)|H]]]; try discriminate.
  destruct H as (_ & _ & _ & b & cs & -> & Hl & _ & ts & Hts & He).
  exists b, cs, ts. split; [reflexivity|]. split; [exact Hl|]. split; [auto|].
  clear - Hts. revert ts Hts. change (fun c => negb (is_null (c_key c))) with has_key.
  induction (filter has_key (firstn (N.to_nat n) cs)) as [|c l IH]; intros ts Hts;
    inversion Hts; subst; constructor; auto using text_of_denotes.
Qed.
Print Assumptions C10_no_json_injection.

(** A JSON string body contains no quote that is not behind a backslash, no control character, and
    no backslash at its end; and it denotes only one string. *)
Theorem C10_string_body_closed :
  forall t d, json_body t d ->
    (forall c, In c t -> (32 <= b2n c)%N)
    /\ (forall t1 t2, t = t1 ++ x22 :: t2 -> exists t0, t1 = t0 ++ [x5c])
    /\ (forall d', json_body t d' -> d' = d).
Proof.
  intros t d H. split; [|split].
  - assert (Hx : forall c v, hexdig c = Some v -> (32 <= b2n c)%N).
    { intros c v Hc. revert v Hc.
      assert (S : forallb (fun c => match hexdig c with None => true | Some _ => (32 <=? b2n c)%N end)
                    all_bytes = true) by (vm_compute; reflexivity).
      pose proof (sweep1 _ S c) as Hs. cbv beta in Hs. intros v Hc. rewrite Hc in Hs. lia. }
    assert (Hu : forall a b c d u, code_unit a b c d = Some u ->
               (32 <= b2n a /\ 32 <= b2n b /\ 32 <= b2n c /\ 32 <= b2n d)%N).
    { unfold code_unit. intros a b c e u.
      destruct (hexdig a) eqn:E1; [|discriminate]. destruct (hexdig b) eqn:E2; [|discriminate].
      destruct (hexdig c) eqn:E3; [|discriminate]. destruct (hexdig e) eqn:E4; [|discriminate].
      intros _. repeat split; eauto. }
    induction H; intros x Hin; simpl in Hin.
    + contradiction.
    + destruct Hin as [<-|Hin]; auto.
    + assert (32 <= b2n e)%N.
      { simpl in H. decompose [or] H; try contradiction;
          match goal with K : (_, _) = (_, _) |- _ => inversion K; subst; vm_compute; discriminate end. }
      destruct Hin as [<-|[<-|Hin]]; auto. vm_compute. discriminate.
    + apply Hu in H. decompose [or] Hin; subst; try tauto; auto; vm_compute; discriminate.
    + apply Hu in H. apply Hu in H1. decompose [or] Hin; subst; try tauto; auto;
        vm_compute; discriminate.
  - assert (Hx : hexdig x22 = None) by reflexivity.
    induction H; intros t1 t2 E.
    + destruct t1; discriminate.
    + destruct t1 as [|y t1]; inversion E; subst; [congruence|].
      destruct (IHjson_body _ _ eq_refl) as (t0 & ->). exists (y :: t0). reflexivity.
    + destruct t1 as [|y t1]; inversion E; subst.
      destruct t1 as [|z t1]; inversion E; subst; [exists []; reflexivity|].
      destruct (IHjson_body _ _ eq_refl) as (t0 & ->). exists (x5c :: z :: t0). reflexivity.
    + unfold code_unit in H.
      do 6 (destruct t1 as [|? t1];
            [injection E as E0 E; try discriminate E0; subst; rewrite Hx in H;
             repeat (destruct (hexdig _); try discriminate)
            |injection E as E0 E; subst]).
      destruct (IHjson_body _ _ eq_refl) as (t0 & ->). eexists (_ :: _ :: _ :: _ :: _ :: _ :: t0). reflexivity.
    + unfold code_unit in H, H1.
      do 12 (destruct t1 as [|? t1];
            [injection E as E0 E; try discriminate E0; subst; rewrite ?Hx in H; rewrite ?Hx in H1;
             clear - H H1; repeat (destruct (hexdig _); try discriminate)
            |injection E as E0 E; subst]).
      destruct (IHjson_body _ _ eq_refl) as (t0 & ->).
      eexists (_ :: _ :: _ :: _ :: _ :: _ :: _ :: _ :: _ :: _ :: _ :: _ :: t0). reflexivity.
  - intros d' Hd'. symmetry. eapply json_body_det; eauto.
Qed.
Print Assumptions C10_string_body_closed.

(** The call is defined (so the theorem above applies) when the claims are readable and, on
    platforms with signed [char], their text is ASCII. *)
Theorem C10_write_claims_defined :
  forall p sb b cs n w,
    wf w -> (n <= N.of_nat (length cs))%N -> Forall (readable p) (firstn (N.to_nat n) cs) ->
    exists rc sb' w', l8w8jwt_write_claims p sb (CArr b cs) n w = Ret (rc, sb') w'
      /\ ((0 < n)%N -> w_alloc w (w_next w) = true -> rc = L8W8JWT_SUCCESS).
Proof.
  intros p sb b cs n w Hwf Hn Hr.
  destruct (write_claims_total p sb b cs n w Hn Hr Hwf) as ((rc & sb') & w' & H).
  exists rc, sb', w'. split; [exact H|]. intros H0 Ha.
  apply write_claims_inv in H as (_ & _ & H); auto.
  destruct H as [(H & E & _)|[(H & E & _)|[(H & E & _)|(H & _)]]]; auto; try discriminate.
  - lia.
  - congruence.
Qed.
Print Assumptions C10_write_claims_defined.
(** That restriction is needed: with signed [char] a non-ASCII character indexes the escape table
    with a negative number. *)
Theorem C10_non_ascii_undefined :
  exists p w c, wf w /\ p_char_signed p = true /\ given (c_value c) (c_value_length c) [xc3; xa9]
    /\ l8w8jwt_write_claims p (CB 0%nat []) (CArr None [c]) 1 w = Undef BadIndex.
Proof.
  exists p_s, w_s, (Claim (cstr "name") 4 (Ptr None [xc3; xa9; x00]) 2 L8W8JWT_CLAIM_TYPE_STRING).
  split; [intros i _; reflexivity|]. split; [reflexivity|].
  split; [split; [vm_compute; discriminate|reflexivity]|]. vm_compute. reflexivity.
Qed.
Print Assumptions C10_non_ascii_undefined.

Definition c10_claims : list claim :=
  [ Claim (cstr "a""b") 0 (Ptr None (lit "x"",""adm"":true" ++ [x01; x00])) 0 0;
    Claim Null 0 Null 0 0;
    Claim (cstr "n") 1 (cstr "27junk") 2 1 ].
Example C10_example :
  exists w', l8w8jwt_write_claims p_s (CB 0%nat (lit "{")) (CArr None c10_claims) 3 w_s
    = Ret (L8W8JWT_SUCCESS,
           CB 0%nat (lit "{""a\""b"":""x\"",\""adm\"":true\u0001"",""n"":27")) w'.
Proof. eexists. vm_compute. reflexivity. Qed.
Example C10_example_readable : Forall (readable p_s) c10_claims.
Proof.
  constructor; [|constructor; [|constructor; [|constructor]]].
  - right. exists (lit "a""b"), (lit "x"",""adm"":true" ++ [x01]).
    split; [exists []; split; [reflexivity|vm_compute; intuition discriminate]|].
    split; [exists []; split; [reflexivity|vm_compute; intuition discriminate]|].
    split; [|intros _]; repeat constructor; intros _; vm_compute; reflexivity.
  - left. reflexivity.
  - right. exists (lit "n"), (lit "27").
    split; [split; [vm_compute; discriminate|reflexivity]|].
    split; [split; [vm_compute; discriminate|reflexivity]|].
    split; [|intros _]; repeat constructor; intros _; vm_compute; reflexivity.
Qed.

(** ** C12 *)
(** [decoded c k v]: the claim's key and value are the C strings [k] and [v] with their lengths. *)
Definition decoded (c : claim) (k v : bytes) : Prop :=
  (exists b r, c_key c = Ptr b (k ++ x00 :: r)) /\ c_key_length c = N.of_nat (length k)
  /\ (exists b r, c_value c = Ptr b (v ++ x00 :: r)) /\ c_value_length c = N.of_nat (length v).

Lemma Forall2_nil_l {A B} (R : A -> B -> Prop) l : Forall2 R [] l -> l = [].
Proof. intros H. inversion H. reflexivity. Qed.
Lemma Forall2_cons_iff {A B} (R : A -> B -> Prop) x y l m :
  Forall2 R (x :: l) (y :: m) <-> R x y /\ Forall2 R l m.
Proof. split; [intros H; inversion H; auto|intros [H K]; constructor; auto]. Qed.
Lemma padded_terminated s n : (length s <= N.to_nat n)%nat -> exists r, padded s n = s ++ x00 :: r.
Proof.
  intros H. unfold padded. exists (repeat x00 (N.to_nat n - length s)). f_equal.
  replace (N.to_nat (n + 1) - length s)%nat with (S (N.to_nat n - length s)) by lia. reflexivity.
Qed.

(** One string claim written by the encoder, then the two texts between its quotes turned into a
    claim by the decoder: the original key and value come back if and only if neither contains a
    control character other than \b \t \n \f \r, or DEL. *)
Theorem C12_escape_round_trip_partial :
  forall p k v kq vq kn vn id w sb' w1,
    wf w -> appended w w1 -> given kq kn k -> given vq vn v ->
    l8w8jwt_write_claims p (CB id []) (CArr None [Claim kq kn vq vn L8W8JWT_CLAIM_TYPE_STRING]) 1 w
    = Ret (L8W8JWT_SUCCESS, sb') w1 ->
    exists kb vb,
      cb_elems sb' = quoted kb ++ lit ":" ++ quoted vb
      /\ forall w2, w_alloc w2 (w_next w2) = true -> w_alloc w2 (S (w_next w2)) = true ->
         (N.of_nat (length kb) + 1 < size_mod p)%N -> (N.of_nat (length vb) + 1 < size_mod p)%N ->
         exists c w3,
           l8w8jwt_unescape_claim p L8W8JWT_CLAIM_TYPE_STRING kb (N.of_nat (length kb))
             vb (N.of_nat (length vb)) w2 = Ret (L8W8JWT_SUCCESS, Some c) w3
           /\ (decoded c k v <-> Forall survives k /\ Forall survives v).
Proof.
  intros p k v kq vq kn vn id w sb' w1 Hwf Hg Hk Hv H.
  match type of H with l8w8jwt_write_claims ?a ?b ?c ?d _ = _ => as_growing (local_write_claims a b c d) H Hg end.
  apply write_claims_inv in H as (_ & _ & H); auto.
  destruct H as [(H & _)|[(H & _)|[(H & _)|H]]]; try discriminate.
  destruct H as (_ & _ & _ & b & cs & E & _ & _ & ts & Hts & He). inversion E; subst. clear E.
  assert (En : is_null kq = false) by (destruct kq; [contradiction|reflexivity]).
  assert (Ef : forall c : claim, firstn (N.to_nat 1) [c] = [c]) by reflexivity.
  rewrite Ef in Hts. cbn [filter] in Hts. unfold has_key in Hts. cbn [c_key] in Hts.
  rewrite En in Hts.
  cbn [negb] in Hts. destruct ts as [|t ts']; [inversion Hts|].
  apply Forall2_cons_iff in Hts as ((k' & v' & Hk' & Hv' & ->) & Hts').
  apply Forall2_nil_l in Hts'. subst ts'. cbn [c_key c_key_length c_value c_value_length] in Hk', Hv'.
  assert (k' = k) by (eapply given_det; eauto). assert (v' = v) by (eapply given_det; eauto).
  subst. exists (escape k), (escape v).
  split; [rewrite (He Hg); reflexivity|].
  intros w2 Ha1 Ha2 Hs1 Hs2.
  rewrite unescape_claim_eq by lia. rewrite !Nat2N.id, !firstn_all.
  unfold unescape_fun. rewrite Ha1, Ha2. do 2 eexists. split; [reflexivity|].
  unfold decoded. cbn [c_key c_key_length c_value c_value_length].
  unfold claim_value_of. cbn [Z.eqb L8W8JWT_CLAIM_TYPE_STRING].
  rewrite <- !unesc_escape_iff. split.
  - intros ((b1 & r1 & E1) & L1 & (b2 & r2 & E2) & L2).
    injection E1 as _ E1'. injection E2 as _ E2'.
    assert (K : forall s n t r, padded s n = t ++ x00 :: r ->
                N.of_nat (length s) = N.of_nat (length t) -> s = t).
    { intros s n t r E L. apply (f_equal (firstn (length s))) in E. unfold padded in E.
      rewrite firstn_app_exact in E. assert (L' : length s = length t) by lia.
      rewrite L', firstn_app_exact in E. exact E. }
    split; eapply K; eauto.
  - intros (E1 & E2). rewrite E1, E2.
    destruct (padded_terminated k (N.of_nat (length (escape k)))) as (r1 & ->).
    { pose proof (unesc_length (escape k)). rewrite E1 in *. lia. }
    destruct (padded_terminated v (N.of_nat (length (escape v)))) as (r2 & ->).
    { pose proof (unesc_length (escape v)). rewrite E2 in *. lia. }
    split; [eauto|]. split; [reflexivity|]. split; [eauto|reflexivity].
Qed.
Print Assumptions C12_escape_round_trip_partial.

(** The claim as stated is false: the one-character value 0x1f comes back as the six characters
    \u001f. *)
Theorem C12_escape_round_trip_refuted :
  exists p w v kb vb w1 c w3,
    l8w8jwt_write_claims p (CB 0%nat [])
      (CArr None [Claim (cstr "k") 1 (Ptr None [v; x00]) 1 L8W8JWT_CLAIM_TYPE_STRING]) 1 w
    = Ret (L8W8JWT_SUCCESS, CB 0%nat (quoted kb ++ lit ":" ++ quoted vb)) w1
    /\ l8w8jwt_unescape_claim p L8W8JWT_CLAIM_TYPE_STRING kb (N.of_nat (length kb))
         vb (N.of_nat (length vb)) w1 = Ret (L8W8JWT_SUCCESS, Some c) w3
    /\ c_value_length c = 6%N /\ ~ decoded c (lit "k") [v].
Proof.
  exists p_s, w_s, x1f, (lit "k"), (lit "\u001f"). do 3 eexists.
  split; [vm_compute; reflexivity|]. split; [vm_compute; reflexivity|].
  split; [reflexivity|]. intros (_ & _ & _ & H). vm_compute in H. discriminate.
Qed.
Print Assumptions C12_escape_round_trip_refuted.
Example C12_example :
  Forall survives (lit "a/b""c\" ++ [x09; x0a; x0c; x08; x0d; xe2; x82; xac])
  /\ ~ survives x1f /\ ~ survives x7f /\ ~ survives x00.
Proof.
  split; [repeat (constructor; [apply survivesb_spec; reflexivity|]); constructor|].
  split; [|split]; intros H; apply survivesb_spec in H; discriminate.
Qed.

(** ** C13 *)
(** For every key text and value text inside the JSON buffer and every claim type: the call is
    defined; either it reports OUT_OF_MEM and leaves the heap as it was, or the claim owns two new
    blocks of exactly length + 1 bytes that are NUL at their stored length. *)
Theorem C13_unescape_in_bounds :
  forall p type key klen value vlen w,
    wf w -> (klen <= N.of_nat (length key))%N -> (vlen <= N.of_nat (length value))%N ->
    (klen + 1 < size_mod p)%N -> (vlen + 1 < size_mod p)%N ->
    exists rc oc w', l8w8jwt_unescape_claim p type key klen value vlen w = Ret (rc, oc) w'
    /\ ((rc = L8W8JWT_OUT_OF_MEM /\ oc = None /\ forall i, w_live w' i = w_live w i)
        \/ exists c kid kbuf vid vbuf,
             rc = L8W8JWT_SUCCESS /\ oc = Some c /\ c_type c = type
             /\ c_key c = Ptr (Some kid) kbuf /\ N.of_nat (length kbuf) = (klen + 1)%N
             /\ (c_key_length c <= klen)%N
             /\ nth_error kbuf (N.to_nat (c_key_length c)) = Some x00
             /\ c_value c = Ptr (Some vid) vbuf /\ N.of_nat (length vbuf) = (vlen + 1)%N
             /\ (c_value_length c <= vlen)%N
             /\ nth_error vbuf (N.to_nat (c_value_length c)) = Some x00
             /\ kid <> vid /\ w_live w kid = false /\ w_live w vid = false
             /\ forall i, w_live w' i = true <-> w_live w i = true \/ i = kid \/ i = vid).
Proof.
  intros p type key klen value vlen w Hwf Hk Hv Hkm Hvm.
  rewrite unescape_claim_eq by auto. unfold unescape_fun.
  assert (Eks : length (firstn (N.to_nat klen) key) = N.to_nat klen) by (rewrite firstn_length; lia).
  assert (Evs : length (firstn (N.to_nat vlen) value) = N.to_nat vlen) by (rewrite firstn_length; lia).
  set (ks := firstn (N.to_nat klen) key) in *. set (vs := firstn (N.to_nat vlen) value) in *.
  pose proof (unesc_length ks) as Hu1.
  assert (Hu2 : (length (claim_value_of type vs) <= length vs)%nat).
  { unfold claim_value_of. destruct (type =? L8W8JWT_CLAIM_TYPE_STRING)%Z;
      [apply unesc_length|rewrite ncpy_length; lia]. }
  assert (Hf : forall s n, (length s <= N.to_nat n)%nat ->
    N.of_nat (length (padded s n)) = (n + 1)%N /\ nth_error (padded s n) (length s) = Some x00).
  { intros s n Hs. split.
    - unfold padded. rewrite app_length, repeat_length. lia.
    - destruct (padded_terminated s n Hs) as (r & ->). rewrite nth_error_app2, Nat.sub_diag by lia.
      reflexivity. }
  destruct (w_alloc w (w_next w)) eqn:Ea1; destruct (w_alloc w (S (w_next w))) eqn:Ea2.
  - do 3 eexists. split; [reflexivity|]. right.
    do 5 eexists. split; [reflexivity|]. split; [reflexivity|]. split; [reflexivity|].
    cbn [c_key c_key_length c_value c_value_length].
    split; [reflexivity|].
    split; [rewrite (proj1 (Hf (unesc ks) (N.of_nat (length ks)) ltac:(lia))); lia|].
    split; [lia|].
    split; [rewrite Nat2N.id; apply Hf; lia|].
    split; [reflexivity|].
    split; [rewrite (proj1 (Hf (claim_value_of type vs) (N.of_nat (length vs)) ltac:(lia))); lia|].
    split; [lia|].
    split; [rewrite Nat2N.id; apply Hf; lia|].
    split; [lia|]. split; [apply Hwf; lia|]. split; [apply Hwf; lia|].
    intros i. cbn [w_ok w_live w_next]. unfold upd_live.
    destruct (Nat.eqb_spec i (S (w_next w))); [subst; intuition|].
    destruct (Nat.eqb_spec i (w_next w)); [subst; intuition|]. intuition.
  - do 3 eexists. split; [reflexivity|]. left. split; [reflexivity|]. split; [reflexivity|].
    intros i. cbn. unfold upd_live. destruct (Nat.eqb_spec i (w_next w)); auto.
    subst. symmetry. apply Hwf. lia.
  - do 3 eexists. split; [reflexivity|]. left. split; [reflexivity|]. split; [reflexivity|].
    intros i. cbn. unfold upd_live. destruct (Nat.eqb_spec i (S (w_next w))); auto.
    subst. symmetry. apply Hwf. lia.
  - do 3 eexists. split; [reflexivity|]. left. auto.
Qed.
Print Assumptions C13_unescape_in_bounds.
Example C13_example :
  exists w', l8w8jwt_unescape_claim p_s 0 (lit "k\tx") 2 (lit "\n\\\") 5 w_s
    = Ret (L8W8JWT_SUCCESS,
           Some (Claim (Ptr (Some 1%nat) [x6b; x5c; x00]) 2
                       (Ptr (Some 2%nat) [x0a; x5c; x5c; x00; x00; x00]) 3 0)) w'.
Proof. eexists. vm_compute. reflexivity. Qed.

(** ** C35 *)
(** Every counted claim's key is a C string, as in arrays handed out by l8w8jwt_decode whose keys
    contain no NUL. *)
Definition keyed (cs : list claim) (keys : list bytes) : Prop :=
  Forall2 (fun c k => c_string (c_key c) k) cs keys.

(** First claim whose key (in the parallel list) satisfies [f]. *)
Fixpoint first_with (f : bytes -> bool) (cs : list claim) (keys : list bytes) : option claim :=
  match cs, keys with
  | c :: cs, k :: keys => if f k then Some c else first_with f cs keys
  | _, _ => None
  end.

Lemma get_each_find key r0 n : no_nul key -> forall cs keys,
  keyed cs keys ->
  get_each cs (N.of_nat (length cs)) (key ++ x00 :: r0) n
  = OK (first_with (fun k => bytes_eqb (firstn (N.to_nat n) k) (firstn (N.to_nat n) key)) cs keys).
Proof.
  intros Hkey cs keys H. induction H as [|c k cs keys (b & r & Ec & Hk) H IH]; [reflexivity|].
  cbn [length get_each first_with].
  destruct (N.eqb_spec (N.of_nat (S (length cs))) 0); [lia|].
  rewrite Ec. cbn [deref ubind].
  destruct (strncmp_cstr k r key r0 n Hk Hkey) as (z & Hz & Hiff). rewrite Hz. cbn [ubind].
  destruct (Z.eqb_spec z 0) as [E|E].
  - apply Hiff in E. apply bytes_eqb_eq in E. rewrite E. reflexivity.
  - assert (En : firstn (N.to_nat n) k <> firstn (N.to_nat n) key) by tauto.
    apply bytes_eqb_neq in En. rewrite En.
    replace (N.of_nat (S (length cs)) - 1)%N with (N.of_nat (length cs)) by lia. apply IH.
Qed.

(** False as stated: asking for "exp" (as validation does) finds a claim called "expires". *)
Theorem C35_get_claim_refuted :
  exists cs keys key c,
    keyed cs keys /\ no_nul key /\ ~ In key keys
    /\ l8w8jwt_get_claim (CArr None cs) (N.of_nat (length cs)) (Ptr None (key ++ [x00]))
         (N.of_nat (length key)) = OK (Some c).
Proof.
  exists [Claim (cstr "expires") 7 (cstr "1") 1 1], [lit "expires"], (lit "exp"). eexists.
  split; [constructor; [|constructor]; exists None, []; split;
          [reflexivity|vm_compute; intuition discriminate]|].
  split; [vm_compute; intuition discriminate|].
  split; [simpl; intros [H|[]]; discriminate|]. vm_compute. reflexivity.
Qed.
Print Assumptions C35_get_claim_refuted.

(** What is computed: the first claim whose key starts with the requested key. *)
Theorem C35_get_claim_prefix_partial :
  forall b cs keys kb key r,
    keyed cs keys -> no_nul key -> key <> [] ->
    l8w8jwt_get_claim (CArr b cs) (N.of_nat (length cs)) (Ptr kb (key ++ x00 :: r))
      (N.of_nat (length key))
    = OK (first_with (fun k => prefixb key k) cs keys).
Proof.
  intros b cs keys kb key r H Hn Hne. cbn [l8w8jwt_get_claim].
  destruct cs as [|c cs]; [inversion H; reflexivity|].
  assert (E : ((N.of_nat (length (c :: cs)) =? 0) || (N.of_nat (length key) =? 0))%N = false).
  { destruct key; [congruence|]. simpl. lia. }
  rewrite E, (get_each_find key r _ Hn _ _ H). f_equal.
  generalize (c :: cs) keys H. clear. intros cs keys H.
  induction H as [|c k cs keys _ _ IH]; [reflexivity|]. cbn [first_with]. rewrite IH.
  assert (E : bytes_eqb (firstn (N.to_nat (N.of_nat (length key))) k)
                (firstn (N.to_nat (N.of_nat (length key))) key) = prefixb key k); [|rewrite E; reflexivity].
  rewrite Nat2N.id, firstn_all. clear. revert k.
  induction key as [|x key IH]; intros k; [reflexivity|]. destruct k as [|y k]; [reflexivity|].
  cbn [length firstn bytes_eqb prefixb]. rewrite IH.
  assert (E : Byte.eqb y x = Byte.eqb x y); [|rewrite E; reflexivity].
  apply eq_iff_eq_true. rewrite !byte_eqb_eq. split; congruence.
Qed.
Print Assumptions C35_get_claim_prefix_partial.

(** Hence the claim holds whenever no key is a proper extension of the requested one. *)
Theorem C35_get_claim_exact_partial :
  forall b cs keys kb key r,
    keyed cs keys -> no_nul key -> key <> [] ->
    (forall k, In k keys -> prefixb key k = true -> k = key) ->
    l8w8jwt_get_claim (CArr b cs) (N.of_nat (length cs)) (Ptr kb (key ++ x00 :: r))
      (N.of_nat (length key))
    = OK (first_with (fun k => bytes_eqb k key) cs keys).
Proof.
  intros b cs keys kb key r H Hn Hne Hx. rewrite (C35_get_claim_prefix_partial b cs keys) by auto.
  f_equal. clear - H Hx. induction H as [|c k cs keys _ _ IH]; [reflexivity|]. cbn [first_with].
  rewrite IH by (intros k' Hk'; apply Hx; right; exact Hk').
  assert (E : prefixb key k = bytes_eqb k key); [|rewrite E; reflexivity].
  apply eq_iff_eq_true. rewrite bytes_eqb_eq. split.
  - apply Hx. left. reflexivity.
  - intros ->. clear. induction key as [|x key IH]; [reflexivity|]. cbn [prefixb].
    rewrite byte_eqb_refl. exact IH.
Qed.
Print Assumptions C35_get_claim_exact_partial.
Example C35_example :
  l8w8jwt_get_claim (CArr None [Claim (cstr "iss") 3 (cstr "x") 1 0; Claim (cstr "sub") 3 (cstr "y") 1 0])
    2 (cstr "sub") 3 = OK (Some (Claim (cstr "sub") 3 (cstr "y") 1 0)).
Proof. reflexivity. Qed.

(** ** C47 *)
(** [owns w id cs]: the array is heap block [id]; its claims' keys and values are heap blocks at
    least as long as recorded; all these blocks are live and pairwise distinct. *)
Definition owns (w : world) (id : nat) (cs : list claim) : Prop :=
  Forall heap_claim cs /\ NoDup (id :: array_blocks cs)
  /\ forall i, In i (id :: array_blocks cs) -> w_live w i = true.

Theorem C47_free_claims :
  forall w id cs,
    owns w id cs ->
    exists w', l8w8jwt_free_claims (CArr (Some id) cs) (N.of_nat (length cs)) w = Ret tt w'
      /\ forall i, w_live w' i = true <-> w_live w i = true /\ ~ In i (id :: array_blocks cs).
Proof.
  intros w id cs (Hh & Hnd & Hl). rewrite free_claims_eq by auto.
  eexists. split; [reflexivity|]. intros i. cbn [w_free w_live].
  unfold upd_live. destruct (Nat.eqb_spec i id) as [->|Hi].
  - split; [discriminate|]. intros (_ & H). exfalso. apply H. left. reflexivity.
  - rewrite w_free_all_live. simpl. intuition congruence.
Qed.
Print Assumptions C47_free_claims.
Theorem C47_free_claims_null : forall n w, l8w8jwt_free_claims CNull n w = Ret tt w.
Proof. reflexivity. Qed.
Print Assumptions C47_free_claims_null.
Example C47_example :
  owns (World (fun _ => true) (fun _ => true) (fun _ _ => xff) 4 0 (fun i => (i <? 4)%nat)) 3
       [Claim (Ptr (Some 0%nat) (clit "sub")) 3 (Ptr (Some 1%nat) (clit "me")) 2 0].
Proof.
  split; [repeat constructor; do 4 eexists; split; [reflexivity|]; split; [reflexivity|];
          split; vm_compute; discriminate|].
  split; [cbn; repeat constructor; simpl; intuition discriminate|].
  intros i Hi. cbn in Hi. decompose [or] Hi; subst; reflexivity || contradiction.
Qed.
