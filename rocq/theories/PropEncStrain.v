(** * Property C79: encoding when memory is short *)
From Verif Require Import Base BaseProofs HeapProofs Util UtilProofs Claim Base64 SpecB64
  Base64EncProofs Base64EncApi Base64DecProofs Base64Api Jsmn Env Encode Decode SpecJson SpecJwa ClaimProofs UnescapeProofs
  EncodeProofs SignProofs EncodeTotal SpecEnc JsonProofs PropEncode DecodeProofs DecodeInv ReadProofs
  CodeProofs EncCodeProofs Complete EncComplete EncRun EncSign PropSafe PropEncCodes PropEncComplete LocalProofs EncStrain.
From Coq Require Import ZifyBool ZifyNat ZifyN.
Ltac Zify.zify_post_hook ::= Z.div_mod_to_equations.
Local Opaque L8W8JWT_MAX_KEY_SIZE SIGBUF.

(** Whatever allocations and appends are refused: the call does what the specification [encoding_short] allows. *)
Theorem C79_encode_under_strain :
  forall p e ep w,
    (15 <= p_size_bits p)%N -> wf w -> enc_given ep ->
    let call := l8w8jwt_encode p e (Some ep) w in
    exists o, encoding_short (~ allocs w) (~ grows w) p e ep o
      /\ match o with
         | Made t => exists id w', call = Ret (EncRes 0 (Some (Ptr (Some id) (t ++ [x00]))) (Some (N.of_nat (length t)))) w'
         | Fails rc => rc <> 0%Z /\ exists r w', call = Ret r w'
                         /\ (r = EncRes rc None None \/ (~ allocs w /\ rc = 300%Z /\ r = EncRes rc (Some Null) None))
         | Breaks u => call = Undef u
         end.
Proof.
  intros p e ep w Hp Hw Hr call. unfold call.
  destruct (encode_short (~ allocs w) (~ grows w) p e ep w Hp) as (o & S & D); auto.
  { split; intros i E H; rewrite H in E; discriminate. }
  exists o. split; [exact S|]. destruct o as [t|rc|u]; cbn [appends] in D.
  - destruct D as (r & w' & D & id & ->). exists id, w'. exact D.
  - destruct D as (r & w' & D & Nz & C). split; [exact Nz|]. exists r, w'. auto.
  - exact D.
Qed.
Print Assumptions C79_encode_under_strain.

(** For a call that returns it is what was refused to this very call that counts. *)
Definition lacks_room (w w' : world) : Prop := exists k, (w_pushes w <= k < w_pushes w')%nat /\ w_grow w k = false.
Theorem C79_encode_returns :
  forall p e ep w r w',
    (15 <= p_size_bits p)%N -> wf w -> enc_given ep ->
    l8w8jwt_encode p e (Some ep) w = Ret r w' ->
    exists o, encoding_short (lacks_memory w w') (lacks_room w w') p e ep o
      /\ match o with
         | Made t => exists id, r = EncRes 0 (Some (Ptr (Some id) (t ++ [x00]))) (Some (N.of_nat (length t)))
         | Fails rc => rc <> 0%Z /\ (r = EncRes rc None None \/ (lacks_memory w w' /\ rc = 300%Z /\ r = EncRes rc (Some Null) None))
         | Breaks u => False
         end.
Proof.
  intros p e ep w r w' Hp Hw Hr H.
  destruct (local_encode p e (Some ep) _ _ _ H) as (_ & _ & _ & _ & L).
  set (a := fun k => if (w_next w <=? k)%nat && (k <? w_next w')%nat then w_alloc w k else true).
  set (g := fun k => if (w_pushes w <=? k)%nat && (k <? w_pushes w')%nat then w_grow w k else true).
  specialize (L a g). assert (H' : l8w8jwt_encode p e (Some ep) (with_luck a g w) = Ret r (with_luck a g w')).
  { apply L; intros k Hk; unfold a, g.
    - destruct (Nat.leb_spec (w_next w) k); [|lia]. destruct (Nat.ltb_spec k (w_next w')); [reflexivity|lia].
    - destruct (Nat.leb_spec (w_pushes w) k); [|lia]. destruct (Nat.ltb_spec k (w_pushes w')); [reflexivity|lia]. }
  destruct (encode_short (lacks_memory w w') (lacks_room w w') p e ep (with_luck a g w) Hp) as (o & S & D); auto.
  { split; cbn [w_alloc w_grow with_luck]; unfold a, g; intros k E.
    - destruct (Nat.leb_spec (w_next w) k); [|discriminate]. destruct (Nat.ltb_spec k (w_next w')); [|discriminate]. exists k. split; [lia|exact E].
    - destruct (Nat.leb_spec (w_pushes w) k); [|discriminate]. destruct (Nat.ltb_spec k (w_pushes w')); [|discriminate]. exists k. split; [lia|exact E]. }
  exists o. split; [exact S|]. rewrite H' in D. destruct o as [t|rc|u]; cbn [appends] in D.
  - destruct D as (r0 & w0 & D & id & ->). injection D as -> _. exists id. reflexivity.
  - destruct D as (r0 & w0 & D & Nz & C). injection D as -> _. split; [exact Nz|exact C].
  - discriminate D.
Qed.
Print Assumptions C79_encode_returns.

(** If nothing was refused, the specification of C76 and this one have the same outcomes. *)
Theorem C79_unstrained :
  forall p e ep o, encoding_short False False p e ep o -> encoding p e ep o.
Proof. intros p e ep o. apply encoding_exact; auto. Qed.
Print Assumptions C79_unstrained.

(** However short memory was: the signature in a returned token was made over the bytes before it, with the
    caller's key, by the algorithm asked for. *)
Theorem C79_signature_covers :
  forall p e ep w q n w',
    (15 <= p_size_bits p)%N -> wf w -> enc_given ep ->
    l8w8jwt_encode p e (Some ep) w = Ret (EncRes 0 (Some q) n) w' ->
    exists j k msg sig t id, supported (ep_alg ep) j /\ caller_key (ep_secret_key ep) (ep_secret_key_length ep) k
      /\ signed_by e j k (ep_secret_key_pw ep) (ep_secret_key_pw_length ep) msg sig
      /\ kept (lacks_room w w') [lit "."; rfc4648_unpadded true sig] t
      /\ q = Ptr (Some id) (msg ++ t ++ [x00]).
Proof.
  intros p e ep w q n w' Hp Hw Hr H. destruct (C79_encode_returns p e ep w _ w' Hp Hw Hr H) as (o & S & D).
  destruct o as [t|rc|u]; [|destruct D as (Nz & [E|(_ & _ & E)]); injection E; congruence|contradiction].
  destruct D as (id & D). injection D as -> ->.
  inversion S as [N|N B|Nm|N B A|j k o N B Hj Hk G]; subst.
  inversion G as [o N1 N2|msg o T K]; subst; [destruct (N2 t); reflexivity|].
  inversion K as [o N1 N2|x o _ K2]; subst; [destruct (N2 t); reflexivity|].
  inversion K2 as [o N1 N2|y o _ K3]; subst; [destruct (N2 t); reflexivity|].
  inversion K3 as [o N1 N2|sig o K4 K5]; subst; [destruct (N2 t); reflexivity|].
  destruct K5 as [(_ & E)|(t' & Kt & E)]; [discriminate E|]. injection E as ->.
  inversion K4 as [o Sg|]; subst.
  exists j, k, msg, sig, t', id. split; [exact Hj|]. split; [exact Hk|].
  split; [eapply C76_signing_standard; exact Sg|]. split; [exact Kt|]. rewrite <- app_assoc. reflexivity.
Qed.
Print Assumptions C79_signature_covers.

(** If only allocations were refused, each group of claims is complete or missing altogether. *)
Definition whole_or_none (missing : Prop) (whole : product -> Prop) (t : bytes) : Prop := whole (Made t) \/ (missing /\ t = []).
Theorem C79_groups :
  forall p e ep w q n w',
    (15 <= p_size_bits p)%N -> wf w -> enc_given ep ->
    l8w8jwt_encode p e (Some ep) w = Ret (EncRes 0 (Some q) n) w' -> appended w w' ->
    let missing := lacks_memory w w' in
    exists j k r hm pm sep sig id, supported (ep_alg ep) j /\ caller_key (ep_secret_key ep) (ep_secret_key_length ep) k
      /\ whole_or_none missing (registered p ep) r
      /\ (if (ep_header_claims_count ep =? 0)%N then hm = []
          else exists m, whole_or_none missing (members p (keyed_claims (ep_header_claims ep) (ep_header_claims_count ep))) m /\ hm = lit "," ++ m)
      /\ (if (ep_payload_claims_count ep =? 0)%N then sep = [] /\ pm = []
          else separator ep sep /\ whole_or_none missing (members p (keyed_claims (ep_payload_claims ep) (ep_payload_claims_count ep))) pm)
      /\ let msg := rfc4648_unpadded true (lit "{" ++ join (map plain_member (fixed_members j)) ++ hm ++ lit "}") ++ lit "."
                      ++ rfc4648_unpadded true (lit "{" ++ r ++ sep ++ pm ++ lit "}") in
         signed_by e j k (ep_secret_key_pw ep) (ep_secret_key_pw_length ep) msg sig
         /\ q = Ptr (Some id) (msg ++ lit "." ++ rfc4648_unpadded true sig ++ [x00]).
Proof.
  intros p e ep w q n w' Hp Hw Hr H App missing. destruct (C79_encode_returns p e ep w _ w' Hp Hw Hr H) as (o & S & D).
  assert (Nr : ~ lacks_room w w') by (intros (i & Hi & E); rewrite App in E by exact Hi; discriminate).
  fold missing in S.
  destruct o as [t|rc|u]; [|destruct D as (Nz & [E|(_ & _ & E)]); injection E; congruence|contradiction].
  destruct D as (id & D). injection D as -> ->.
  inversion S as [N|N B|Nm|N B A|j k o N B Hj Hk G]; subst.
  inversion G as [o N1 N2|msg o T K]; subst; [destruct (N2 t); reflexivity|].
  inversion K as [o N1 N2|x o _ K2]; subst; [destruct (N2 t); reflexivity|].
  inversion K2 as [o N1 N2|y o _ K3]; subst; [destruct (N2 t); reflexivity|].
  inversion K3 as [o N1 N2|sig o K4 K5]; subst; [destruct (N2 t); reflexivity|].
  destruct K5 as [(_ & E)|(t' & Kt & E)]; [discriminate E|]. injection E as ->.
  apply (kept_exact _ Nr) in Kt. cbn [concat] in Kt. rewrite app_nil_r in Kt. subst t'.
  inversion K4 as [o Sg|]; subst. apply C76_signing_standard in Sg.
  clear S G H K K2 K3 K4.
  inversion T as [o N1 N2|ht o Hh T2]; subst; [destruct (N2 msg); reflexivity|].
  inversion T2 as [o N1 N2|h o Bh T3]; subst; [destruct (N2 msg); reflexivity|].
  inversion T3 as [o N1 N2|pt o Pp T4]; subst; [destruct (N2 msg); reflexivity|].
  inversion T4 as [o N1 N2|pl o Bp (tm & Km & E)]; subst; [destruct (N2 msg); reflexivity|]. injection E as ->.
  apply (kept_exact _ Nr) in Km. cbn [concat] in Km. rewrite app_nil_r in Km. subst tm.
  assert (Eh : h = rfc4648_unpadded true ht) by (inversion Bh as [| |? ? X]; subst; inversion X; reflexivity).
  assert (Ep : pl = rfc4648_unpadded true pt) by (inversion Bp as [| |? ? X]; subst; inversion X; reflexivity).
  clear T T2 T3 T4 Bh Bp. subst h pl.
  assert (Mm : forall cs m, members_short missing (lacks_room w w') p cs (Made m) -> whole_or_none missing (members p cs) m).
  { intros cs m M. apply (members_exact _ _ Nr) in M as [M|(X & E)]; [left; exact M|right; injection E as ->; auto]. }
  inversion Pp as [o N1 N2|r o R P2]; subst; [destruct (N2 pt); reflexivity|].
  assert (Rr : whole_or_none missing (registered p ep) r).
  { apply (registered_exact _ _ Nr) in R as [R|(X & E)]; [left; exact R|right; injection E as ->; auto]. }
  assert (HH : exists hm, (if (ep_header_claims_count ep =? 0)%N then hm = []
          else exists m, whole_or_none missing (members p (keyed_claims (ep_header_claims ep) (ep_header_claims_count ep))) m /\ hm = lit "," ++ m)
     /\ ht = lit "{" ++ join (map plain_member (fixed_members j)) ++ hm ++ lit "}").
  { unfold header_short in Hh. destruct (ep_header_claims_count ep =? 0)%N.
    - destruct Hh as (t & Kt & E). injection E as ->. apply (kept_exact _ Nr) in Kt. subst t. exists []. split; [reflexivity|].
      cbn [concat]. rewrite app_nil_r, <- app_assoc. reflexivity.
    - inversion Hh as [o N1 N2|m o M (a & b & Ka & Kb & E)]; subst; [destruct (N2 ht); reflexivity|]. injection E as ->.
      apply (kept_exact _ Nr) in Ka, Kb. subst a b. exists (lit "," ++ m). split; [exists m; auto|].
      cbn [concat]. rewrite !app_nil_r, <- !app_assoc. reflexivity. }
  assert (PP : exists sep pm, (if (ep_payload_claims_count ep =? 0)%N then sep = [] /\ pm = []
          else separator ep sep /\ whole_or_none missing (members p (keyed_claims (ep_payload_claims ep) (ep_payload_claims_count ep))) pm)
     /\ pt = lit "{" ++ r ++ sep ++ pm ++ lit "}").
  { destruct (ep_payload_claims_count ep =? 0)%N.
    - destruct P2 as (a & b & Ka & Kb & E). injection E as ->. apply (kept_exact _ Nr) in Ka, Kb. subst a b. exists [], []. split; [auto|].
      cbn [concat]. rewrite !app_nil_r. reflexivity.
    - inversion P2 as [o N1 N2|m o M (sep & a & b & c & Hs & Ka & Kb & Kc & E)]; subst; [destruct (N2 pt); reflexivity|]. injection E as ->.
      apply (kept_exact _ Nr) in Ka, Kb, Kc. subst a b c. exists sep, m. split; [auto|].
      cbn [concat]. rewrite !app_nil_r. reflexivity. }
  destruct HH as (hm & H1 & ->). destruct PP as (sep & pm & P1 & ->).
  exists j, k, r, hm, pm, sep, sig, id. do 5 (split; [assumption|]). split; [exact Sg|].
  rewrite <- !app_assoc. reflexivity.
Qed.
Print Assumptions C79_groups.

(** Refused appends, each of which goes unnoticed, can make other claims of those asked for: from the subject admin and the issuer
    true the claim admin with the value true, in a token that verifies. *)
Definition drops (l : list nat) : world := World ever (fun k => negb (existsb (Nat.eqb k) l)) (fun _ _ => xff) 1 0 (fun _ => false).
Definition ep_sub_iss : enc_params :=
  EncParams 0 (zstr "true") 0 (zstr "admin") 0 Null 0 Null 0 0 0 0 CNull 0 CNull 0 (zstr "secret") 6 Null 0 true true.
Definition token_of (r : res enc_res) : option (Z * bytes) :=
  match r with Ret (EncRes rc (Some (Ptr _ m)) _) _ => Some (rc, removelast m) | _ => None end.
Definition plain_header : bytes := rfc4648_unpadded true (lit "{""alg"":""HS256"",""typ"":""JWT""}").
Definition has_payload (r : option (Z * bytes)) (pt : bytes) : Prop :=
  exists sig, r = Some (0%Z, plain_header ++ lit "." ++ rfc4648_unpadded true pt ++ lit "." ++ sig).
Lemma sub_iss_given : enc_given ep_sub_iss.
Proof.
  assert (Z : forall s, no_nul (lit s) -> string_given (zstr s) 0) by (intros s H; right; exists (lit s); cbn; exists []; auto).
  repeat split; try exact I; try (left; reflexivity).
  - apply Z. vm_compute. intuition discriminate.
  - apply Z. vm_compute. intuition discriminate.
  - right. exists (lit "secret"). do 2 eexists. split; [reflexivity|]. split; [cbn; lia|reflexivity].
Qed.
Theorem C79_other_claims_refuted :
  exists p e ep w, (15 <= p_size_bits p)%N /\ wf w /\ allocs w /\ enc_given ep
    /\ has_payload (token_of (l8w8jwt_encode p e (Some ep) (unlimited w))) (lit "{""sub"":""admin"",""iss"":""true""}")
    /\ has_payload (token_of (l8w8jwt_encode p e (Some ep) w)) (lit "{""admin"":""true""}").
Proof.
  exists pe, toy, ep_sub_iss, (drops [7; 8; 9; 17; 18; 22; 23]%nat).
  split; [cbn; lia|]. split; [intros i _; reflexivity|]. split; [intros i; reflexivity|]. split; [exact sub_iss_given|].
  split; exists (lit "c2VjcmV0ZXlKaGJHY2lPaUpJVXpJMU5pSXNJblI1Y0M"); vm_compute; reflexivity.
Qed.
Print Assumptions C79_other_claims_refuted.

(** Refused allocations, one at a time: which ones are reported, and what is lost when they are not. *)
Definition no_block (n : nat) : world := World (fun k => negb (Nat.eqb k n)) ever (fun _ _ => xff) 1 0 (fun _ => false).
Definition code_of (r : res enc_res) : Z := match r with Ret r _ => er_rc r | Undef _ => (-1)%Z end.
Example C79_one_refused :
  map (fun n => code_of (l8w8jwt_encode pe toy (Some ep_sub_iss) (no_block n))) [1; 2; 3; 4; 5; 6; 7; 8]%nat = [300; 300; 300; 0; 300; 425; 300; 0]%Z
  /\ has_payload (token_of (l8w8jwt_encode pe toy (Some ep_sub_iss) (no_block 4))) (lit "{}")
  /\ has_payload (token_of (l8w8jwt_encode pe toy (Some ep_sub_iss) (no_block 8))) (lit "{""sub"":""admin"",""iss"":""true""}").
Proof.
  split; [vm_compute; reflexivity|].
  split; exists (lit "c2VjcmV0ZXlKaGJHY2lPaUpJVXpJMU5pSXNJblI1Y0M"); vm_compute; reflexivity.
Qed.
(** In the small stack build the buffers for signature and key are allocated too: without the latter the clearing of the
    key writes through NULL. *)
Example C79_small_stack :
  map (fun n => code_of (l8w8jwt_encode pe_small toy (Some ep_sub_iss) (no_block n))) [6; 7; 8; 9; 10]%nat = [300; -1; 425; 300; 0]%Z
  /\ l8w8jwt_encode pe_small toy (Some ep_sub_iss) (no_block 7) = Undef NullDeref.
Proof. vm_compute. split; reflexivity. Qed.
