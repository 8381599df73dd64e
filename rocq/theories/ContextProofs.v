(** * Lemmas about traces of events: erasing them, and following the rules *)
From Verif Require Import Base BaseProofs HeapProofs Base64 Util Claim Jsmn Env Encode Decode DecodeInv
  Context SpecContext.

(** ** Without the events, the functions are those of Encode.v and Decode.v. *)
Lemma erase_tbind {A B} (m : T A) (k : A -> T B) :
  snd (tbind m k) = ubind (snd m) (fun a => snd (k a)).
Proof. unfold tbind. destruct (snd m); reflexivity. Qed.

Lemma ubind_ext {A B} (m : U A) (k k' : A -> U B) :
  (forall a, k a = k' a) -> ubind m k = ubind m k'.
Proof. intros H. destruct m; simpl; auto. Qed.

Lemma erase_wbind {A B} (m : W A) (k : A -> W B) m' k' :
  (forall w, snd (m w) = m' w) -> (forall a w, snd (k a w) = k' a w) ->
  forall w, snd (wbind m k w) = mbind m' k' w.
Proof.
  intros Hm Hk w. unfold wbind, mbind. rewrite <- Hm.
  destruct (snd (m w)); simpl; auto.
Qed.

Lemma erase_wbind_map {A A' B} (f : A -> A') (m : W A) (k : A -> W B) m' k' :
  (forall w, mbind (fun w => snd (m w)) (fun x => mret (f x)) w = m' w) ->
  (forall a w, snd (k a w) = k' (f a) w) ->
  forall w, snd (wbind m k w) = mbind m' k' w.
Proof.
  intros Hm Hk w. unfold wbind, mbind in *. rewrite <- Hm.
  destruct (snd (m w)); simpl; auto.
Qed.

Lemma erase_wlog {B} es (k : unit -> W B) k' :
  (forall w, snd (k tt w) = k' w) -> forall w, snd (wbind (wlog es) k w) = k' w.
Proof. intros H w. unfold wbind, wlog. simpl. apply H. Qed.

(** Peel off one step. *)
Ltac er1 :=
  first
    [ reflexivity
    | progress rewrite ?erase_tbind; cbn [snd tlift tlog tret tub ubind]
    | apply ubind_ext; intros
    | match goal with
      | |- context [snd (if ?b then _ else _)] => destruct b
      | |- context [snd (match ?o with Some _ => _ | None => _ end)] => destruct o
      | |- context [snd (match ?o with pair _ _ => _ end)] => destruct o
      end ].
Ltac er := repeat er1.

Lemma erase_sign_rs e ep key n msg : snd (sign_rs_t e ep key n msg) = sign_rs e ep key n msg.
Proof. unfold sign_rs_t, sign_rs. er. Qed.
Lemma erase_sign_ps e ep key n msg : snd (sign_ps_t e ep key n msg) = sign_ps e ep key n msg.
Proof. unfold sign_ps_t, sign_ps. er. Qed.

Lemma ubind_ret {A} (m : U A) : ubind m (fun a => OK a) = m.
Proof. destruct m; reflexivity. Qed.

Lemma erase_sign_es e ep key n msg : snd (sign_es_t e ep key n msg) = sign_es e ep key n msg.
Proof.
  unfold sign_es_t, sign_es. destruct (md_info_from_alg (ep_alg ep)) as [h |]; [| reflexivity].
  rewrite erase_tbind. cbn [snd tlog ubind]. rewrite erase_tbind. cbn [snd tlift].
  apply ubind_ext. intros k. cbv beta. rewrite erase_tbind. cbn [snd tlog ubind].
  rewrite erase_tbind.
  etransitivity; [apply ubind_ext; intros a; cbv beta; rewrite erase_tbind; reflexivity |].
  cbn [snd tlog tret ubind]. rewrite ubind_ret. er.
Qed.

Lemma erase_sign_ed p e ep msg : snd (sign_ed_t p e ep msg) = sign_ed p e ep msg.
Proof.
  unfold sign_ed_t, sign_ed. destruct (p_eddsa p); [| reflexivity]. cbn [negb].
  rewrite erase_tbind. cbn [snd tlift]. apply ubind_ext. intros m. cbv beta.
  rewrite erase_tbind. cbn [snd tlift]. apply ubind_ext. intros ok. cbv beta.
  destruct ok; [| reflexivity]. cbn [negb].
  rewrite erase_tbind. cbn [snd tlift]. apply ubind_ext. intros [[r out] x]. cbv beta.
  rewrite erase_tbind. cbn [snd tlog ubind]. destruct (r =? 0)%Z; [| reflexivity]. cbn [negb].
  destruct out; reflexivity.
Qed.

Lemma erase_sign_switch p e ep key n msg :
  snd (sign_switch_t p e ep key n msg) = sign_switch p e ep key n msg.
Proof.
  unfold sign_switch_t, sign_switch.
  destruct (ep_alg ep) as [|q|q]; [reflexivity | | reflexivity].
  do 4 (try match goal with
            | |- context [match ?q with xI _ => _ | xO _ => _ | xH => _ end] =>
                is_var q; destruct q
            end);
    match goal with
    | |- context [sign_rs_t] => apply erase_sign_rs
    | |- context [sign_ps_t] => apply erase_sign_ps
    | |- context [sign_es_t] => apply erase_sign_es
    | |- context [sign_ed_t] => apply erase_sign_ed
    | _ => reflexivity
    end.
Qed.

Lemma erase_wlift_t {A} (m : T A) m' : snd m = m' -> forall w, snd (wlift_t m w) = lift m' w.
Proof. intros <- w. reflexivity. Qed.

Ltac ew1 :=
  intros;
  first
    [ reflexivity
    | apply erase_wlog
    | apply erase_wbind
    | match goal with
      | |- context [snd ((if ?b then _ else _) _)] => destruct b
      | |- context [snd ((match ?o with Some _ => _ | None => _ end) _)] => destruct o
      | |- context [snd ((match ?o with pair _ _ => _ end) _)] => destruct o
      end
    | progress cbn beta iota zeta ].
Ltac ew := repeat ew1.

Lemma erase_sign_body p e sb ep w :
  snd (write_signature_body_w p e sb ep w) = write_signature_body p e sb ep w.
Proof.
  unfold write_signature_body_w, write_signature_body. revert w.
  apply erase_wbind; [reflexivity |]. intros key. apply erase_wlog.
  apply erase_wbind; [reflexivity |]. intros n. apply erase_wlog.
  destruct (e_seed_ok e); [| reflexivity]. cbn [negb]. apply erase_wlog.
  apply erase_wbind; [apply erase_wlift_t, erase_sign_switch |]. intros [[r s] k].
  ew.
Qed.

Lemma erase_write_signature p e sb ep w :
  snd (write_signature_w p e sb ep w) = write_signature p e sb ep w.
Proof.
  unfold write_signature_w, write_signature. revert w. apply erase_wlog.
  destruct (p_small_stack p).
  - apply erase_wbind; [reflexivity |]. intros sigb.
    apply erase_wbind; [reflexivity |]. intros key.
    apply erase_wbind.
    + intros w. destruct (is_null sigb || is_null key); [reflexivity |]. apply erase_sign_body.
    + intros [[r b] s]. apply erase_wbind; [reflexivity |]. intros _. apply erase_wlog. ew.
  - apply erase_wbind; [intros w; apply erase_sign_body |].
    intros [[r b] s]. apply erase_wlog. ew.
Qed.

Lemma erase_encode p e params w : snd (l8w8jwt_encode_w p e params w) = l8w8jwt_encode p e params w.
Proof.
  unfold l8w8jwt_encode_w, l8w8jwt_encode. destruct params as [ep |]; [| reflexivity].
  destruct (negb _); [reflexivity |]. revert w.
  apply erase_wbind; [reflexivity |]. intros [sb |]; [| reflexivity].
  apply erase_wbind; [| intros [res b]; ew].
  unfold encode_body_w, encode_body.
  apply erase_wbind; [reflexivity |]. intros [r b]. intros w.
  destruct (negb (r =? L8W8JWT_SUCCESS)%Z); [reflexivity |]. revert w.
  apply erase_wbind; [| intros [r2 b2]; ew].
  intros w. destruct (negb (ep_alg ep =? -1)%Z); [apply erase_write_signature | reflexivity].
Qed.

Lemma erase_load_cert e key n :
  ubind (snd (load_cert_t e key n)) (fun x => OK (snd x)) = load_cert e key n.
Proof.
  unfold load_cert_t, load_cert. rewrite erase_tbind. cbn [snd tlift].
  destruct (strstr_found key _) as [[|] |]; cbn [ubind]; try reflexivity.
  rewrite erase_tbind. cbn [snd tlift]. destruct (take key n) as [k |]; cbn [ubind]; [| reflexivity].
  rewrite erase_tbind. cbn [snd tlog ubind]. destruct (e_x509_parse e k); reflexivity.
Qed.

Lemma erase_public_key e crt key n : snd (public_key_t e crt key n) = public_key e crt key n.
Proof. unfold public_key_t, public_key. er. Qed.

Lemma erase_verify_switch p e alg crt key n msg hash sig sn :
  snd (verify_switch_t p e alg crt key n msg hash sig sn)
  = verify_switch p e alg crt key n msg hash sig sn.
Proof.
  unfold verify_switch_t, verify_switch.
  destruct (dec_md_info_from_alg alg) as [h |]; [| reflexivity].
  destruct alg as [|q|q]; try reflexivity;
    repeat (first [ reflexivity
                  | progress rewrite ?erase_tbind, ?erase_public_key;
                    cbn [snd tlift tlog tret tub ubind]
                  | apply ubind_ext; intros
                  | match goal with
                    | |- context [snd (if ?b then _ else _)] => destruct b
                    | |- context [snd (match ?o with Some _ => _ | None => _ end)] => destruct o
                    | |- context [snd (match ?o with pair _ _ => _ end)] => destruct o
                    | |- context [match ?q with xI _ => _ | xO _ => _ | xH => _ end] =>
                        is_var q; destruct q
                    end ]).
Qed.

Lemma erase_verify_body p e dp sig n :
  ubind (snd (verify_body_t p e dp sig n)) (fun x => OK (snd x)) = verify_body p e dp sig n.
Proof.
  unfold verify_body_t, verify_body. rewrite erase_tbind. cbn [snd tlift].
  destruct (load_key _ _) as [key |]; cbn [ubind]; [| reflexivity].
  rewrite erase_tbind. cbn [snd tlog ubind]. rewrite erase_tbind. cbn [snd tlift].
  destruct (adjust_key_length key _) as [kl |]; cbn [ubind]; [| reflexivity].
  rewrite erase_tbind, <- erase_load_cert.
  destruct (snd (load_cert_t e key kl)) as [[b crt] |]; cbn [ubind snd]; [| reflexivity].
  rewrite erase_tbind. cbn [snd tret].
  assert (E : forall m : U verdict,
             ubind (ubind m (fun v => OK (b, v))) (fun x => OK (snd x)) = m)
    by (intros [?|?]; reflexivity).
  rewrite E. destruct crt as [crt |]; [| reflexivity].
  rewrite erase_tbind. cbn [snd tlift]. apply ubind_ext. intros jwt. cbv beta.
  rewrite erase_tbind. cbn [snd tlift]. apply ubind_ext. intros [n1 |]; cbv beta iota; [| reflexivity].
  rewrite erase_tbind. cbn [snd tlift]. apply ubind_ext. intros [n2 |]; cbv beta iota; [| reflexivity].
  cbn zeta. destruct (verify_hash _ _ _); [| reflexivity]. apply erase_verify_switch.
Qed.

Lemma erase_verify_signature p e dp res s n w :
  snd (l8w8jwt_verify_signature_w p e dp res s n w) = l8w8jwt_verify_signature p e dp res s n w.
Proof.
  unfold l8w8jwt_verify_signature_w, l8w8jwt_verify_signature.
  destruct (_ || _); [reflexivity |]. cbn zeta. revert w. apply erase_wlog.
  assert (E : forall sig w, mbind (fun w => snd (wlift_t (verify_body_t p e dp sig n) w))
                              (fun x => mret (snd x)) w = lift (verify_body p e dp sig n) w).
  { intros sig w. rewrite <- erase_verify_body. unfold wlift_t, mbind, lift, mret. cbn [snd].
    destruct (snd (verify_body_t p e dp sig n)); reflexivity. }
  destruct (p_small_stack p).
  - apply erase_wbind; [reflexivity |]. intros key.
    apply (erase_wbind_map snd).
    + intros w. destruct (is_null key); [reflexivity |]. unfold wbind, mbind, wlift. cbn [snd].
      destruct (lift (deref s) w) as [sig w1 |]; [| reflexivity]. apply E.
    + intros [b v]. ew.
  - apply erase_wbind; [reflexivity |]. intros sig.
    apply (erase_wbind_map snd); [apply E |]. intros [b v]. ew.
Qed.

Lemma erase_decode_body p e dp c w : snd (decode_body_w p e dp c w) = decode_body p e dp c w.
Proof.
  unfold decode_body_w, decode_body. revert w.
  apply erase_wbind; [reflexivity |]. intros [r sg] w.
  destruct (negb (r =? L8W8JWT_SUCCESS)%Z); [reflexivity |]. revert w.
  apply erase_wbind; [intros w; apply erase_verify_signature |]. intros [r2 res]. ew.
Qed.

Lemma erase_decode p e params a b c w :
  snd (l8w8jwt_decode_w p e params a b c w) = l8w8jwt_decode p e params a b c w.
Proof.
  unfold l8w8jwt_decode_w, l8w8jwt_decode. destruct params as [dp |]; [| reflexivity].
  destruct (b && negb c); [reflexivity |]. cbn zeta.
  destruct (negb (_ =? _)%Z); [reflexivity |]. destruct (negb a); [reflexivity |]. revert w.
  apply erase_wbind; [reflexivity |]. intros [cl |]; [| ew].
  apply erase_wbind; [intros w; apply erase_decode_body |]. intros st. ew.
Qed.

Lemma erase_decode_raw p e params a b c d f g h w :
  snd (l8w8jwt_decode_raw_w p e params a b c d f g h w)
  = l8w8jwt_decode_raw p e params a b c d f g h w.
Proof.
  unfold l8w8jwt_decode_raw_w, l8w8jwt_decode_raw. destruct params as [dp |]; [| reflexivity].
  destruct (_ || _); [reflexivity |]. cbn zeta.
  destruct (negb (_ =? _)%Z); [reflexivity |]. revert w.
  apply erase_wbind; [reflexivity |]. intros o.
  apply erase_wbind; [| intros [[[rc sg] res] bb]; ew].
  destruct o as [cl |]; [| reflexivity].
  apply erase_wbind; [| reflexivity]. intros w. rewrite decode_raw_body_eq. apply erase_decode_body.
Qed.

(** ** Following the rules: what holds of the ledger when a computation returns. *)
Definition tok_ {A} (l : ledger) (m : T A) (Q : A -> ledger -> Prop) : Prop :=
  match snd m with
  | OK a => exists l', follow l (fst m) = Some l' /\ Q a l'
  | KO _ => True
  end.
Definition wok {A} (l : ledger) (m : W A) (Q : A -> ledger -> Prop) : Prop :=
  forall w, match snd (m w) with
            | Ret a _ => exists l', follow l (fst (m w)) = Some l' /\ Q a l'
            | Undef _ => True
            end.

Lemma follow_app l a b :
  follow l (a ++ b) = match follow l a with Some l' => follow l' b | None => None end.
Proof.
  revert l. induction a as [|ev a IH]; intros l; simpl; [reflexivity |].
  destruct (step l ev); auto.
Qed.

Lemma tok_bind {A B} l (m : T A) (k : A -> T B) Q Q' :
  tok_ l m Q' -> (forall a l', Q' a l' -> tok_ l' (k a) Q) -> tok_ l (tbind m k) Q.
Proof.
  unfold tok_, tbind. intros Hm Hk. destruct (snd m) as [a |]; [| exact I].
  destruct Hm as (l1 & E1 & Hq). specialize (Hk a l1 Hq). cbn [fst snd].
  destruct (snd (k a)); [| exact I]. rewrite follow_app, E1. exact Hk.
Qed.
Lemma tok_log {A} l l' es (k : unit -> T A) Q :
  follow l es = Some l' -> tok_ l' (k tt) Q -> tok_ l (tbind (tlog es) k) Q.
Proof.
  intros E H. apply tok_bind with (Q' := fun _ x => x = l'); [| intros [] x ->; exact H].
  exists l'. auto.
Qed.
Lemma tok_lift {A B} l (m : U A) (k : A -> T B) Q :
  (forall a, m = OK a -> tok_ l (k a) Q) -> tok_ l (tbind (tlift m) k) Q.
Proof.
  intros H. apply tok_bind with (Q' := fun a x => x = l /\ m = OK a).
  - unfold tok_. cbn. destruct m; [| exact I]. exists l. auto.
  - intros a x [-> E]. auto.
Qed.
Lemma tok_ret {A} l (a : A) (Q : A -> ledger -> Prop) : Q a l -> tok_ l (tret a) Q.
Proof. intros H. exists l. auto. Qed.
Lemma tok_weaken {A} l (m : T A) (Q Q' : A -> ledger -> Prop) :
  (forall a x, Q' a x -> Q a x) -> tok_ l m Q' -> tok_ l m Q.
Proof. unfold tok_. intros H. destruct (snd m); auto. intros (x & E & Hq). eauto. Qed.

Lemma wok_bind {A B} l (m : W A) (k : A -> W B) Q Q' :
  wok l m Q' -> (forall a l', Q' a l' -> wok l' (k a) Q) -> wok l (wbind m k) Q.
Proof.
  unfold wok, wbind. intros Hm Hk w. specialize (Hm w).
  destruct (snd (m w)) as [a w' |]; [| exact I].
  destruct Hm as (l1 & E1 & Hq). specialize (Hk a l1 Hq w'). cbn [fst snd].
  destruct (snd (k a w')); [| exact I]. rewrite follow_app, E1. exact Hk.
Qed.
Lemma wok_log {A} l l' es (k : unit -> W A) Q :
  follow l es = Some l' -> wok l' (k tt) Q -> wok l (wbind (wlog es) k) Q.
Proof.
  intros E H. apply wok_bind with (Q' := fun _ x => x = l'); [| intros [] x ->; exact H].
  intros w. exists l'. auto.
Qed.
Lemma wok_lift {A B} l (m : M A) (k : A -> W B) Q :
  (forall a, wok l (k a) Q) -> wok l (wbind (wlift m) k) Q.
Proof.
  intros H. apply wok_bind with (Q' := fun _ x => x = l); [| intros a x ->; auto].
  intros w. cbn. destruct (m w); [| exact I]. exists l. auto.
Qed.
Lemma wok_lift_t {A} l (m : T A) Q : tok_ l m Q -> wok l (wlift_t m) Q.
Proof. unfold wok, wlift_t, tok_. intros H w. cbn. destruct (snd m); auto. Qed.
Lemma wok_ret {A} l (a : A) (Q : A -> ledger -> Prop) : Q a l -> wok l (wret a) Q.
Proof. intros H w. exists l. auto. Qed.

(** Symbolic execution on a ledger that computes. *)
Ltac go1 :=
  first
    [ exact I
    | eapply tok_log; [reflexivity |]
    | apply tok_lift; intros ? _
    | apply tok_ret
    | match goal with
      | |- tok_ _ (if ?b then _ else _) _ => destruct b eqn:?
      | |- tok_ _ (match ?o with Some _ => _ | None => _ end) _ => destruct o eqn:?
      | |- tok_ _ (match ?o with pair _ _ => _ end) _ => destruct o eqn:?
      end
    | progress cbv beta zeta ].
Ltac go := repeat go1.

(** *** Signing *)
(** When the algorithm switch of write_signature begins (src/encode.c:274). *)
Definition L_sign : ledger :=
  match follow start [Init Pk; Init Entropy; Init Drbg; Store KeyCopy; Load Entropy; Load Drbg;
                      Seeded] with
  | Some l => l
  | None => start
  end.
(** When the [exit] label is reached. *)
Definition at_exit (l : ledger) : Prop :=
  (l_ctx l Pk = Empty \/ l_ctx l Pk = Full) /\
  (l_ctx l Entropy = Empty \/ l_ctx l Entropy = Full) /\
  (l_ctx l Drbg = Empty \/ l_ctx l Drbg = Full) /\
  l_ctx l Crt <> Full /\ l_ctx l Ecdsa <> Full /\ l_ctx l SigR <> Full /\ l_ctx l SigS <> Full /\
  l_secret l Ref10 = false.

Ltac exits := repeat split; cbn; auto; discriminate.

Lemma sign_rs_lawful e ep key n msg : tok_ L_sign (sign_rs_t e ep key n msg) (fun _ => at_exit).
Proof. unfold sign_rs_t. go; exits. Qed.
Lemma sign_ps_lawful e ep key n msg : tok_ L_sign (sign_ps_t e ep key n msg) (fun _ => at_exit).
Proof. unfold sign_ps_t. go; exits. Qed.
Lemma sign_es_lawful e ep key n msg : tok_ L_sign (sign_es_t e ep key n msg) (fun _ => at_exit).
Proof.
  unfold sign_es_t. destruct (md_info_from_alg (ep_alg ep)) as [h |]; [| exact I].
  eapply tok_log; [reflexivity |]. apply tok_lift; intros k _. eapply tok_log; [reflexivity |].
  eapply tok_bind with (Q' := fun _ l => at_exit (set_ctx (set_ctx (set_ctx l SigR Gone) SigS Gone)
                                                   Ecdsa Gone) /\
      (l_ctx l Ecdsa = Empty \/ l_ctx l Ecdsa = Full) /\
      (l_ctx l SigR = Empty \/ l_ctx l SigR = Full) /\
      (l_ctx l SigS = Empty \/ l_ctx l SigS = Full)).
  - go; exits.
  - intros a l (H & He & Hr & Hs).
    eapply tok_log; [| apply tok_ret; exact H].
    cbn. destruct Hr as [-> | ->]; cbn; destruct Hs as [-> | ->]; cbn;
      destruct He as [-> | ->]; reflexivity.
Qed.
Lemma sign_ed_lawful p e ep msg : tok_ L_sign (sign_ed_t p e ep msg) (fun _ => at_exit).
Proof.
  unfold sign_ed_t. destruct (negb (p_eddsa p)); [go; exits |].
  apply tok_lift; intros m _. apply tok_lift; intros ok _.
  destruct (negb ok); [go; exits |].
  apply tok_lift; intros [[r out] x] Eh.
  assert (Ho : r <> 0%Z -> out = None).
  { unfold l8w8jwt_hexstr2bin in Eh. destruct (ep_secret_key ep) as [|blk mm]; [injection Eh; auto |].
    destruct (_ =? 0)%N; [injection Eh; auto |].
    destruct (read_at mm _) as [last |]; cbn in Eh; [| discriminate].
    destruct (negb _); [injection Eh; auto |].
    destruct (_ <? _)%N; [injection Eh; auto |].
    destruct (take mm _) as [s |]; cbn in Eh; [| discriminate].
    destruct (hex_loop p s _) as [c |]; cbn in Eh; [| discriminate].
    destruct (cur_set c x00); cbn in Eh; [| discriminate].
    injection Eh as <- <- <-. intros H. exfalso. apply H. reflexivity. }
  destruct (r =? 0)%Z eqn:Er; cbn [negb].
  - destruct out; go; exits.
  - rewrite Ho by (intros ->; discriminate). go; exits.
Qed.

Lemma sign_switch_lawful p e ep key n msg :
  tok_ L_sign (sign_switch_t p e ep key n msg) (fun _ => at_exit).
Proof.
  unfold sign_switch_t, sign_hs_t.
  assert (Hl : forall m : U sig_or_err, tok_ L_sign (tlift m) (fun _ => at_exit)).
  { intros m. unfold tok_. cbn. destruct m; [| exact I]. eexists. split; [reflexivity |]. exits. }
  assert (Hr : tok_ L_sign (tret (sig_fail L8W8JWT_INVALID_ARG)) (fun _ => at_exit))
    by (apply tok_ret; exits).
  destruct (ep_alg ep) as [|q|q]; [apply Hl | | apply Hr].
  do 4 (try match goal with
            | |- context [match ?q with xI _ => _ | xO _ => _ | xH => _ end] =>
                is_var q; destruct q
            end);
    match goal with
    | |- context [sign_rs_t] => apply sign_rs_lawful
    | |- context [sign_ps_t] => apply sign_ps_lawful
    | |- context [sign_es_t] => apply sign_es_lawful
    | |- context [sign_ed_t] => apply sign_ed_lawful
    | |- context [sign_hs] => apply Hl
    | _ => exact Hr
    end.
Qed.

Definition released (l : ledger) : Prop := nothing_owned l /\ nothing_secret l.

(** The [exit] code of write_signature (src/encode.c:576-579). *)
Lemma exit_lawful l :
  at_exit l -> exists l', follow l [Wipe KeyCopy; Free Drbg; Free Entropy; Free Pk] = Some l'
                          /\ released l'.
Proof.
  intros (Hp & He & Hd & Hc & H1 & H2 & H3 & Hs).
  destruct l as [f sd g]. cbn in *.
  destruct Hd as [Ed | Ed], He as [Ee | Ee], Hp as [Ep | Ep]; cbn; rewrite ?Ed; cbn; rewrite ?Ee;
    cbn; rewrite ?Ep; (eexists; split; [reflexivity |]); split; intros x; destruct x; cbn;
    try discriminate; auto.
Qed.

Lemma write_signature_body_lawful p e sb ep l :
  follow start [Init Pk; Init Entropy; Init Drbg] = Some l ->
  wok l (write_signature_body_w p e sb ep) (fun _ => at_exit).
Proof.
  intros El. injection El as <-. unfold write_signature_body_w.
  apply wok_lift. intros key. eapply wok_log; [reflexivity |].
  apply wok_lift. intros n. eapply wok_log; [reflexivity |].
  destruct (negb (e_seed_ok e)); [apply wok_ret; exits |].
  eapply wok_log; [reflexivity |].
  eapply wok_bind; [apply wok_lift_t, sign_switch_lawful |].
  intros [[r s] k] l Hl. cbv beta iota.
  destruct (negb (r =? L8W8JWT_SUCCESS)%Z); [apply wok_ret, Hl |].
  destruct (k =? 0)%N; [apply wok_ret, Hl |].
  apply wok_lift. intros [[r2 sg] s2].
  destruct (negb (r2 =? L8W8JWT_SUCCESS)%Z); [apply wok_ret, Hl |].
  apply wok_lift. intros b. apply wok_lift. intros b2. apply wok_ret, Hl.
Qed.

Lemma write_signature_lawful p e sb ep :
  wok start (write_signature_w p e sb ep) (fun _ => released).
Proof.
  unfold write_signature_w. eapply wok_log; [reflexivity |]. destruct (p_small_stack p).
  - apply wok_lift. intros sigb. apply wok_lift. intros key.
    eapply wok_bind with (Q' := fun _ => at_exit).
    + destruct (is_null sigb || is_null key).
      * apply wok_ret. exits.
      * apply write_signature_body_lawful. reflexivity.
    + intros [[r b] s] l Hl. apply wok_lift. intros _.
      destruct (exit_lawful l Hl) as (l' & El & Hr).
      eapply wok_log; [exact El |]. apply wok_lift. intros _. apply wok_lift. intros _.
      apply wok_lift. intros _. apply wok_ret, Hr.
  - eapply wok_bind; [apply write_signature_body_lawful; reflexivity |].
    intros [[r b] s] l Hl. destruct (exit_lawful l Hl) as (l' & El & Hr).
    eapply wok_log; [exact El |]. apply wok_lift. intros _. apply wok_ret, Hr.
Qed.

Lemma start_released : released start.
Proof. split; intros x; cbn; [discriminate | reflexivity]. Qed.

Lemma encode_lawful p e params : wok start (l8w8jwt_encode_w p e params) (fun _ => released).
Proof.
  unfold l8w8jwt_encode_w. pose proof start_released as Hs.
  destruct params as [ep |]; [| apply wok_ret, Hs].
  destruct (negb _); [apply wok_ret, Hs |].
  apply wok_lift. intros [sb |]; [| apply wok_ret, Hs].
  eapply wok_bind with (Q' := fun _ => released).
  - unfold encode_body_w. apply wok_lift. intros [r b]. cbv beta iota.
    destruct (negb (r =? L8W8JWT_SUCCESS)%Z); [apply wok_ret, Hs |].
    eapply wok_bind with (Q' := fun _ => released).
    + destruct (negb (ep_alg ep =? -1)%Z); [apply write_signature_lawful | apply wok_ret, Hs].
    + intros [r2 b2] l Hl. cbv beta iota.
      destruct (negb (r2 =? L8W8JWT_SUCCESS)%Z); [apply wok_ret, Hl |].
      apply wok_lift. intros x. apply wok_ret, Hl.
  - intros [res b] l Hl. apply wok_lift. intros _. apply wok_ret, Hl.
Qed.

(** *** Verifying *)
(** When the [exit] label of l8w8jwt_verify_signature is reached. *)
Definition at_exit_v (is_cert : bool) (l : ledger) : Prop :=
  (if is_cert then l_ctx l Crt = Full /\ (l_ctx l Pk = Empty \/ l_ctx l Pk = View)
   else l_ctx l Crt = Empty /\ (l_ctx l Pk = Empty \/ l_ctx l Pk = Full)) /\
  l_ctx l Entropy <> Full /\ l_ctx l Drbg <> Full /\
  l_ctx l Ecdsa <> Full /\ l_ctx l SigR <> Full /\ l_ctx l SigS <> Full /\
  l_secret l Ref10 = false.

Definition L_cert : ledger :=
  match follow start [Init Pk; Init Crt; Store KeyCopy; Load Crt; Borrow] with
  | Some l => l | None => start end.
Definition L_plain : ledger :=
  match follow start [Init Pk; Init Crt; Store KeyCopy] with
  | Some l => l | None => start end.

Ltac gov :=
  unfold public_key_t;
  repeat (first
    [ go1
    | match goal with
      | |- tok_ _ (tbind (tret _) _) _ =>
          eapply tok_bind; [apply tok_ret with (Q := fun a l => a = _ /\ l = _); split; reflexivity
                           | intros ? ? [-> ->]]
      | |- tok_ _ (tbind (tbind (tlift _) _) _) _ =>
          eapply tok_bind with (Q' := fun _ l => follow L_plain [Load Pk] = Some l);
          [ apply tok_lift; intros ? _; eapply tok_log; [reflexivity |]; apply tok_ret; reflexivity
          | let l := fresh in let E := fresh in
            intros ? l E; injection E as <- ]
      end
    | match goal with
      | |- context [match ?q with xI _ => _ | xO _ => _ | xH => _ end] => is_var q; destruct q
      end ]).

Lemma verify_switch_lawful p e alg crt key n msg hash sig sn :
  tok_ (match crt with Some _ => L_cert | None => L_plain end)
    (verify_switch_t p e alg crt key n msg hash sig sn)
    (fun _ => at_exit_v (match crt with Some _ => true | None => false end)).
Proof.
  unfold verify_switch_t.
  destruct (dec_md_info_from_alg alg) as [h |]; [| apply tok_ret; destruct crt; exits].
  destruct crt as [pk |]; destruct alg as [|q|q]; gov; exits.
Qed.

Lemma verify_body_lawful p e dp sig n l :
  follow start [Init Pk; Init Crt] = Some l ->
  tok_ l (verify_body_t p e dp sig n) (fun x => at_exit_v (fst x)).
Proof.
  intros El. injection El as <-. unfold verify_body_t.
  apply tok_lift; intros key _. eapply tok_log; [reflexivity |]. apply tok_lift; intros kl _.
  eapply tok_bind with (Q' := fun x l =>
    match x with
    | (true, None) => at_exit_v true l
    | (true, Some (Some pk)) => l = L_cert
    | (false, Some None) => l = L_plain
    | _ => False
    end).
  - unfold load_cert_t. go; try reflexivity. exits.
  - intros [b crt] l Hl. cbv beta iota.
    eapply tok_bind with (Q' := fun _ => at_exit_v b); [| intros v l' Hv; apply tok_ret, Hv].
    destruct crt as [crt |]; [| destruct b; [apply tok_ret, Hl | destruct Hl]].
    assert (H : l = (match crt with Some _ => L_cert | None => L_plain end) /\
                b = (match crt with Some _ => true | None => false end)).
    { destruct b, crt; try destruct Hl; auto. }
    destruct H as [-> ->].
    assert (Hq : at_exit_v (match crt with Some _ => true | None => false end)
                   (match crt with Some _ => L_cert | None => L_plain end))
      by (destruct crt; exits).
    apply tok_lift; intros jwt _. apply tok_lift; intros [n1 |] _; [| apply tok_ret, Hq].
    apply tok_lift; intros [n2 |] _; [| apply tok_ret, Hq]. cbv zeta.
    destruct (verify_hash _ _ _); [| apply tok_ret, Hq]. apply verify_switch_lawful.
Qed.

(** The [exit] code of l8w8jwt_verify_signature (src/decode.c:724-735). *)
Lemma exit_lawful_v b l :
  at_exit_v b l ->
  exists l1 l2, follow l [Wipe KeyCopy] = Some l1 /\
    follow l1 [if b then Free Crt else Free Pk] = Some l2 /\ released l2.
Proof.
  intros (Hc & He & Hd & H1 & H2 & H3 & Hs). destruct l as [f sd g]. cbn in *.
  destruct b, Hc as (Ec & [Ep | Ep]); (eexists; eexists; split; [reflexivity |]); cbn;
    rewrite ?Ec, ?Ep; (split; [reflexivity |]); split; intros x; destruct x; cbn; auto;
    rewrite ?Ec, ?Ep; discriminate.
Qed.

Lemma verify_signature_lawful p e dp res s n :
  wok start (l8w8jwt_verify_signature_w p e dp res s n) (fun _ => released).
Proof.
  unfold l8w8jwt_verify_signature_w. pose proof start_released as Hs.
  destruct (_ || _); [apply wok_ret, Hs |]. cbv zeta.
  eapply wok_log; [reflexivity |]. destruct (p_small_stack p).
  - apply wok_lift. intros key.
    eapply wok_bind with (Q' := fun x => at_exit_v (fst x)).
    + destruct (is_null key); [apply wok_ret; exits |].
      apply wok_lift. intros sig. apply wok_lift_t, verify_body_lawful. reflexivity.
    + intros [b v] l Hl. apply wok_lift. intros _.
      destruct (exit_lawful_v b l Hl) as (l1 & l2 & E1 & E2 & Hr).
      eapply wok_log; [exact E1 |]. apply wok_lift. intros _.
      eapply wok_log; [exact E2 |]. apply wok_ret, Hr.
  - apply wok_lift. intros sig.
    eapply wok_bind; [apply wok_lift_t, verify_body_lawful; reflexivity |].
    intros [b v] l Hl. destruct (exit_lawful_v b l Hl) as (l1 & l2 & E1 & E2 & Hr).
    eapply wok_log; [exact E1 |]. eapply wok_log; [exact E2 |]. apply wok_ret, Hr.
Qed.

Lemma decode_body_lawful p e dp c : wok start (decode_body_w p e dp c) (fun _ => released).
Proof.
  unfold decode_body_w. pose proof start_released as Hs.
  apply wok_lift. intros [r sg]. cbv beta iota.
  destruct (negb (r =? L8W8JWT_SUCCESS)%Z); [apply wok_ret, Hs |].
  eapply wok_bind; [apply verify_signature_lawful |]. intros [r2 res] l Hl. cbv beta iota.
  destruct (negb (r2 =? L8W8JWT_SUCCESS)%Z); [apply wok_ret, Hl |].
  apply wok_lift. intros [r3 c3]. cbv beta iota.
  destruct (negb (r3 =? L8W8JWT_SUCCESS)%Z); [apply wok_ret, Hl |].
  apply wok_lift. intros [r4 c4]. cbv beta iota.
  destruct (negb (r4 =? L8W8JWT_SUCCESS)%Z); [apply wok_ret, Hl |].
  apply wok_lift. intros x. apply wok_ret, Hl.
Qed.

Lemma decode_lawful p e params a b c :
  wok start (l8w8jwt_decode_w p e params a b c) (fun _ => released).
Proof.
  unfold l8w8jwt_decode_w. pose proof start_released as Hs.
  destruct params as [dp |]; [| apply wok_ret, Hs].
  destruct (b && negb c); [apply wok_ret, Hs |]. cbv zeta.
  destruct (negb (_ =? _)%Z); [apply wok_ret, Hs |]. destruct (negb a); [apply wok_ret, Hs |].
  apply wok_lift. intros [cl |].
  - eapply wok_bind; [apply decode_body_lawful |]. intros st l Hl.
    do 4 (apply wok_lift; intros _). apply wok_ret, Hl.
  - apply wok_lift. intros _. apply wok_ret, Hs.
Qed.

Lemma decode_raw_lawful p e params a b c d f g h :
  wok start (l8w8jwt_decode_raw_w p e params a b c d f g h) (fun _ => released).
Proof.
  unfold l8w8jwt_decode_raw_w. pose proof start_released as Hs.
  destruct params as [dp |]; [| apply wok_ret, Hs].
  destruct (_ || _); [apply wok_ret, Hs |]. cbv zeta.
  destruct (negb (_ =? _)%Z); [apply wok_ret, Hs |].
  apply wok_lift. intros o. eapply wok_bind with (Q' := fun _ => released).
  - destruct o as [cl |]; [| apply wok_ret, Hs].
    eapply wok_bind; [apply decode_body_lawful |]. intros st l Hl. apply wok_ret, Hl.
  - intros [[[rc sg] res] bb] l Hl.
    do 3 (apply wok_lift; intros ?). apply wok_lift; intros _. apply wok_ret, Hl.
Qed.
