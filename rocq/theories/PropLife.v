(** * Property C83: memory is used only while it is held *)
From Verif Require Import Base BaseProofs HeapProofs Util Claim Base64 Jsmn Env Encode Decode
  ClaimProofs DecodeProofs CodeProofs PropEncode PropVerify PropValidate PropJson Trace TraceProofs TraceRuns SpecLife LifeProofs LifeRuns PropTrace.
From Coq Require Import ZifyBool ZifyNat ZifyN Permutation.

(** The blocks are held. *)
Definition all_held (w : world) (ids : list nat) : Prop := forall id, In id ids -> w_live w id = true.
(** The blocks are new, distinct, and held. *)
Definition all_new (w w' : world) (ids : list nat) : Prop :=
  NoDup ids /\ forall id, In id ids -> w_live w id = false /\ w_live w' id = true.

Lemma have_start F w : wf w -> all_held w F -> have F [] w.
Proof. intros W Hf. split; [exact W|]. split; [constructor|]. split; [intros i []|]. intros i [Hi|[]]. auto. Qed.
(** What was held before and is not asked to be released stays held: [F] is arbitrary. *)
Lemma run_keeps {A} (m : H A) (m' : M A) (o : A -> list nat) w F :
  wf w -> all_held w F -> erases m m' ->
  (forall F', incl F F' -> keeps F' [] m (fun a L' => L' = o a ++ [])) ->
  in_life (w_live w) (fst (m w))
  /\ forall a w', m' w = Ret a w' -> all_new w w' (o a) /\ forall id, w_live w id = true -> w_live w' id = true.
Proof.
  intros W Hf Er Hk. split; [apply (Hk F (incl_refl F)), have_start; assumption|].
  intros a w' E. rewrite <- Er in E.
  assert (X : forall F', incl F F' -> all_held w F' -> have F' (o a) w').
  { intros F' I Hf'. destruct (Hk F' I w (have_start F' w W Hf')) as [_ K]. destruct (K a w' E) as [_ (L' & Hv & ->)].
    rewrite app_nil_r in Hv. exact Hv. }
  split.
  - destruct (X F (incl_refl F) Hf) as (_ & D & _ & Lv). split; [exact D|]. intros id Hi. split; [|apply Lv; auto].
    destruct (w_live w id) eqn:El; [exfalso|reflexivity].
    assert (Hf' : all_held w (id :: F)) by (intros j [<-|Hj]; auto).
    destruct (X (id :: F) (incl_tl id (incl_refl F)) Hf') as (_ & _ & Nx & _). apply (Nx id Hi). cbn; auto.
  - intros id El. assert (Hf' : all_held w (id :: F)) by (intros j [<-|Hj]; auto).
    destruct (X (id :: F) (incl_tl id (incl_refl F)) Hf') as (_ & _ & _ & Lv). apply Lv. cbn; auto.
Qed.

(** Encoding: [given ep] are the heap blocks that the caller's parameters point to, if any (texts, claims,
    keys); they must be held. Whatever the outcome, including undefined behaviour (up to there). *)
Theorem C83_encode :
  forall p e ep w, wf w -> all_held w (given ep) ->
    in_life (w_live w) (fst (encode_h p e (Some ep) w))
    /\ forall r w', l8w8jwt_encode p e (Some ep) w = Ret r w' ->
         all_new w w' (out_at (er_out r)) /\ forall id, w_live w id = true -> w_live w' id = true.
Proof.
  intros p e ep w W Hf. apply (run_keeps _ _ (fun r => out_at (er_out r)) _ _ W Hf (er_encode p e (Some ep))).
  intros F' I. apply k_encode. exact I.
Qed.

(** Decoding, in its three forms. *)
Theorem C83_decode :
  forall p e dp w, wf w -> all_held w (given_dec dp) ->
    (forall v c l,
       in_life (w_live w) (fst (decode_h p e (Some dp) v c l w))
       /\ forall r w', l8w8jwt_decode p e (Some dp) v c l w = Ret r w' ->
            all_new w w' (dec_at (dr_claims r)) /\ forall id, w_live w id = true -> w_live w' id = true)
    /\ (forall v h hl pl pll s sl,
       in_life (w_live w) (fst (decode_raw_h p e (Some dp) v h hl pl pll s sl w))
       /\ forall r w', l8w8jwt_decode_raw p e (Some dp) v h hl pl pll s sl w = Ret r w' ->
            all_new w w' (raw_at r) /\ forall id, w_live w id = true -> w_live w' id = true)
    /\ (forall h hl pl pll s sl,
       in_life (w_live w) (fst (decode_raw_no_validation_h p (Some dp) h hl pl pll s sl w))
       /\ forall r w', l8w8jwt_decode_raw_no_validation p (Some dp) h hl pl pll s sl w = Ret r w' ->
            all_new w w' (raw_at r) /\ forall id, w_live w id = true -> w_live w' id = true).
Proof.
  intros p e dp w W Hf. split; [|split]; intros.
  - apply (run_keeps _ _ (fun r => dec_at (dr_claims r)) _ _ W Hf (er_decode p e (Some dp) v c l)). intros F' I. apply k_decode. exact I.
  - apply (run_keeps _ _ raw_at _ _ W Hf (er_decode_raw p e (Some dp) v h hl pl pll s sl)). intros F' I. apply k_decode_raw. exact I.
  - apply (run_keeps _ _ raw_at _ _ W Hf (er_decode_raw_nv p (Some dp) h hl pl pll s sl)). intros F' I. apply k_decode_raw_nv. exact I.
Qed.

(** Releasing claims: of any array whose blocks are held and distinct, and of no more elements than
    there are (otherwise the behaviour is undefined, C23). The blocks of the released claims, and no
    others, are no longer held. *)
Theorem C83_free_claims :
  forall id cs n w, wf w -> NoDup (id :: texts_at cs) -> all_held w (id :: texts_at cs) ->
    in_life (w_live w) (fst (free_claims_h (CArr (Some id) cs) n w))
    /\ forall u w', l8w8jwt_free_claims (CArr (Some id) cs) n w = Ret u w' ->
         forall i, w_live w' i = true
                   <-> w_live w i = true /\ i <> id /\ ~ In i (texts_at (firstn (N.to_nat n) cs)).
Proof.
  intros id cs n w W D Hf.
  assert (Hv : forall F', (forall i, In i F' -> w_live w i = true /\ ~ In i (id :: texts_at cs)) -> have F' (texts_at cs ++ [id]) w).
  { intros F' HF. split; [exact W|]. split; [eapply Permutation_NoDup; [apply Permutation_cons_append|exact D]|].
    assert (P : forall i, In i (texts_at cs ++ [id]) <-> In i (id :: texts_at cs)) by (intros i; rewrite in_app_iff; cbn; tauto).
    split; [intros i Hi Hi'; apply P in Hi; destruct (HF i Hi'); contradiction|]. intros i [Hi|Hi]; [apply HF, Hi|apply P in Hi; auto]. }
  split; [apply (k_free_claims [] [] id cs n w (Hv [] (fun _ x => False_ind _ x)))|].
  intros u w' E. assert (E' : snd (free_claims_h (CArr (Some id) cs) n w) = Ret u w') by (rewrite er_free_claims; exact E).
  assert (Eq : forall i, w_live w' i = held (w_live w i) i (fst (free_claims_h (CArr (Some id) cs) n w))).
  { destruct (k_free_claims [] [] id cs n w (Hv [] (fun _ x => False_ind _ x))) as [_ K]. apply (K u w' E'). }
  assert (Kp : forall i, w_live w i = true -> ~ In i (id :: texts_at cs) -> w_live w' i = true).
  { intros i Li Ni. destruct (k_free_claims [i] [] id cs n w) as [_ K].
    - apply Hv. intros j [<-|[]]. auto.
    - destruct (K u w' E') as [_ (L' & (_ & _ & _ & Lv) & _)]. apply Lv. cbn. auto. }
  clear Eq.
  destruct (k_free_claims [] [] id cs n w (Hv [] (fun _ x => False_ind _ x))) as [_ K]. destruct (K u w' E') as [_ (L' & (_ & _ & _ & Lv) & ->)].
  rewrite app_nil_r in Lv. clear K.
  (* blocks released are not held: from the model *)
  assert (Out : forall i, w_live w' i = true -> w_live w i = true /\ i <> id /\ ~ In i (texts_at (firstn (N.to_nat n) cs))).
  { clear -E D. unfold l8w8jwt_free_claims in E. unfold mbind in E. destruct (free_each cs n w) as [u1 w1|] eqn:E1; [|discriminate].
    apply free_id_inv in E as [_ ->]. intros i Hi. cbn in Hi. unfold upd_live in Hi. destruct (Nat.eqb_spec i id) as [X|Ni]; [discriminate Hi|].
    assert (X : forall cs n w u w1, free_each cs n w = Ret u w1 -> forall i, w_live w1 i = true -> w_live w i = true /\ ~ In i (texts_at (firstn (N.to_nat n) cs))).
    { clear. induction cs as [|c cs IH]; intros n w u w1 E i Hi; cbn [free_each] in E; destruct (N.eqb_spec n 0) as [->|Hn].
      1,3: inversion E; subst; cbn; auto. 1: discriminate.
      unfold mbind in E. destruct (zeroize (c_key c) (c_key_length c) w) as [u2 w2|] eqn:E2; [|discriminate]. apply zeroize_same in E2 as ->.
      destruct (zeroize (c_value c) (c_value_length c) w) as [u3 w3|] eqn:E3; [|discriminate]. apply zeroize_same in E3 as ->.
      destruct (free (c_key c) w) as [u4 w4|] eqn:E4; [|discriminate]. destruct (free (c_value c) w4) as [u5 w5|] eqn:E5; [|discriminate].
      destruct (IH _ _ _ _ E i Hi) as [A B].
      assert (Fr : forall q w u w', free q w = Ret u w' -> w_live w' i = true -> w_live w i = true /\ ~ In i (at_ q)).
      { clear - i. intros q w u w' E Hi. destruct q as [|[j|] m]; cbn [free] in E; [inversion E; subst; auto| |discriminate].
        apply free_id_inv in E as [_ ->]. cbn in Hi. unfold upd_live in Hi. destruct (Nat.eqb_spec i j) as [X|N]; [discriminate Hi|].
        split; [exact Hi|]. cbn. intros [X|[]]. congruence. }
      destruct (Fr _ _ _ _ E5 A) as [A1 B1]. destruct (Fr _ _ _ _ E4 A1) as [A2 B2]. split; [exact A2|].
      destruct (N.to_nat n) as [|k] eqn:Ek; [lia|]. replace (N.to_nat (n - 1)) with k in B by lia.
      cbn [firstn texts_at flat_map]. unfold text_at at 1. rewrite !in_app_iff. fold (texts_at (firstn k cs)). tauto. }
    destruct (X _ _ _ _ _ E1 i Hi). auto. }
  intros i. split; [apply Out|]. intros (Li & Ni & Nf). destruct (in_dec Nat.eq_dec i (texts_at (skipn (N.to_nat n) cs))) as [Is|Ns].
  - apply Lv. auto.
  - apply Kp; [exact Li|]. intros [->|Hi]; [contradiction|]. rewrite <- (firstn_skipn (N.to_nat n) cs) in Hi.
    unfold texts_at in Hi. rewrite flat_map_app in Hi. apply in_app_or in Hi as [Hi|Hi]; contradiction.
Qed.

(** Whole uses: encode and release the token, decode and release the claims or the parts. *)
Theorem C83_uses :
  forall p e w, wf w ->
    (forall ep, all_held w (given ep) -> in_life (w_live w) (fst (encode_and_free_h p e ep w)))
    /\ (forall dp, all_held w (given_dec dp) ->
          in_life (w_live w) (fst (decode_and_free_h p e dp w))
          /\ (forall v h hl pl pll s sl,
                in_life (w_live w) (fst (raw_and_free_h (decode_raw_h p e (Some dp) v h hl pl pll s sl) w)))
          /\ (forall h hl pl pll s sl,
                in_life (w_live w) (fst (raw_and_free_h (decode_raw_no_validation_h p (Some dp) h hl pl pll s sl) w)))).
Proof.
  intros p e w W. split; [|intros dp Hf; split; [|split]].
  - intros ep Hf. assert (K : keeps (given ep) [] (encode_and_free_h p e ep) (fun _ _ => True)).
    { unfold encode_and_free_h. ks ltac:(apply k_encode; apply incl_refl). intros r ? ->.
      eapply k_bind with (R := fun _ L' => L' = []); [|intros; eapply k_ret; [apply Permutation_refl|exact I]].
      destruct (er_out r) as [q|]; cbn [out_at]; [apply k_free|]. eapply k_ret; [apply Permutation_refl|]. reflexivity. }
    apply K, have_start; assumption.
  - assert (K : keeps (given_dec dp) [] (decode_and_free_h p e dp) (fun _ _ => True)).
    { unfold decode_and_free_h. ks ltac:(apply k_decode; apply incl_refl). intros r ? ->.
      destruct (dr_claims r) as [[c n]|]; cbn [dec_at]; [|eapply k_ret; [apply Permutation_refl|exact I]].
      destruct c as [|[id|] cs]; cbn [claims_at opt_at].
      - cbn. eapply k_ret; [apply Permutation_refl|exact I].
      - eapply k_perm with (L' := texts_at cs ++ [id]).
        + rewrite app_nil_r. apply Permutation_cons_append.
        + eapply k_imp; [apply k_free_claims|]. auto.
      - unfold free_claims_h. ks ltac:(apply k_free_each; intros i []). intros _ ? ->. apply k_ub. }
    apply K, have_start; assumption.
  - intros v h hl pl pll s sl.
    assert (K : keeps (given_dec dp) [] (raw_and_free_h (decode_raw_h p e (Some dp) v h hl pl pll s sl)) (fun _ _ => True)).
    { unfold raw_and_free_h. ks ltac:(apply k_decode_raw; apply incl_refl). intros r ? ->. unfold raw_at. rewrite <- !app_assoc.
      assert (Fp : forall o L, keeps (given_dec dp) (part_at o ++ L) (free_part_h o) (fun _ L' => L' = L)).
      { intros [x|] L; cbn [part_at free_part_h]; [apply k_free|]. eapply k_ret; [apply Permutation_refl|]. reflexivity. }
      ks ltac:(apply Fp). intros _ ? ->. ks ltac:(apply Fp). intros _ ? ->. eapply k_imp; [apply Fp|]. auto. }
    apply K, have_start; assumption.
  - intros h hl pl pll s sl.
    assert (K : keeps (given_dec dp) [] (raw_and_free_h (decode_raw_no_validation_h p (Some dp) h hl pl pll s sl)) (fun _ _ => True)).
    { unfold raw_and_free_h. ks ltac:(apply k_decode_raw_nv; apply incl_refl). intros r ? ->. unfold raw_at. rewrite <- !app_assoc.
      assert (Fp : forall o L, keeps (given_dec dp) (part_at o ++ L) (free_part_h o) (fun _ L' => L' = L)).
      { intros [x|] L; cbn [part_at free_part_h]; [apply k_free|]. eapply k_ret; [apply Permutation_refl|]. reflexivity. }
      ks ltac:(apply Fp). intros _ ? ->. ks ltac:(apply Fp). intros _ ? ->. eapply k_imp; [apply Fp|]. auto. }
    apply K, have_start; assumption.
Qed.

(** ** Cases *)
(** An access after the release, and a second release, are not in life. *)
Example C83_wrong : ~ in_life (fun _ => false) [Got FromMalloc 3; Gone ByFree 3 Untold; Used 3]
  /\ ~ in_life (fun _ => false) [Got FromMalloc 3; Gone ByFree 3 Untold; Gone ByFree 3 Untold]
  /\ ~ in_life (fun _ => false) [Used 3]
  /\ in_life (fun _ => false) [Got FromMalloc 3; Used 3; Gone ByFree 3 Untold].
Proof.
  split; [|split; [|split]].
  - intros X. discriminate (X [_; _] _ [] eq_refl).
  - intros X. discriminate (X [_; _] _ [] eq_refl).
  - intros X. discriminate (X [] _ [] eq_refl).
  - intros [|? [|? [|? [|? t1]]]] x t2 E; inversion E; subst; reflexivity || destruct t1; discriminate.
Qed.
(** The claims of a decoded token, on the heap, are put into a new one: the caller's blocks are the array
    (1) and six texts (5 to 10); they and eight blocks of the library are used by the encoding. *)
Definition ep_again (c : cptr) (n : N) : enc_params :=
  EncParams 0 Null 0 Null 0 Null 0 Null 0 0 0 0 CNull 0 c n (zstr "secret") 6 Null 0 true true.
Definition again : option (list nat * bool * Z * list nat) :=
  match l8w8jwt_decode pe toy (Some (dp_of "{""a"":""b""}")) true true true we with
  | Ret r w1 =>
      match dr_claims r with
      | Some (c, n) =>
          let ep := ep_again c n in
          match encode_h pe toy (Some ep) w1 with
          | (tr, Ret r2 w2) =>
              Some (given ep, forallb (w_live w1) (given ep), er_rc r2,
                    nodup Nat.eq_dec (flat_map (fun x => match x with Used id => [id] | _ => [] end) tr))
          | _ => None
          end
      | None => None
      end
  | Undef _ => None
  end.
Example C83_case :
  again = Some ([1; 5; 6; 7; 8; 9; 10]%nat, true, 0%Z, [13; 14; 15; 1; 5; 6; 7; 8; 9; 10; 12; 16; 17; 11; 18]%nat).
Proof. vm_compute. reflexivity. Qed.
Print Assumptions C83_encode.
Print Assumptions C83_decode.
Print Assumptions C83_free_claims.
Print Assumptions C83_uses.
