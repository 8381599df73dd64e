(** * Lemmas: jsmn counts the values and member names of a JSON text *)
From Verif Require Import Base BaseProofs HeapProofs Util UtilProofs Claim Jsmn Env SpecJson JsmnProofs ReadProofs JsmnJson.
From Coq Require Import ZifyBool ZifyNat ZifyN.
Ltac Zify.zify_post_hook ::= Z.div_mod_to_equations.

(** Every JSON value has a size. *)
Lemma sized :
  (forall k t, json_value k t -> exists n, value_size t n)
  /\ (forall t, json_elements t -> exists n, elements_size t n)
  /\ (forall ms t, json_members ms t -> exists n, members_size t n).
Proof.
  apply json_mutind; intros;
    repeat match goal with H : exists n, _ |- _ => destruct H as (? & H) end;
    eexists; try (econstructor; eassumption); econstructor; eauto.
Qed.
Lemma object_sized ms t : json_object ms t -> exists n, value_size t n.
Proof.
  intros [ws Hw|ms' t' Hm]; [eexists; apply VS_object0; exact Hw|].
  destruct (proj2 (proj2 sized) _ _ Hm) as (n & H). eexists. apply VS_object. exact H.
Qed.

(** Reading [t] in counting mode. *)
Definition counts (t : bytes) (n : N) : Prop := forall rest pos toks count, delim rest ->
  jrun None (t ++ rest) pos toks count = jrun None rest (pos + Z.of_nat (length t)) toks (count + Z.of_N n).
Lemma counts_container o c body n : opens o = true -> closes c = true -> prim_end c = true ->
  counts body n -> counts ([o] ++ body ++ [c]) (1 + n).
Proof.
  intros H1 H2 H3 Hb rest pos toks count D. cbn [app]. rewrite <- app_assoc. cbn [app].
  rewrite jrun_open; [|exact H1|exact I]. cbn [padd]. rewrite Hb by (right; exact H3).
  pose proof (jrun_close None c rest (pos + 1 + Z.of_nat (length body)) 0 toks (count + 1 + Z.of_N n) [] H2 ltac:(lia) (Forall_nil _)) as C.
  cbn [padd] in C. rewrite C. f_equal; cbn [length]; rewrite ?app_length; cbn [length]; lia.
Qed.
Lemma counts_ws w : json_ws w -> counts w 0.
Proof. intros Hw rest pos toks count _. rewrite jrun_ws by exact Hw. f_equal. lia. Qed.
Lemma counts_prim t c r : t = c :: r -> prim_start c -> Forall prim_char r -> counts t 1.
Proof. intros -> H1 H2 rest pos toks count D. rewrite jrun_prim; auto. exact I. Qed.

Lemma sizes_counted :
  (forall t n, value_size t n -> counts t n)
  /\ (forall t n, elements_size t n -> counts t n)
  /\ (forall t n, members_size t n -> counts t n).
Proof.
  apply size_mutind.
  - intros t d H rest pos toks count _. rewrite (jrun_string None t d); [reflexivity|exact H|exact I].
  - intros t H. destruct (number_prim t H) as (c & r & E & H1 & _ & H2). eapply counts_prim; eauto.
  - eapply counts_prim; [reflexivity|vm_compute; intuition congruence|]. repeat constructor; vm_compute; intuition congruence.
  - eapply counts_prim; [reflexivity|vm_compute; intuition congruence|]. repeat constructor; vm_compute; intuition congruence.
  - eapply counts_prim; [reflexivity|vm_compute; intuition congruence|]. repeat constructor; vm_compute; intuition congruence.
  - intros ws H. apply (counts_container x5b x5d ws 0); auto using counts_ws.
  - intros t n _ IH. apply (counts_container x5b x5d t n); auto.
  - intros ws H. apply (counts_container x7b x7d ws 0); auto using counts_ws.
  - intros t n _ IH. apply (counts_container x7b x7d t n); auto.
  - intros w1 t w2 n H1 _ IH H2 rest pos toks count D. rewrite <- !app_assoc, jrun_ws by exact H1.
    rewrite IH by (apply delim_ws; assumption). rewrite jrun_ws by exact H2. f_equal. rewrite !app_length. lia.
  - intros w1 t w2 n r m H1 _ IH H2 _ IHr rest pos toks count D. rewrite <- !app_assoc, jrun_ws by exact H1.
    rewrite IH by (apply delim_wsc; auto). rewrite jrun_ws by exact H2.
    change (lit "," ++ r ++ rest) with (x2c :: r ++ rest). rewrite jrun_blank by reflexivity. rewrite IHr by exact D.
    f_equal; rewrite ?app_length; change (length (lit ",")) with 1%nat; lia.
  - intros w1 kb kd w2 w3 t n w4 H1 Hb H2 H3 _ IH H4 rest pos toks count D. rewrite <- !app_assoc, jrun_ws by exact H1.
    rewrite (jrun_string None kb kd); [|exact Hb|exact I]. cbn [padd]. rewrite jrun_ws by exact H2.
    change (lit ":" ++ w3 ++ t ++ w4 ++ rest) with (x3a :: w3 ++ t ++ w4 ++ rest). rewrite jrun_blank by reflexivity.
    rewrite jrun_ws by exact H3. rewrite IH by (apply delim_ws; assumption). rewrite jrun_ws by exact H4.
    f_equal; rewrite ?app_length; change (length (lit ":")) with 1%nat; lia.
  - intros w1 kb kd w2 w3 t n w4 r m H1 Hb H2 H3 _ IH H4 _ IHr rest pos toks count D. rewrite <- !app_assoc, jrun_ws by exact H1.
    rewrite (jrun_string None kb kd); [|exact Hb|exact I]. cbn [padd]. rewrite jrun_ws by exact H2.
    change (lit ":" ++ w3 ++ t ++ w4 ++ lit "," ++ r ++ rest) with (x3a :: w3 ++ t ++ w4 ++ lit "," ++ r ++ rest). rewrite jrun_blank by reflexivity.
    rewrite jrun_ws by exact H3. rewrite IH by (apply delim_wsc; auto). rewrite jrun_ws by exact H4.
    change (lit "," ++ r ++ rest) with (x2c :: r ++ rest). rewrite jrun_blank by reflexivity. rewrite IHr by exact D.
    f_equal; rewrite ?app_length; change (length (lit ":")) with 1%nat; change (length (lit ",")) with 1%nat; lia.
Qed.

Lemma size_tokens js n : json_size js n -> fst (jsmn_parse js None) = Z.of_N n.
Proof.
  intros (w1 & t & w2 & H1 & H & H2 & ->). unfold jsmn_parse.
  change (jmain (S (length (w1 ++ t ++ w2))) None (w1 ++ t ++ w2) 0 [] 0) with (jrun None (w1 ++ t ++ w2) 0 [] 0).
  rewrite jrun_ws by exact H1. rewrite (proj1 sizes_counted _ _ H) by (rewrite <- (app_nil_r w2); apply delim_ws; [exact H2|exact I]).
  rewrite <- (app_nil_r w2), jrun_ws by exact H2. rewrite jmain_rest by auto.
  destruct (Z.ltb_spec (0 + Z.of_N n) 0); [lia|]. cbn [fst]. lia.
Qed.
Lemma size_unique js n m : json_size js n -> json_size js m -> n = m.
Proof. intros H1 H2. apply size_tokens in H1, H2. lia. Qed.
Lemma small_size js k : (fst (jsmn_parse js None) <=? Z.of_N k)%Z = true -> forall n, json_size js n -> (n <= k)%N.
Proof. intros H n Hn. apply size_tokens in Hn. lia. Qed.
