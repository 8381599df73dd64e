(** * Lemmas: the tokenizer and claim parsing on JSON texts *)
From Verif Require Import Base BaseProofs HeapProofs Util UtilProofs Claim Base64 SpecB64
  Base64EncApi Base64DecProofs Base64Api Jsmn Env Encode Decode SpecJson SpecJwa ClaimProofs UnescapeProofs
  SignProofs DecodeProofs DecodeInv JsmnProofs ParseProofs PropClaim ReadProofs.
From Coq Require Import ZifyBool ZifyNat ZifyN Permutation.
Ltac Zify.zify_post_hook ::= Z.div_mod_to_equations.

(** ** The main loop with enough fuel *)
Lemma jmain_fuel cap f : forall f' rest pos toks count, (length rest < f)%nat -> (length rest < f')%nat ->
  jmain f cap rest pos toks count = jmain f' cap rest pos toks count.
Proof.
  induction f as [|f IH]; intros f' rest pos toks count H H'; [lia|]. destruct f' as [|f']; [lia|].
  destruct rest as [|c t]; [reflexivity|]. cbn [length] in *. rewrite !jmain_step.
  destruct (is_nul c) eqn:Ec; [reflexivity|].
  destruct (opens c) eqn:Eo; [destruct (push_tok _ _ _); [apply IH; lia|reflexivity]|].
  destruct (closes c) eqn:Ek.
  { destruct cap; [destruct (close_last _ _ _); [apply IH; lia|reflexivity]|apply IH; lia]. }
  destruct (Byte.eqb c x22) eqn:Eq.
  { destruct (jstr 0 t 0) as [|n r] eqn:E; [reflexivity|]. destruct (push_tok _ _ _); [|reflexivity].
    apply jstr_found in E as (body & -> & _ & _). rewrite app_length in *. cbn [length] in *. apply IH; lia. }
  destruct (blank c) eqn:Eb; [apply IH; lia|].
  destruct (jprim (c :: t) 0) as [|n r] eqn:E; [reflexivity|]. destruct (push_tok _ _ _); [|reflexivity].
  pose proof (jprim_nonempty c t n r Ec (not_blank_prim c Ec Eo Ek Eq Eb) E) as Hp.
  apply jprim_found in E as (body & E & -> & _).
  apply (f_equal (@length byte)) in E. rewrite app_length in E. cbn [length] in E. apply IH; lia.
Qed.

Definition jrun cap rest pos toks count := jmain (S (length rest)) cap rest pos toks count.

Lemma jrun_blank cap c t pos toks count : blank c = true ->
  jrun cap (c :: t) pos toks count = jrun cap t (pos + 1) toks count.
Proof. intros H. unfold jrun. rewrite jmain_step. destruct c; try discriminate; apply jmain_fuel; cbn [length]; lia. Qed.

(** Room for [k] more tokens; the token list with some added. *)
Definition room (cap : option Z) (toks : list tok) (k : nat) : Prop :=
  match cap with None => True | Some n => (Z.of_nat (length toks + k) <= n)%Z end.
Definition padd (cap : option Z) (toks tl : list tok) : list tok :=
  match cap with None => toks | Some _ => rev tl ++ toks end.

Lemma padd_app cap toks a b : padd cap (padd cap toks a) b = padd cap toks (a ++ b).
Proof. destruct cap; [|reflexivity]. cbn [padd]. rewrite rev_app_distr, app_assoc. reflexivity. Qed.
Lemma padd_nil cap toks : padd cap toks [] = toks.
Proof. destruct cap; reflexivity. Qed.
Lemma room_padd cap toks a k : room cap toks (length a + k) -> room cap (padd cap toks a) k.
Proof. destruct cap; [|auto]. cbn [room padd]. rewrite app_length, rev_length. lia. Qed.
Lemma room_le cap toks k k' : room cap toks k -> (k' <= k)%nat -> room cap toks k'.
Proof. destruct cap; [|auto]. cbn [room]. lia. Qed.
Lemma push_room cap toks t : room cap toks 1 -> push_tok cap toks t = Some (padd cap toks [t]).
Proof.
  destruct cap; [|reflexivity]. cbn [room push_tok padd rev app]. intros H.
  destruct (Z.ltb_spec (Z.of_nat (length toks)) z); [reflexivity|lia].
Qed.

Lemma jrun_ws cap w : json_ws w -> forall rest pos toks count,
  jrun cap (w ++ rest) pos toks count = jrun cap rest (pos + Z.of_nat (length w)) toks count.
Proof.
  induction 1 as [|c w Hc Hw IH]; intros rest pos toks count; [simpl; f_equal; lia|].
  cbn [app]. rewrite jrun_blank, IH by (cbn in Hc; decompose [or] Hc; subst; try reflexivity; contradiction).
  f_equal. cbn [length]. lia.
Qed.

Lemma jrun_open cap c t pos toks count : opens c = true -> room cap toks 1 ->
  jrun cap (c :: t) pos toks count =
  jrun cap t (pos + 1) (padd cap toks [Tok (if Byte.eqb c x7b then JObject else JArray) pos (-1)]) (count + 1).
Proof.
  intros H Hr. unfold jrun. rewrite jmain_step. rewrite H, push_room by exact Hr.
  destruct c; try discriminate; apply jmain_fuel; cbn [length]; lia.
Qed.

Definition closed (t : tok) : Prop := tok_open t = false.
Lemma close_last_skip ty e l : Forall closed l -> forall toks,
  close_last ty e (l ++ toks) = option_map (app l) (close_last ty e toks).
Proof.
  induction 1 as [|t l Ht Hl IH]; intros toks; [cbn [app]; destruct (close_last _ _ _); reflexivity|].
  cbn [app close_last]. unfold closed in Ht. rewrite Ht, IH. destruct (close_last _ _ _); reflexivity.
Qed.

Lemma jrun_close cap c t pos start toks count tl (ty := if Byte.eqb c x7d then JObject else JArray) :
  closes c = true -> (0 <= start)%Z -> Forall closed tl ->
  jrun cap (c :: t) pos (padd cap toks (Tok ty start (-1) :: tl)) count =
  jrun cap t (pos + 1) (padd cap toks (Tok ty start (pos + 1) :: tl)) count.
Proof.
  intros H Hs Hcl. unfold jrun. rewrite jmain_step. rewrite H.
  assert (E1 : is_nul c = false) by (destruct c; (discriminate || reflexivity)).
  assert (E2 : opens c = false) by (destruct c; (discriminate || reflexivity)). rewrite E1, E2.
  destruct cap as [n|]; cbn [padd]; [|apply jmain_fuel; cbn [length]; lia].
  cbn [rev]. rewrite <- app_assoc, close_last_skip by (apply Forall_rev; exact Hcl).
  cbn [app close_last]. unfold tok_open at 1. cbn [t_start t_end].
  destruct (Z.eqb_spec start (-1)); [lia|]. cbn [negb andb Z.eqb t_type].
  fold ty. assert (E : jtype_eqb ty ty = true) by (subst ty; destruct (Byte.eqb c x7d); reflexivity).
  cbn [Pos.eqb]. rewrite E. cbn [option_map]. rewrite <- app_assoc.
  apply jmain_fuel; cbn [length]; lia.
Qed.

(** ** Strings *)
Lemma hexdig_is_hex c v : hexdig c = Some v -> is_hex c = true.
Proof. destruct c; try reflexivity; intros H; vm_compute in H; discriminate. Qed.
Lemma code_unit_hex a b c d u : code_unit a b c d = Some u ->
  is_hex a = true /\ is_hex b = true /\ is_hex c = true /\ is_hex d = true.
Proof.
  unfold code_unit. destruct (hexdig a) eqn:A; [|discriminate]. destruct (hexdig b) eqn:B; [|discriminate].
  destruct (hexdig c) eqn:C; [|discriminate]. destruct (hexdig d) eqn:D; [|discriminate].
  eauto 8 using hexdig_is_hex.
Qed.
Lemma is_hex_not_nul c : is_hex c = true -> is_nul c = false.
Proof. destruct c; try reflexivity; discriminate. Qed.

Lemma jstr_hex h1 h2 h3 h4 l n :
  is_hex h1 = true -> is_hex h2 = true -> is_hex h3 = true -> is_hex h4 = true ->
  jstr 4 (h1 :: h2 :: h3 :: h4 :: l) n = jstr 0 l (n + 1 + 1 + 1 + 1).
Proof.
  intros A B C D. cbn [jstr].
  rewrite !is_hex_not_nul by assumption. rewrite A, B, C, D. reflexivity.
Qed.

Lemma jstr_body t d : json_body t d -> forall n rest,
  jstr 0 (t ++ x22 :: rest) n = JFound (n + Z.of_nat (length t)) rest.
Proof.
  induction 1 as [|c t d Hc H1 H2 _ IH|e c t d He _ IH|h1 h2 h3 h4 u t d Hu _ _ _ IH
                 |h1 h2 h3 h4 l1 l2 l3 l4 u v t d Hu _ Hv _ _ IH]; intros n rest; cbn [app].
  - cbn. f_equal. lia.
  - cbn [jstr]. destruct (is_nul c) eqn:Ec; [apply is_nul_true in Ec; subst; cbn in Hc; lia|].
    destruct (Byte.eqb c x22) eqn:E1; [apply byte_eqb_eq in E1; congruence|].
    destruct (Byte.eqb c x5c) eqn:E2; [apply byte_eqb_eq in E2; congruence|].
    rewrite IH. f_equal. cbn [length]. lia.
  - cbn [jstr is_nul Byte.eqb]. assert (E : is_simple_escape e = true).
    { cbn in He. decompose [or] He; try contradiction; match goal with X : (_, _) = (_, _) |- _ => inversion X; reflexivity end. }
    change (is_nul x5c) with false. change (Byte.eqb x5c x22) with false. change (Byte.eqb x5c x5c) with true.
    cbn [andb]. rewrite E, IH. f_equal. cbn [length]. lia.
  - change (jstr 4 (h1 :: h2 :: h3 :: h4 :: t ++ x22 :: rest) (n + 2) = JFound (n + Z.of_nat (length (x5c :: x75 :: h1 :: h2 :: h3 :: h4 :: t))) rest).
    apply code_unit_hex in Hu as (A & B & C & D). rewrite jstr_hex by assumption. rewrite IH. f_equal. cbn [length]. lia.
  - change (jstr 4 (h1 :: h2 :: h3 :: h4 :: x5c :: x75 :: l1 :: l2 :: l3 :: l4 :: t ++ x22 :: rest) (n + 2)
      = JFound (n + Z.of_nat (length (x5c :: x75 :: h1 :: h2 :: h3 :: h4 :: x5c :: x75 :: l1 :: l2 :: l3 :: l4 :: t))) rest).
    apply code_unit_hex in Hu as (A & B & C & D). rewrite jstr_hex by assumption.
    change (jstr 4 (l1 :: l2 :: l3 :: l4 :: t ++ x22 :: rest) (n + 2 + 1 + 1 + 1 + 1 + 2)
      = JFound (n + Z.of_nat (length (x5c :: x75 :: h1 :: h2 :: h3 :: h4 :: x5c :: x75 :: l1 :: l2 :: l3 :: l4 :: t))) rest).
    apply code_unit_hex in Hv as (A' & B' & C' & D'). rewrite jstr_hex by assumption. rewrite IH. f_equal. cbn [length]. lia.
Qed.

Lemma jrun_string cap t d rest pos toks count : json_body t d -> room cap toks 1 ->
  jrun cap (quoted t ++ rest) pos toks count =
  jrun cap rest (pos + Z.of_nat (length (quoted t)))
       (padd cap toks [Tok JString (pos + 1) (pos + 1 + Z.of_nat (length t))]) (count + 1).
Proof.
  intros Ht Hr. unfold quoted. cbn [app]. rewrite <- app_assoc. cbn [app].
  unfold jrun at 1. rewrite jmain_step. change (is_nul x22) with false. change (opens x22) with false.
  change (closes x22) with false. change (Byte.eqb x22 x22) with true. cbv iota.
  rewrite (jstr_body t d Ht), push_room by exact Hr. rewrite Z.add_0_l.
  replace (pos + Z.of_nat (length (x22 :: t ++ [x22])))%Z with (pos + Z.of_nat (length t) + 2)%Z
    by (cbn [length]; rewrite app_length; cbn [length]; lia).
  unfold jrun. apply jmain_fuel; cbn [length]; rewrite ?app_length; cbn [length]; lia.
Qed.

(** ** Primitives *)
Definition prim_char (c : byte) : Prop := prim_end c = false /\ (32 <= b2n c < 127)%N.
Definition prim_start (c : byte) : Prop := prim_char c /\ opens c = false /\ Byte.eqb c x22 = false.
Definition delim (rest : bytes) : Prop :=
  match rest with [] => True | c :: _ => is_nul c = true \/ prim_end c = true end.

Lemma jprim_body t : Forall prim_char t -> forall rest n, delim rest ->
  jprim (t ++ rest) n = JFound (n + Z.of_nat (length t)) rest.
Proof.
  induction 1 as [|c t [Hc1 Hc2] _ IH]; intros rest n Hd.
  - cbn [app length]. rewrite Z.add_0_r. destruct rest as [|c r]; [reflexivity|]. cbn [jprim].
    destruct Hd as [Hd|Hd]; [rewrite Hd; reflexivity|]. rewrite Hd. destruct (is_nul c); reflexivity.
  - cbn [app jprim]. destruct (is_nul c) eqn:E; [apply is_nul_true in E; subst; cbn in Hc2; lia|].
    rewrite Hc1. destruct (_ || _) eqn:E2; [lia|]. rewrite IH by exact Hd. f_equal. cbn [length]. lia.
Qed.

Lemma jrun_prim cap c t rest pos toks count : prim_start c -> Forall prim_char t -> delim rest -> room cap toks 1 ->
  jrun cap ((c :: t) ++ rest) pos toks count =
  jrun cap rest (pos + Z.of_nat (length (c :: t)))
       (padd cap toks [Tok JPrimitive pos (pos + Z.of_nat (length (c :: t)))]) (count + 1).
Proof.
  intros ([H1 H2] & H3 & H4) Ht Hd Hr. unfold jrun. cbn [app]. rewrite jmain_step.
  assert (E1 : is_nul c = false) by (destruct c; (reflexivity || (cbn in H2; lia))).
  assert (E2 : closes c = false) by (destruct c; (reflexivity || discriminate)).
  assert (E3 : blank c = false) by (destruct c; (reflexivity || discriminate)).
  rewrite E1, H3, E2, H4, E3. change (c :: t ++ rest) with ((c :: t) ++ rest).
  rewrite jprim_body; [|constructor; [split; auto|exact Ht]|exact Hd].
  rewrite push_room by exact Hr. rewrite Z.add_0_l. apply jmain_fuel; rewrite ?app_length; cbn [length]; lia.
Qed.

Lemma digit_prim c : digit c -> prim_start c.
Proof. unfold digit. intros H. cbn in H. decompose [or] H; subst; try contradiction; vm_compute; intuition congruence. Qed.
Lemma digits_prim s : Forall digit s -> Forall prim_char s.
Proof. apply Forall_impl. intros c H. apply digit_prim in H. apply H. Qed.
Lemma number_prim t : json_number t -> exists c r, t = c :: r /\ prim_start c /\ (digit c \/ c = x2d) /\ Forall prim_char r.
Proof.
  intros [sg i f e Hs Hi Hf He].
  assert (Hf' : Forall prim_char f).
  { destruct Hf as [|s [_ Hs']]; [constructor|]. constructor; [vm_compute; intuition congruence|apply digits_prim; exact Hs']. }
  assert (He' : Forall prim_char e).
  { destruct He as [|c sg' s Hc Hsg [_ Hd]]; [constructor|].
    constructor; [cbn in Hc; decompose [or] Hc; subst; try contradiction; vm_compute; intuition congruence|].
    apply Forall_app. split; [|apply digits_prim; exact Hd].
    cbn in Hsg. decompose [or] Hsg; subst; try contradiction; repeat constructor; vm_compute; intuition congruence. }
  assert (Hi' : exists c r, i = c :: r /\ digit c /\ Forall prim_char r).
  { destruct Hi as [|c s Hc _ Hd]; [exists x30, []; split; [reflexivity|]; split; [vm_compute; auto|constructor]|].
    exists c, s. split; [reflexivity|]. split; [exact Hc|apply digits_prim; exact Hd]. }
  destruct Hi' as (c & r & -> & Hc & Hr).
  cbn in Hs. destruct Hs as [<-|[<-|[]]].
  - exists c, (r ++ f ++ e). split; [reflexivity|]. split; [apply digit_prim; exact Hc|]. split; [auto|].
    rewrite !Forall_app. auto.
  - exists x2d, ((c :: r) ++ f ++ e). split; [reflexivity|]. split; [vm_compute; intuition congruence|].
    split; [auto|]. rewrite !Forall_app. split; [constructor; [apply (digit_prim c Hc)|exact Hr]|auto].
Qed.

(** ** JSON values *)
Definition container (k : kind) : bool := match k with KArray | KObject => true | _ => false end.
Definition jtype_of (k : kind) : jtype :=
  match k with KString => JString | KArray => JArray | KObject => JObject | _ => JPrimitive end.
(** The token of a value whose text has [n] bytes and starts at [pos]. *)
Definition vtok (k : kind) (pos : Z) (n : nat) : tok :=
  match k with
  | KString => Tok JString (pos + 1) (pos + Z.of_nat n - 1)
  | _ => Tok (jtype_of k) pos (pos + Z.of_nat n)
  end.
(** The text a token of a value covers: for strings, what is between the quotes. *)
Definition vtext (k : kind) (t : bytes) : bytes :=
  match k with KString => removelast (tl t) | _ => t end.
Lemma vtext_quoted t : vtext KString (quoted t) = t.
Proof. unfold vtext, quoted. cbn [tl]. apply removelast_last. Qed.

Lemma span_app pre x post ty n : n = Z.of_nat (length pre) ->
  span (pre ++ x ++ post) (Tok ty n (n + Z.of_nat (length x))) = x.
Proof.
  intros ->. unfold span. cbn [t_start t_end]. rewrite Nat2Z.id, skipn_app_exact.
  replace (Z.to_nat _) with (length x) by lia. apply firstn_app_exact.
Qed.

Lemma span_vtok pre k t post pos : json_value k t -> pos = Z.of_nat (length pre) ->
  span (pre ++ t ++ post) (vtok k pos (length t)) = vtext k t.
Proof.
  intros Hv ->. destruct Hv; try (apply span_app; reflexivity).
  rewrite vtext_quoted. unfold quoted, vtok. cbn [length]. rewrite app_length. cbn [length].
  replace (pre ++ (x22 :: t ++ [x22]) ++ post) with ((pre ++ [x22]) ++ t ++ [x22] ++ post)
    by (cbn [app]; rewrite <- !app_assoc; reflexivity).
  replace (Z.of_nat (length pre) + Z.of_nat (S (length t + 1)) - 1)%Z
    with (Z.of_nat (length pre) + 1 + Z.of_nat (length t))%Z by lia.
  apply span_app. rewrite app_length. cbn [length]. lia.
Qed.

(** The tokens of an object's members in order. *)
Inductive laid (mem : bytes) : list member -> list tok -> Prop :=
| laid_nil : laid mem [] []
| laid_cons m ms kt vt inner tl :
    t_type kt = JString -> span mem kt = m_key m ->
    t_type vt = jtype_of (m_kind m) -> span mem vt = vtext (m_kind m) (m_value m) ->
    Forall (fun x => (t_end x <= t_end vt)%Z) inner ->
    (container (m_kind m) = false -> inner = []) ->
    Forall (fun x => (t_end vt < t_end x)%Z) tl ->
    laid mem ms tl -> laid mem (m :: ms) (kt :: vt :: inner ++ tl).

Definition within (a b : Z) (x : tok) : Prop := (a < t_end x <= b)%Z.
Lemma within_closed a b l : (0 <= a)%Z -> Forall (within a b) l -> Forall closed l.
Proof.
  intros H. apply Forall_impl. intros x Hx. unfold within, closed, tok_open in *.
  destruct (Z.eqb_spec (t_end x) (-1)); [lia|apply andb_false_r].
Qed.
Lemma within_le a b a' b' l : Forall (within a b) l -> (a' <= a)%Z -> (b <= b')%Z -> Forall (within a' b') l.
Proof. intros H A B. eapply Forall_impl; [|exact H]. intros x. unfold within. lia. Qed.

(** Reading the text [t] at [pos] adds exactly the tokens [tl]. *)
Definition adds_tokens (t : bytes) (pos : Z) (tl : list tok) : Prop :=
  forall cap rest toks count, delim rest -> room cap toks (length tl) ->
    jrun cap (t ++ rest) pos toks count =
    jrun cap rest (pos + Z.of_nat (length t)) (padd cap toks tl) (count + Z.of_nat (length tl)).

Lemma delim_ws w rest : json_ws w -> delim rest -> delim (w ++ rest).
Proof.
  intros [|c w' Hc _]; [auto|]. intros _. cbn [app delim]. right.
  cbn in Hc. decompose [or] Hc; subst; try reflexivity; contradiction.
Qed.
Lemma delim_end c t rest : prim_end c = true -> delim ((c :: t) ++ rest).
Proof. intros H. right. exact H. Qed.

Definition tokenized_value (k : kind) (t : bytes) : Prop := forall pos, (0 <= pos)%Z ->
  exists inner, Forall (within pos (pos + Z.of_nat (length t))) inner /\ (container k = false -> inner = [])
    /\ adds_tokens t pos (vtok k pos (length t) :: inner).
Definition tokenized_elements (t : bytes) : Prop := forall pos, (0 <= pos)%Z ->
  exists tl, Forall (within pos (pos + Z.of_nat (length t))) tl /\ adds_tokens t pos tl.
Definition tokenized_members (ms : list member) (t : bytes) : Prop := forall pos, (0 <= pos)%Z ->
  exists tl, Forall (within pos (pos + Z.of_nat (length t))) tl /\ adds_tokens t pos tl
    /\ (forall pre post, Z.of_nat (length pre) = pos -> laid (pre ++ t ++ post) ms tl).

Lemma vtok_within k t pos : json_value k t -> within pos (pos + Z.of_nat (length t)) (vtok k pos (length t)).
Proof.
  intros H. assert (L : (0 < length t)%nat /\ (k = KString -> (2 <= length t)%nat)).
  { destruct H; try (split; [|discriminate]); try (cbn; rewrite ?app_length; cbn; lia).
    apply number_prim in H as (c & r & -> & _). cbn. lia. }
  destruct L as [L1 L2]. unfold within. destruct k; cbn [vtok t_end jtype_of]; try lia.
Qed.

Lemma adds_container ty o c body pos tl : (0 <= pos)%Z ->
  (ty = JObject /\ o = x7b /\ c = x7d \/ ty = JArray /\ o = x5b /\ c = x5d) ->
  adds_tokens body (pos + 1) tl -> Forall (within (pos + 1) (pos + 1 + Z.of_nat (length body))) tl ->
  adds_tokens ([o] ++ body ++ [c]) pos (Tok ty pos (pos + Z.of_nat (length ([o] ++ body ++ [c]))) :: tl).
Proof.
  intros Hp Hk Hb Hw cap rest toks count D R. cbn [app]. rewrite <- app_assoc. cbn [app length] in *.
  assert (E : opens o = true /\ closes c = true /\ prim_end c = true /\ (if Byte.eqb o x7b then JObject else JArray) = ty
    /\ (if Byte.eqb c x7d then JObject else JArray) = ty).
  { decompose [and or] Hk; subst; repeat split; reflexivity. }
  destruct E as (E1 & E2 & E3 & E4 & E5).
  rewrite jrun_open; [|exact E1|eapply room_le; [exact R|lia]]. rewrite E4.
  rewrite Hb; [|right; exact E3|apply room_padd; eapply room_le; [exact R|cbn [length]; lia]].
  rewrite padd_app. cbn [app]. rewrite <- E5.
  rewrite jrun_close; [|exact E2|exact Hp|eapply within_closed; [|exact Hw]; lia].
  rewrite E5, app_length. cbn [length].
  replace (pos + 1 + Z.of_nat (length body) + 1)%Z with (pos + Z.of_nat (S (length body + 1)))%Z by lia.
  f_equal. lia.
Qed.

Lemma prim_value k t c r pos : t = c :: r -> prim_start c -> Forall prim_char r -> jtype_of k = JPrimitive ->
  adds_tokens t pos [vtok k pos (length t)].
Proof.
  intros -> Hc Hr Hk cap rest toks count D R. rewrite jrun_prim by assumption.
  destruct k; try discriminate Hk; reflexivity.
Qed.

Lemma delim_wsc w c rest : json_ws w -> prim_end c = true -> delim (w ++ c :: rest).
Proof. intros H E. apply delim_ws; [exact H|]. right. exact E. Qed.

Lemma adds_ws w pos : json_ws w -> adds_tokens w pos [].
Proof.
  intros Hw cap rest toks count _ _. rewrite jrun_ws by exact Hw. rewrite padd_nil. f_equal. cbn [length]. lia.
Qed.

Lemma len_lit_app s (t : bytes) : length (lit s ++ t) = (length (lit s) + length t)%nat.
Proof. apply app_length. Qed.

Ltac lits := repeat match goal with
  | |- context [length (lit ?s)] => let v := eval vm_compute in (length (lit s)) in change (length (lit s)) with v
  | H : context [length (lit ?s)] |- _ => let v := eval vm_compute in (length (lit s)) in change (length (lit s)) with v in H
  end.
Ltac lens := rewrite ?app_length in *; cbn [length] in *; unfold quoted in *; cbn [length] in *; rewrite ?app_length in *; cbn [length] in *; lits.

Lemma json_tokenized :
  (forall k t, json_value k t -> tokenized_value k t)
  /\ (forall t, json_elements t -> tokenized_elements t)
  /\ (forall ms t, json_members ms t -> tokenized_members ms t).
Proof.
  assert (HV : forall k t, json_value k t -> json_value k t /\ tokenized_value k t ->
    tokenized_value k t) by tauto.
  enough (G : (forall k t, json_value k t -> json_value k t /\ tokenized_value k t)
    /\ (forall t, json_elements t -> tokenized_elements t)
    /\ (forall ms t, json_members ms t -> tokenized_members ms t)).
  { destruct G as (G1 & G2 & G3). split; [intros k t H; apply G1; exact H|auto]. }
  clear HV. apply json_mutind.
  - intros t d H. split; [econstructor; eauto|]. intros pos Hp. exists []. split; [constructor|]. split; [auto|].
    intros cap rest toks count D R. rewrite (jrun_string cap t d) by assumption. f_equal. cbn [vtok]. do 2 f_equal. f_equal. lens. lia.
  - intros t H. split; [constructor; exact H|]. intros pos Hp. exists []. split; [constructor|]. split; [auto|].
    destruct (number_prim t H) as (c & r & E & H1 & _ & H2). eapply prim_value; eauto.
  - split; [constructor|]. intros pos Hp. exists []. split; [constructor|]. split; [auto|].
    eapply prim_value; [reflexivity| | |reflexivity]; [vm_compute; intuition congruence|].
    repeat constructor; vm_compute; intuition congruence.
  - split; [constructor|]. intros pos Hp. exists []. split; [constructor|]. split; [auto|].
    eapply prim_value; [reflexivity| | |reflexivity]; [vm_compute; intuition congruence|].
    repeat constructor; vm_compute; intuition congruence.
  - split; [constructor|]. intros pos Hp. exists []. split; [constructor|]. split; [auto|].
    eapply prim_value; [reflexivity| | |reflexivity]; [vm_compute; intuition congruence|].
    repeat constructor; vm_compute; intuition congruence.
  - intros ws H. split; [constructor; exact H|]. intros pos Hp. exists []. split; [constructor|]. split; [auto|].
    apply (adds_container JArray x5b x5d ws pos []); auto using adds_ws.
  - intros t H IH. split; [econstructor; exact H|]. intros pos Hp. destruct (IH (pos + 1)%Z) as (tl & Hw & Ha); [lia|].
    exists tl. split; [eapply within_le; [exact Hw|lia|lens; lia]|]. split; [discriminate|].
    apply (adds_container JArray x5b x5d t pos tl); auto.
  - intros ws H. split; [constructor; exact H|]. intros pos Hp. exists []. split; [constructor|]. split; [auto|].
    apply (adds_container JObject x7b x7d ws pos []); auto using adds_ws.
  - intros ms t H IH. split; [econstructor; exact H|]. intros pos Hp. destruct (IH (pos + 1)%Z) as (tl & Hw & Ha & _); [lia|].
    exists tl. split; [eapply within_le; [exact Hw|lia|lens; lia]|]. split; [discriminate|].
    apply (adds_container JObject x7b x7d t pos tl); auto.
  - intros w1 k t w2 H1 _ [Hv IH] H2 pos Hp. destruct (IH (pos + Z.of_nat (length w1))%Z) as (inner & Hw & _ & Ha); [lia|].
    eexists. split; [|intros cap rest toks count D R].
    2:{ rewrite <- !app_assoc, jrun_ws by exact H1. rewrite Ha; [|apply delim_ws; assumption|exact R].
        rewrite jrun_ws by exact H2. f_equal. lens. lia. }
    constructor; [|eapply within_le; [exact Hw|lia|lens; lia]].
    pose proof (vtok_within k t (pos + Z.of_nat (length w1)) Hv) as W. unfold within in *. lens. lia.
  - intros w1 k t w2 r H1 _ [Hv IH] H2 _ IHr pos Hp. destruct (IH (pos + Z.of_nat (length w1))%Z) as (inner & Hw & _ & Ha); [lia|].
    destruct (IHr (pos + Z.of_nat (length (w1 ++ t ++ w2 ++ lit ",")))%Z) as (tl & Hw' & Ha'); [lia|].
    exists ((vtok k (pos + Z.of_nat (length w1)) (length t) :: inner) ++ tl). split; [|intros cap rest toks count D R].
    2:{ rewrite app_length in R. rewrite <- !app_assoc, jrun_ws by exact H1. rewrite Ha; [|apply delim_wsc; auto|eapply room_le; [exact R|lia]].
        rewrite jrun_ws by exact H2. change (lit "," ++ r ++ rest) with (x2c :: r ++ rest). rewrite jrun_blank by reflexivity.
        replace (_ + 1)%Z with (pos + Z.of_nat (length (w1 ++ t ++ w2 ++ lit ",")))%Z by (lens; change (length (lit ",")) with 1%nat; lia).
        rewrite Ha' by (auto using room_padd). rewrite padd_app, app_length.
        f_equal; lens; change (length (lit ",")) with 1%nat; lia. }
    apply Forall_app. split.
    + constructor; [|eapply within_le; [exact Hw|lia|lens; lia]].
      pose proof (vtok_within k t (pos + Z.of_nat (length w1)) Hv) as W. unfold within in *. lens. lia.
    + eapply within_le; [exact Hw'|lia|lens; lia].
  - intros w1 kb kd w2 w3 k t w4 H1 Hb H2 H3 _ [Hv IH] H4 pos Hp.
    set (kp := (pos + Z.of_nat (length w1))%Z).
    set (vp := (pos + Z.of_nat (length (w1 ++ quoted kb ++ w2 ++ lit ":" ++ w3)))%Z).
    destruct (IH vp) as (inner & Hw & Hc & Ha); [subst vp; lia|].
    exists (Tok JString (kp + 1) (kp + 1 + Z.of_nat (length kb)) :: vtok k vp (length t) :: inner).
    pose proof (vtok_within k t vp Hv) as W.
    split; [|split].
    + repeat apply Forall_cons.
      * unfold within, kp. cbn [t_end]. lens. lia.
      * unfold within, vp in *. lens. lia.
      * eapply within_le; [exact Hw|unfold vp; lens; lia|unfold vp; lens; lia].
    + intros cap rest toks count D R. rewrite <- !app_assoc, jrun_ws by exact H1.
      rewrite (jrun_string cap kb kd); [|exact Hb|eapply room_le; [exact R|cbn [length]; lia]].
      rewrite jrun_ws by exact H2. change (lit ":" ++ w3 ++ t ++ w4 ++ rest) with (x3a :: w3 ++ t ++ w4 ++ rest).
      rewrite jrun_blank by reflexivity. rewrite jrun_ws by exact H3.
      match goal with |- jrun _ _ ?P _ _ = _ => replace P with vp by (unfold vp; lens; change (length (lit ":")) with 1%nat; lia) end.
      rewrite Ha; [|apply delim_ws; assumption|apply room_padd; exact R]. rewrite jrun_ws by exact H4. rewrite padd_app.
      cbn [app]. f_equal; unfold vp; lens; change (length (lit ":")) with 1%nat; lia.
    + intros pre post Hpre. rewrite <- (app_nil_r inner). constructor; auto.
      * change (m_key (Member kb k t)) with kb. unfold quoted.
        replace (pre ++ (w1 ++ (x22 :: kb ++ [x22]) ++ w2 ++ lit ":" ++ w3 ++ t ++ w4) ++ post)
          with ((pre ++ w1 ++ [x22]) ++ kb ++ ([x22] ++ w2 ++ lit ":" ++ w3 ++ t ++ w4 ++ post))
          by (repeat (rewrite <- app_assoc || cbn [app]); reflexivity).
        apply span_app. unfold kp. lens. lia.
      * cbn [m_kind]. destruct k; reflexivity.
      * cbn [m_kind m_value].
        replace (pre ++ (w1 ++ quoted kb ++ w2 ++ lit ":" ++ w3 ++ t ++ w4) ++ post)
          with ((pre ++ w1 ++ quoted kb ++ w2 ++ lit ":" ++ w3) ++ t ++ (w4 ++ post))
          by (repeat rewrite <- app_assoc; reflexivity).
        apply span_vtok; [exact Hv|]. unfold vp. rewrite (app_length pre). lia.
      * cbn [m_kind] in *. destruct (container k) eqn:Ek; [|rewrite Hc by reflexivity; constructor].
        eapply Forall_impl; [|exact Hw]. intros x. unfold within. destruct k; try discriminate; cbn [vtok t_end]; lia.
      * constructor.
  - intros w1 kb kd w2 w3 k t w4 ms r H1 Hb H2 H3 _ [Hv IH] H4 _ IHr pos Hp.
    set (kp := (pos + Z.of_nat (length w1))%Z).
    set (vp := (pos + Z.of_nat (length (w1 ++ quoted kb ++ w2 ++ lit ":" ++ w3)))%Z).
    destruct (IH vp) as (inner & Hw & Hc & Ha); [subst vp; lia|].
    set (rp := (pos + Z.of_nat (length (w1 ++ quoted kb ++ w2 ++ lit ":" ++ w3 ++ t ++ w4 ++ lit ",")))%Z).
    destruct (IHr rp) as (tl & Hw' & Ha' & Hl'); [subst rp; lia|].
    exists (Tok JString (kp + 1) (kp + 1 + Z.of_nat (length kb)) :: vtok k vp (length t) :: inner ++ tl).
    pose proof (vtok_within k t vp Hv) as W.
    split; [|split].
    + repeat apply Forall_cons; [| |apply Forall_app; split].
      * unfold within, kp. cbn [t_end]. lens. lia.
      * unfold within, vp in *. lens. lia.
      * eapply within_le; [exact Hw|unfold vp; lens; lia|unfold vp; lens; lia].
      * eapply within_le; [exact Hw'|unfold rp; lens; lia|unfold rp; lens; lia].
    + intros cap rest toks count D R. rewrite <- !app_assoc, jrun_ws by exact H1.
      rewrite (jrun_string cap kb kd); [|exact Hb|eapply room_le; [exact R|cbn [length]; lia]].
      rewrite jrun_ws by exact H2. change (lit ":" ++ w3 ++ t ++ w4 ++ lit "," ++ r ++ rest) with (x3a :: w3 ++ t ++ w4 ++ lit "," ++ r ++ rest).
      rewrite jrun_blank by reflexivity. rewrite jrun_ws by exact H3.
      match goal with |- jrun _ _ ?P _ _ = _ => replace P with vp by (unfold vp; lens; change (length (lit ":")) with 1%nat; lia) end.
      cbn [length] in R. rewrite app_length in R.
      rewrite Ha; [|apply delim_wsc; auto|apply room_padd; eapply room_le; [exact R|cbn [length]; lia]].
      rewrite jrun_ws by exact H4. rewrite padd_app.
      change (lit "," ++ r ++ rest) with (x2c :: r ++ rest). rewrite jrun_blank by reflexivity.
      match goal with |- jrun _ _ ?P _ _ = _ => replace P with rp
        by (unfold rp, vp; lens; change (length (lit ":")) with 1%nat; change (length (lit ",")) with 1%nat; lia) end.
      rewrite Ha'; [|exact D|apply room_padd; eapply room_le; [exact R|cbn [app length]; lia]]. rewrite padd_app.
      cbn [app]. f_equal; unfold rp; lens; change (length (lit ":")) with 1%nat; change (length (lit ",")) with 1%nat; lia.
    + intros pre post Hpre. constructor; auto.
      * change (m_key (Member kb k t)) with kb. unfold quoted.
        replace (pre ++ (w1 ++ (x22 :: kb ++ [x22]) ++ w2 ++ lit ":" ++ w3 ++ t ++ w4 ++ lit "," ++ r) ++ post)
          with ((pre ++ w1 ++ [x22]) ++ kb ++ ([x22] ++ w2 ++ lit ":" ++ w3 ++ t ++ w4 ++ lit "," ++ r ++ post))
          by (repeat (rewrite <- app_assoc || cbn [app]); reflexivity).
        apply span_app. unfold kp. lens. lia.
      * cbn [m_kind]. destruct k; reflexivity.
      * cbn [m_kind m_value].
        replace (pre ++ (w1 ++ quoted kb ++ w2 ++ lit ":" ++ w3 ++ t ++ w4 ++ lit "," ++ r) ++ post)
          with ((pre ++ w1 ++ quoted kb ++ w2 ++ lit ":" ++ w3) ++ t ++ (w4 ++ lit "," ++ r ++ post))
          by (repeat rewrite <- app_assoc; reflexivity).
        apply span_vtok; [exact Hv|]. unfold vp. rewrite (app_length pre). lia.
      * cbn [m_kind] in *. destruct (container k) eqn:Ek; [|rewrite Hc by reflexivity; constructor].
        eapply Forall_impl; [|exact Hw]. intros x. unfold within. destruct k; try discriminate; cbn [vtok t_end]; lia.
      * eapply Forall_impl; [|exact Hw']. intros x. unfold within in *. unfold rp, vp in *. lens. lia.
      * replace (pre ++ (w1 ++ quoted kb ++ w2 ++ lit ":" ++ w3 ++ t ++ w4 ++ lit "," ++ r) ++ post)
          with ((pre ++ w1 ++ quoted kb ++ w2 ++ lit ":" ++ w3 ++ t ++ w4 ++ lit ",") ++ r ++ post)
          by (repeat rewrite <- app_assoc; reflexivity).
        apply Hl'. unfold rp. rewrite (app_length pre). lia.
Qed.

(** ** JSON objects *)
Lemma json_object_tokenized ms t : json_object ms t -> forall pos, (0 <= pos)%Z ->
  exists tl, Forall (within pos (pos + Z.of_nat (length t))) tl
    /\ adds_tokens t pos (vtok KObject pos (length t) :: tl)
    /\ (forall pre post, Z.of_nat (length pre) = pos -> laid (pre ++ t ++ post) ms tl).
Proof.
  destruct json_tokenized as (_ & _ & HM). intros [ws Hw|ms' t' Hm] pos Hp.
  - exists []. split; [constructor|]. split; [|constructor].
    apply (adds_container JObject x7b x7d ws pos []); auto using adds_ws.
  - destruct (HM _ _ Hm (pos + 1)%Z) as (tl & H1 & H2 & H3); [lia|].
    exists tl. split; [eapply within_le; [exact H1|lia|lens; lia]|]. split.
    + apply (adds_container JObject x7b x7d t' pos tl); auto.
    + intros pre post Hpre.
      replace (pre ++ (lit "{" ++ t' ++ lit "}") ++ post) with ((pre ++ lit "{") ++ t' ++ (lit "}" ++ post))
        by (repeat rewrite <- app_assoc; reflexivity).
      apply H3. lens. lia.
Qed.

Lemma jmain_rest cap rest pos toks count : rest = [] \/ (exists r, rest = x00 :: r) ->
  jrun cap rest pos toks count = (count, toks).
Proof. intros [->|(r & ->)]; reflexivity. Qed.

(** Both passes of the tokenizer over a JSON object with surrounding whitespace. *)
Lemma jsmn_object w1 ms t w2 : json_ws w1 -> json_object ms t -> json_ws w2 ->
  exists t0 tl, t_type t0 = JObject
    /\ jsmn_parse (w1 ++ t ++ w2) None = (Z.of_nat (S (length tl)), [])
    /\ jsmn_parse (w1 ++ t ++ w2) (Some (Z.of_nat (S (length tl)))) = (Z.of_nat (S (length tl)), t0 :: tl)
    /\ forall post, laid ((w1 ++ t ++ w2) ++ post) ms tl.
Proof.
  intros H1 Ho H2. destruct (json_object_tokenized ms t Ho (Z.of_nat (length w1))) as (tl & Hw & Ha & Hl); [lia|].
  exists (vtok KObject (Z.of_nat (length w1)) (length t)), tl. split; [reflexivity|].
  assert (R : forall cap, room cap [] (length (vtok KObject (Z.of_nat (length w1)) (length t) :: tl)) ->
    jmain (S (length (w1 ++ t ++ w2))) cap (w1 ++ t ++ w2) 0 [] 0
    = (Z.of_nat (S (length tl)), padd cap [] (vtok KObject (Z.of_nat (length w1)) (length t) :: tl))).
  { intros cap Hr. change (jrun cap (w1 ++ t ++ w2) 0 [] 0 = (Z.of_nat (S (length tl)),
      padd cap [] (vtok KObject (Z.of_nat (length w1)) (length t) :: tl))).
    rewrite jrun_ws by exact H1. rewrite Z.add_0_l.
    rewrite Ha; [|rewrite <- (app_nil_r w2); apply delim_ws; [exact H2|exact I]|exact Hr].
    rewrite <- (app_nil_r w2), jrun_ws by exact H2. rewrite jmain_rest by auto.
    f_equal. }
  split; [|split].
  - unfold jsmn_parse. rewrite R by exact I. destruct (Z.ltb_spec (Z.of_nat (S (length tl))) 0); [lia|]. reflexivity.
  - unfold jsmn_parse. rewrite R by (cbn [room length]; lia). destruct (Z.ltb_spec (Z.of_nat (S (length tl))) 0); [lia|].
    cbn [padd]. rewrite app_nil_r.
    assert (E : existsb tok_open (rev (vtok KObject (Z.of_nat (length w1)) (length t) :: tl)) = false).
    { apply not_true_iff_false. intros C. apply existsb_exists in C as (x & Hx & Hc). apply in_rev in Hx.
      destruct Hx as [<-|Hx].
      - unfold tok_open in Hc. cbn [vtok t_start t_end] in Hc. lia.
      - rewrite Forall_forall in Hw. specialize (Hw x Hx). unfold within, tok_open in *. lia. }
    rewrite E, rev_involutive. reflexivity.
  - intros post. replace ((w1 ++ t ++ w2) ++ post) with (w1 ++ t ++ (w2 ++ post)) by (repeat rewrite <- app_assoc; reflexivity).
    apply Hl. reflexivity.
Qed.

(** ** Claims read from the tokens of an object *)
(** What checknum has to answer for the numbers among the members. *)
Definition num_known (e : env) (m : member) : Prop :=
  m_kind m = KNumber -> e_checknum e (m_value m) = 1%Z \/ e_checknum e (m_value m) = 2%Z.
Definition mtype (e : env) (m : member) : Z :=
  match m_kind m with
  | KString => L8W8JWT_CLAIM_TYPE_STRING
  | KNumber => if (e_checknum e (m_value m) =? 1)%Z then L8W8JWT_CLAIM_TYPE_INTEGER else L8W8JWT_CLAIM_TYPE_NUMBER
  | KTrue | KFalse => L8W8JWT_CLAIM_TYPE_BOOLEAN
  | KNull => L8W8JWT_CLAIM_TYPE_NULL
  | KArray => L8W8JWT_CLAIM_TYPE_ARRAY
  | KObject => L8W8JWT_CLAIM_TYPE_OBJECT
  end.
Definition entry_of (e : env) (m : member) : entry := (mtype e m, m_key m, vtext (m_kind m) (m_value m)).
Definition member_ok (m : member) : Prop := (exists d, json_body (m_key m) d) /\ json_value (m_kind m) (m_value m).

Lemma members_ok ms t : json_members ms t -> Forall member_ok ms.
Proof. induction 1; repeat constructor; auto; cbn [m_key]; eauto. Qed.
Lemma object_ok ms t : json_object ms t -> Forall member_ok ms.
Proof. intros [|]; [constructor|eapply members_ok; eauto]. Qed.

Lemma number_head c : digit c \/ c = x2d ->
  Byte.eqb c x74 = false /\ Byte.eqb c x66 = false /\ Byte.eqb c x6e = false.
Proof. intros [H| ->]; [|auto]. cbn in H. decompose [or] H; subst; try contradiction; auto. Qed.
Lemma strncmp_head c a m l n : Byte.eqb c a = false -> n <> 0%N -> exists z, strncmp (c :: m) (a :: l) n = OK z /\ z <> 0%Z.
Proof.
  intros H Hn. cbn [strncmp]. destruct (N.eqb_spec n 0); [contradiction|]. rewrite H. eexists. split; [reflexivity|].
  apply byte_eqb_neq in H. intros E. apply H. unfold b2z in E. assert (E' : b2n c = b2n a) by lia.
  apply (f_equal n2b) in E'. rewrite !n2b_b2n in E'. exact E'.
Qed.

Lemma span_length mem n t : (n <= length mem)%nat -> tok_in n t -> length (span mem t) = Z.to_nat (t_end t - t_start t).
Proof. intros Hn (_ & H1 & H2 & _). unfold span. rewrite firstn_length, skipn_length. lia. Qed.

Section Read.
Variables (e : env) (mem : bytes) (n : nat) (toks : list tok) (cap : Z) (junk : Z -> tok).
Let a := TokArr toks cap junk.
Let r := Z.of_nat (length toks).
Hypothesis Ht : Forall (tok_in n) toks.
Hypothesis Hn : (n <= length mem)%nat.
Hypothesis Hcap : (r <= cap)%Z.

Lemma tok_at_app pre x rest : toks = pre ++ x :: rest -> tok_at a (Z.of_nat (length pre)) = OK x.
Proof.
  intros E. unfold tok_at, a. cbn [ta_cap ta_toks ta_junk].
  assert (L : (Z.of_nat (length pre) < r)%Z) by (unfold r; rewrite E, app_length; cbn [length]; lia).
  destruct ((_ <? 0) || (cap <=? _))%Z eqn:Eb; [lia|]. rewrite Nat2Z.id, E. f_equal.
  rewrite app_nth2 by lia. rewrite Nat.sub_diag. reflexivity.
Qed.

Lemma skip_inner inner : forall pre rest fuel vend, toks = pre ++ inner ++ rest -> pre <> [] ->
  Forall (fun x => (t_end x <= vend)%Z) inner -> (length inner + 2 <= fuel)%nat ->
  Forall (fun x => (vend < t_end x)%Z) rest -> (rest = [] -> (r + 2 <= cap)%Z) ->
  exists i, skip_nested fuel a r vend (Z.of_nat (length pre) - 1) = OK i
    /\ (Z.of_nat (length (pre ++ inner)) <= i + 1)%Z
    /\ (rest <> [] -> i + 1 = Z.of_nat (length (pre ++ inner)))%Z.
Proof.
  induction inner as [|x inner IH]; intros pre rest fuel vend E Hp Hi Hf Hrest Hc.
  - cbn [app length] in *. destruct fuel as [|f]; [lia|]. cbn [skip_nested]. rewrite app_nil_r.
    replace (Z.of_nat (length pre) - 1 + 1)%Z with (Z.of_nat (length pre)) by lia.
    destruct rest as [|y rest].
    + specialize (Hc eq_refl). rewrite app_nil_r in E.
      assert (Er : r = Z.of_nat (length pre)) by (unfold r; rewrite E; reflexivity).
      unfold tok_at at 1. unfold a at 1. cbn [ta_cap]. destruct ((_ <? 0) || (cap <=? _))%Z eqn:Eb; [lia|]. cbn [ubind].
      destruct (_ && _) eqn:Eb2.
      * destruct f as [|f]; [lia|]. cbn [skip_nested]. unfold tok_at, a. cbn [ta_cap ta_toks ta_junk].
        destruct (((_ <? 0) || (cap <=? Z.of_nat (length pre) + 1))%Z) eqn:Eb3; [lia|]. cbn [ubind].
        replace (Z.of_nat (length pre) <? r)%Z with false by lia. rewrite andb_false_r.
        eexists. split; [reflexivity|]. split; [lia|congruence].
      * eexists. split; [reflexivity|]. split; [lia|congruence].
    + rewrite (tok_at_app pre y rest E). cbn [ubind]. pose proof (Forall_inv Hrest) as Hy. cbv beta in Hy.
      destruct (Z.leb_spec (t_end y) vend); [lia|]. cbn [andb]. eexists. split; [reflexivity|]. split; [lia|intros _; lia].
  - destruct fuel as [|f]; [lia|]. cbn [skip_nested]. cbn [app length] in *.
    replace (Z.of_nat (length pre) - 1 + 1)%Z with (Z.of_nat (length pre)) by lia.
    rewrite (tok_at_app pre x (inner ++ rest) E). cbn [ubind]. pose proof (Forall_inv Hi) as Hx. pose proof (Forall_inv_tail Hi) as Hi'. cbv beta in Hx.
    assert (L : (Z.of_nat (length pre) < r)%Z) by (unfold r; rewrite E, app_length; cbn [length]; lia).
    destruct (Z.leb_spec (t_end x) vend); [|lia]. destruct (Z.ltb_spec (Z.of_nat (length pre) - 1) r); [|lia]. cbn [andb].
    destruct (IH (pre ++ [x]) rest f vend) as (i & E1 & E2 & E3); [rewrite <- app_assoc; exact E|destruct pre; discriminate|exact Hi'|lia|exact Hrest|exact Hc|].
    exists i. rewrite <- app_assoc in E2, E3. cbn [app] in E2, E3. split; [|auto].
    rewrite <- E1. f_equal. rewrite app_length. cbn [length]. lia.
Qed.

Lemma claim_type_laid m i vt : member_ok m -> num_known e m -> tok_in n vt ->
  t_type vt = jtype_of (m_kind m) -> span mem vt = vtext (m_kind m) (m_value m) -> container (m_kind m) = false ->
  claim_type e mem a r i vt = OK (Some (mtype e m, i)).
Proof.
  intros [_ Hv] Hk Hin Hty Hsp Hc. pose proof (span_length mem n vt Hn Hin) as L. destruct Hin as (_ & V1 & V2 & _).
  unfold claim_type, mtype. rewrite Hty.
  destruct m as [key k v]. cbn [m_kind m_value m_key] in *. unfold num_known in Hk. cbn [m_kind m_value] in Hk.
  destruct k; try discriminate Hc; cbn [jtype_of]; [reflexivity| | | |]; cbn [vtext] in Hsp;
    unfold at_off; (destruct ((0 <=? t_start vt) && (t_start vt <=? Z.of_nat (length mem)))%Z eqn:E1; [|lia]); cbn [ubind];
    rewrite Hsp in L; unfold span in Hsp; rewrite <- L in Hsp;
    assert (Em : exists m', skipn (Z.to_nat (t_start vt)) mem = v ++ m')
      by (exists (skipn (length v) (skipn (Z.to_nat (t_start vt)) mem)); rewrite <- Hsp at 1; symmetry; apply firstn_skipn);
    destruct Em as (m' & ->); assert (Ev : (t_end vt - t_start vt = Z.of_nat (length v))%Z) by lia; rewrite Ev; clear Hsp.
  - assert (Hn' : json_number v) by (inversion Hv; assumption).
    destruct (number_prim v Hn') as (c & v' & -> & _ & Hh & _). cbn [app].
    destruct (number_head c Hh) as (N1 & N2 & N3).
    destruct (strncmp_head c x74 (v' ++ m') (tl (clit "true")) 4 N1 ltac:(discriminate)) as (z1 & S1 & Z1).
    destruct (strncmp_head c x66 (v' ++ m') (tl (clit "false")) 5 N2 ltac:(discriminate)) as (z2 & S2 & Z2).
    destruct (strncmp_head c x6e (v' ++ m') (tl (clit "null")) 4 N3 ltac:(discriminate)) as (z3 & S3 & Z3).
    change (x74 :: tl (clit "true")) with (clit "true") in S1. change (x66 :: tl (clit "false")) with (clit "false") in S2.
    change (x6e :: tl (clit "null")) with (clit "null") in S3. rewrite S1, S2, S3. cbn [ubind].
    destruct (Z.eqb_spec z1 0); [contradiction|]. destruct (Z.eqb_spec z2 0); [contradiction|]. destruct (Z.eqb_spec z3 0); [contradiction|].
    assert (B1 : (if (Z.of_nat (length (c :: v')) <=? 5)%Z then OK false else OK false) = OK false) by (destruct (_ <=? 5)%Z; reflexivity).
    rewrite B1. cbn [ubind].
    assert (B2 : (if (Z.of_nat (length (c :: v')) =? 4)%Z then OK false else OK false) = OK false) by (destruct (_ =? 4)%Z; reflexivity).
    rewrite B2. cbn [ubind]. destruct (Z.ltb_spec (Z.of_nat (length (c :: v'))) 0); [lia|].
    rewrite take_ok by (cbn [length]; rewrite app_length; cbn [length]; lia). cbn [ubind].
    replace (N.to_nat (Z.to_N (Z.of_nat (length (c :: v'))))) with (length (c :: v')) by lia.
    change (c :: v' ++ m') with ((c :: v') ++ m'). rewrite firstn_app_exact.
    destruct (Hk eq_refl) as [->| ->]; reflexivity.
  - inversion Hv; subst. destruct m'; reflexivity.
  - inversion Hv; subst. destruct m'; reflexivity.
  - inversion Hv; subst. destruct m'; reflexivity.
Qed.

Lemma read_laid ms : forall pre tl fuel, toks = pre ++ tl -> pre <> [] -> laid mem ms tl ->
  Forall member_ok ms -> Forall (num_known e) ms -> (length tl < fuel)%nat ->
  ((r + 2 <= cap)%Z \/ forall ms' m, ms = ms' ++ [m] -> container (m_kind m) = false) ->
  read_claims fuel e mem a r (Z.of_nat (length pre)) = OK (L8W8JWT_SUCCESS, map (entry_of e) ms).
Proof.
  induction ms as [|m ms IH]; intros pre tl fuel E Hp Hl Hok Hnum Hf Hlast; revert E; inversion Hl; subst; intros E; (destruct fuel as [|f]; [lia|]);
    cbn [read_claims].
  - rewrite app_nil_r in E. assert (Er : r = Z.of_nat (length pre)) by (unfold r; rewrite E; reflexivity).
    destruct (Z.ltb_spec (Z.of_nat (length pre)) r); [lia|]. reflexivity.
  - pose proof (Forall_inv Hok) as Hm. pose proof (Forall_inv_tail Hok) as Hok'.
    pose proof (Forall_inv Hnum) as Hnk. pose proof (Forall_inv_tail Hnum) as Hnum'.
    match goal with X : t_type kt = JString |- _ => rename X into Hk1 end.
    match goal with X : span mem kt = _ |- _ => rename X into Hk2 end.
    match goal with X : t_type vt = _ |- _ => rename X into Hv1 end.
    match goal with X : span mem vt = _ |- _ => rename X into Hv2 end.
    match goal with X : Forall _ inner |- _ => rename X into Hin end.
    match goal with X : container _ = false -> inner = [] |- _ => rename X into Hnc end.
    match goal with X : Forall _ tl0 |- _ => rename X into Htl end.
    match goal with X : laid mem ms tl0 |- _ => rename X into Hl' end.
    cbn [length] in Hf. rewrite app_length in Hf.
    assert (Lr : r = Z.of_nat (length pre + 2 + length inner + length tl0)).
    { unfold r. rewrite E, app_length. cbn [length]. rewrite app_length. lia. }
    destruct (Z.ltb_spec (Z.of_nat (length pre)) r); [|lia]. cbn [negb].
    rewrite (tok_at_app pre kt _ E). cbn [ubind].
    assert (E2 : toks = (pre ++ [kt]) ++ vt :: inner ++ tl0) by (rewrite E, <- app_assoc; reflexivity).
    replace (Z.of_nat (length pre) + 1)%Z with (Z.of_nat (length (pre ++ [kt]))) by (rewrite app_length; cbn [length]; lia).
    rewrite (tok_at_app _ vt _ E2). cbn [ubind]. rewrite Hk1. cbn [jtype_eqb negb].
    replace (r <=? Z.of_nat (length (pre ++ [kt])))%Z with false by (rewrite app_length; cbn [length]; lia). cbn [orb].
    assert (Hvt : tok_in n vt).
    { rewrite Forall_forall in Ht. apply Ht. rewrite E2. apply in_app_iff. right. left. reflexivity. }
    assert (CT : exists i, claim_type e mem a r (Z.of_nat (length (pre ++ [kt]))) vt = OK (Some (mtype e m, i))
      /\ (Z.of_nat (length (pre ++ kt :: vt :: inner)) <= i + 1)%Z
      /\ (tl0 <> [] -> i + 1 = Z.of_nat (length (pre ++ kt :: vt :: inner)))%Z).
    { destruct (container (m_kind m)) eqn:Ec.
      - destruct (skip_inner inner ((pre ++ [kt]) ++ [vt]) tl0 (S (S (Z.to_nat r))) (t_end vt)) as (i & S1 & S2 & S3).
        + rewrite E2, <- !app_assoc. reflexivity.
        + destruct pre; discriminate.
        + exact Hin.
        + lia.
        + exact Htl.
        + intros ->. assert (Ems : ms = []) by (inversion Hl'; reflexivity). rewrite Ems in Hlast. destruct Hlast as [Hc|Hc]; [exact Hc|].
          specialize (Hc [] m eq_refl). congruence.
        + replace (Z.of_nat (length ((pre ++ [kt]) ++ [vt])) - 1)%Z with (Z.of_nat (length (pre ++ [kt]))) in S1
            by (rewrite (app_length (pre ++ [kt])); cbn [length]; lia).
          replace (((pre ++ [kt]) ++ [vt]) ++ inner) with (pre ++ kt :: vt :: inner) in S2, S3
            by (rewrite <- !app_assoc; reflexivity).
          exists i. split; [|auto]. unfold claim_type, mtype. rewrite Hv1.
          destruct (m_kind m); try discriminate Ec; cbn [jtype_of]; rewrite S1; reflexivity.
      - rewrite (claim_type_laid m _ vt Hm Hnk Hvt Hv1 Hv2 Ec). eexists. split; [reflexivity|].
        rewrite (Hnc eq_refl), !app_length. cbn [length]. split; [lia|intros _; lia]. }
    destruct CT as (i & -> & I1 & I2). cbn [ubind map]. unfold entry_of at 1. rewrite Hk2, Hv2.
    destruct tl0 as [|y tl0].
    + assert (Ems : ms = []) by (inversion Hl'; reflexivity). rewrite Ems. destruct f as [|f']; [lia|]. cbn [read_claims].
      assert (Hi : (r <= i + 1)%Z). { rewrite app_length in I1. cbn [length] in I1, Lr. lia. }
      destruct (Z.ltb_spec (i + 1) r); [lia|]. cbn [negb]. reflexivity.
    + rewrite I2 by discriminate. rewrite (IH (pre ++ kt :: vt :: inner) (y :: tl0)); [reflexivity| |destruct pre; discriminate|exact Hl'|exact Hok'|exact Hnum'| |].
      * rewrite E, <- app_assoc. reflexivity.
      * lia.
      * destruct Hlast as [Hc|Hc]; [left; exact Hc|right]. intros ms' m' ->. apply (Hc (m :: ms') m'). reflexivity.
Qed.
End Read.

(** The number of tokens of a JSON text. *)
Definition tokens_of (js : bytes) : Z := fst (jsmn_parse js None).

(** The claims read from a JSON object are its members. *)
Lemma reads_object e w1 ms t w2 post : json_ws w1 -> json_object ms t -> json_ws w2 ->
  Forall (num_known e) ms ->
  ((tokens_of (w1 ++ t ++ w2) <= 62)%Z \/ forall ms' m, ms = ms' ++ [m] -> container (m_kind m) = false) ->
  reads e ((w1 ++ t ++ w2) ++ post) (N.of_nat (length (w1 ++ t ++ w2))) (map (entry_of e) ms).
Proof.
  intros H1 Ho H2 Hnum Hlast. destruct (jsmn_object w1 ms t w2 H1 Ho H2) as (t0 & tl & T0 & P1 & P2 & Hl).
  unfold reads. rewrite Nat2N.id, firstn_app_exact. unfold tokens_of in Hlast. rewrite P1 in *. cbn [fst] in *. right.
  split; [lia|]. exists t0, tl. split; [exact P2|]. split; [exact T0|].
  destruct (jsmn_tokens _ _ _ _ P2 ltac:(lia)) as [_ Htok].
  unfold token_array. pose proof (read_laid e ((w1 ++ t ++ w2) ++ post) _ (t0 :: tl)
    (if (Z.of_nat (S (length tl)) <=? 64)%Z then 64 else Z.of_nat (S (length tl)))%Z (e_tok_junk e) Htok) as R.
  refine (R _ _ ms [t0] tl (S (Z.to_nat (Z.of_nat (S (length tl))))) eq_refl _ (Hl post) (object_ok _ _ Ho) Hnum _ _).
  - destruct (before_nul_prefix (w1 ++ t ++ w2)) as (_ & _ & L). rewrite app_length. lia.
  - cbn [length]. destruct (Z.leb_spec (Z.of_nat (S (length tl))) 64); lia.
  - discriminate.
  - lia.
  - destruct Hlast as [Hlast|Hlast]; [left|right; exact Hlast]. cbn [length].
    destruct (Z.leb_spec (Z.of_nat (S (length tl))) 64); lia.
Qed.

(** ** Parsing succeeds when the claims can be read and memory suffices *)
Lemma parse_claims_ok p e c b mem len w es :
  uses_jsmn e -> (32 <= p_size_bits p)%N -> (Z.of_N len <= INT_MAX)%Z -> (N.to_nat len <= length mem)%nat ->
  wf w -> allocs w -> reads e mem len es ->
  exists c' w', l8w8jwt_parse_claims p e c (Ptr b mem) len w = Ret (L8W8JWT_SUCCESS, c') w'.
Proof.
  intros Hj Hp Hm Ht Hwf Ha Hr. unfold l8w8jwt_parse_claims. unfold mbind at 1. cbn [deref lift].
  unfold mbind at 1. rewrite take_ok by lia. cbn [lift].
  destruct (Z.ltb_spec INT_MAX (Z.of_N len)); [lia|]. cbv zeta. rewrite !Hj. unfold reads in Hr.
  set (js := firstn (N.to_nat len) mem) in *.
  destruct Hr as [[E ->]|(Hpos & t0 & toks & P & T0 & R)]; [rewrite E; eexists _, _; reflexivity|].
  set (r := fst (jsmn_parse js None)) in *.
  destruct (Z.eqb_spec r 0); [lia|]. destruct (Z.ltb_spec r 0); [lia|].
  destruct (jsmn_tokens _ _ _ _ P ltac:(lia)) as [Hlen Htok].
  destruct (before_nul_firstn (N.to_nat len) mem) as (B1 & B2 & B3). fold js in B1, B2, B3.
  assert (Hint : (Z.of_nat (length (before_nul js)) <= INT_MAX)%Z) by lia.
  assert (G : forall w1 blk, wf w1 -> allocs w1 -> (match blk with Some id => w_live w1 id = true | None => True end) ->
    exists c' w', (let '(r2, toks0) := jsmn_parse js (Some r) in
       if (r2 <? 0)%Z then mret (L8W8JWT_DECODE_FAILED_INVALID_TOKEN_FORMAT, c)
       else t1 <- lift (tok_at (TokArr toks0 (if (r <=? 64)%Z then 64 else r)%Z (e_tok_junk e)) 0) ;;
         '(rc, buffer) <- (if negb (jtype_eqb (t_type t1) JObject)
             then mret (L8W8JWT_DECODE_FAILED_INVALID_TOKEN_FORMAT, c)
             else claims_loop (S (Z.to_nat r2)) p e mem (TokArr toks0 (if (r <=? 64)%Z then 64 else r)%Z (e_tok_junk e)) r2 1 c) ;;
          _ <- (match blk with Some id => free_id id | None => mret tt end) ;;
          mret (rc, buffer)) w1 = Ret (L8W8JWT_SUCCESS, c') w').
  { intros w1 blk W1 A1 L1. rewrite P. destruct (Z.ltb_spec r 0); [lia|].
    unfold tok_at. cbn [ta_cap ta_toks ta_junk].
    replace ((0 <? 0)%Z || ((if (r <=? 64)%Z then 64 else r) <=? 0)%Z) with false
      by (destruct (Z.leb_spec r 64); lia).
    unfold mbind at 1. cbn [lift nth Z.to_nat]. rewrite T0. cbn [jtype_eqb negb].
    pose proof (claims_loop_eq p e mem _ (t0 :: toks) (if (r <=? 64)%Z then 64 else r)%Z r (e_tok_junk e) Hp ltac:(lia) Htok B3 Hint
      (S (Z.to_nat r)) 1 c w1 _ _ ltac:(lia) R) as Ec.
    destruct (push_all_ok p es L8W8JWT_SUCCESS c w1 A1) as (c' & w2 & Ep). rewrite Ep in Ec.
    unfold mbind at 1. rewrite Ec. destruct blk as [id|]; [|eexists _, _; reflexivity].
    destruct (claims_loop_inv _ _ _ _ _ _ _ _ _ _ _ _ W1 Ec) as (new & lost & (_ & _ & _ & _ & _ & _ & Hlv) & _).
    unfold mbind at 1. rewrite free_id_eq by (apply Hlv; auto). eexists _, _. reflexivity. }
  destruct (r <=? 64)%Z eqn:E64.
  - unfold mbind at 1. unfold mret at 1. apply (G w None); auto.
  - unfold mbind at 1. unfold mbind at 1. rewrite alloc_eq, Ha. cbn [option_map]. unfold mret at 1.
    apply (G (w_ok w) (Some (w_next w))).
    + eapply adds_wf; [apply adds_ok|exact Hwf].
    + exact Ha.
    + cbn [w_ok w_live]. apply upd_live_same.
Qed.
