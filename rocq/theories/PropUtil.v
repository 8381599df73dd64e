(** * Properties C36, C37, C48: util.c and version.c *)
From Verif Require Import Base BaseProofs Util UtilProofs.
From Coq Require Import ZifyBool ZifyNat ZifyN.
Ltac Zify.zify_post_hook ::= Z.div_mod_to_equations.

(** ** C36 *)
(** "The C strings [s1] and [s2] agree, ignoring ASCII case, on their first [n] characters." *)
Definition agree_nocase (s1 s2 : bytes) (n : N) : Prop :=
  map ascii_lower (firstn (N.to_nat n) s1) = map ascii_lower (firstn (N.to_nat n) s2).

(** The claim as stated is false: with [n = 0], and with two empty strings, everything agrees but
    the result is -1. *)
Theorem C36_strncmpic_refuted :
  exists p s1 s2 n,
    no_nul s1 /\ no_nul s2 /\ agree_nocase s1 s2 n /\
    l8w8jwt_strncmpic p (Ptr None (s1 ++ [x00])) (Ptr None (s2 ++ [x00])) n <> OK 0%Z.
Proof.
  exists (Platform 64 true true true true), (lit "jwt"), (lit "jwt"), 0%N.
  split; [vm_compute; intuition discriminate|].
  split; [vm_compute; intuition discriminate|].
  split; [reflexivity|]. vm_compute. discriminate.
Qed.
Print Assumptions C36_strncmpic_refuted.
Theorem C36_strncmpic_empty_refuted :
  forall p n, l8w8jwt_strncmpic p (Ptr None [x00]) (Ptr None [x00]) n = OK (-1)%Z
              /\ agree_nocase [] [] n.
Proof. intros. split; [reflexivity|]. unfold agree_nocase. rewrite firstn_nil. reflexivity. Qed.
Print Assumptions C36_strncmpic_empty_refuted.
(** On platforms with signed plain [char] a non-ASCII character is passed to [tolower] as a
    negative number: undefined behaviour. *)
Theorem C36_strncmpic_defined_refuted :
  exists p s1 s2 n, no_nul s1 /\ no_nul s2 /\
    l8w8jwt_strncmpic p (Ptr None (s1 ++ [x00])) (Ptr None (s2 ++ [x00])) n = KO BadCtype.
Proof.
  exists (Platform 64 true true true true), [xc3; xa9], [xc3; xa9], 2%N.
  split; [vm_compute; intuition discriminate|].
  split; [vm_compute; intuition discriminate|]. reflexivity.
Qed.
Print Assumptions C36_strncmpic_defined_refuted.

(** What does hold: for ASCII strings (any strings where [char] is unsigned), [n] at least one and
    not both strings empty, the call is defined and returns 0 exactly when they agree. *)
Theorem C36_strncmpic_partial :
  forall p b1 b2 s1 s2 r1 r2 n,
    no_nul s1 -> no_nul s2 -> Forall (plain p) s1 -> Forall (plain p) s2 ->
    (0 < n)%N -> (s1 <> [] \/ s2 <> []) ->
    exists v,
      l8w8jwt_strncmpic p (Ptr b1 (s1 ++ x00 :: r1)) (Ptr b2 (s2 ++ x00 :: r2)) n = OK v
      /\ (v = 0%Z <-> agree_nocase s1 s2 n).
Proof.
  intros p b1 b2 s1 s2 r1 r2 n H1 H2 H3 H4 Hn Hne.
  destruct (strncmpic_loop_spec p s1 r1 s2 r2 n (-1)%Z H1 H2 H3 H4) as [_ H].
  exact (H Hn Hne).
Qed.
Print Assumptions C36_strncmpic_partial.

(** The remaining two cases always give -1 (never 0), and so does a NULL argument. *)
Theorem C36_strncmpic_degenerate_partial :
  forall p b1 b2 s1 s2 r1 r2 n,
    no_nul s1 -> no_nul s2 -> (n = 0%N \/ (s1 = [] /\ s2 = [])) ->
    l8w8jwt_strncmpic p (Ptr b1 (s1 ++ x00 :: r1)) (Ptr b2 (s2 ++ x00 :: r2)) n = OK (-1)%Z
    /\ (forall q, l8w8jwt_strncmpic p Null q n = OK (-1)%Z)
    /\ (forall q, l8w8jwt_strncmpic p q Null n = OK (-1)%Z).
Proof.
  intros p b1 b2 s1 s2 r1 r2 n H1 H2 H. split; [|split; [reflexivity|intros []; reflexivity]].
  cbn [l8w8jwt_strncmpic].
  destruct H as [-> | (-> & ->)]; [|reflexivity].
  destruct s1 as [|a s1], s2 as [|b s2]; cbn [app strncmpic_loop];
    repeat match goal with |- context [is_nul ?x] => destruct (is_nul x) end; reflexivity.
Qed.
Print Assumptions C36_strncmpic_degenerate_partial.

Example C36_example :
  l8w8jwt_strncmpic (Platform 64 true true true true)
    (Ptr None (clit "JwT-x")) (Ptr None (clit "jWt+y")) 3 = OK 0%Z
  /\ agree_nocase (lit "JwT-x") (lit "jWt+y") 3
  /\ l8w8jwt_strncmpic (Platform 64 true true true true)
       (Ptr None (clit "JwT-x")) (Ptr None (clit "jWt+y")) 4 = OK 2%Z.
Proof. repeat split. Qed.

(** ** C37 *)
(** False as stated: strings that are not hexadecimal are not rejected. *)
Theorem C37_hexstr2bin_rejects_refuted :
  exists p s n o size,
    hex_bytes s = None /\ (n = N.of_nat (length s)) /\ no_nul s /\
    exists out, l8w8jwt_hexstr2bin p (Ptr None s) n (Ptr None o) size true
                = OK (0%Z, Some out, Some (n / 2)%N).
Proof.
  exists (Platform 64 true true true true), (lit "zz#!"), 4%N, (repeat xff 8), 8%N.
  split; [reflexivity|]. split; [reflexivity|].
  split; [vm_compute; intuition discriminate|]. eexists. vm_compute. reflexivity.
Qed.
Print Assumptions C37_hexstr2bin_rejects_refuted.

(** The part that holds. [s]: the text, given with or without its terminator. *)
Theorem C37_hexstr2bin_value_partial :
  forall p b m n ob o size nn s t,
    (0 < n)%N -> (n <= N.of_nat (length m))%N -> (size <= N.of_nat (length o))%N ->
    firstn (N.to_nat n) m = s \/ firstn (N.to_nat n) m = s ++ [x00] ->
    hex_bytes s = Some t -> (N.of_nat (length t) < size)%N ->
    l8w8jwt_hexstr2bin p (Ptr b m) n (Ptr ob o) size nn
    = OK (0%Z, Some (t ++ x00 :: skipn (S (length t)) o),
          if nn then Some (N.of_nat (length t)) else None).
Proof.
  intros p b m n ob o size nn s t Hn Hm Ho Hs Ht Hsz.
  rewrite hexstr2bin_cases by auto.
  assert (Hlt : length s = (length t * 2)%nat).
  { clear - Ht. revert t Ht. induction s as [|x|x y s IH] using list2_ind; intros t Ht.
    - inversion Ht. reflexivity.
    - discriminate.
    - cbn [hex_bytes] in Ht. destruct (hex_value x); [|discriminate].
      destruct (hex_value y); [|discriminate].
      destruct (hex_bytes s) as [t'|]; [|discriminate]. inversion Ht; subst.
      specialize (IH t' eq_refl). simpl in *. lia. }
  assert (Hnn : is_nul (last s x01) = false).
  { clear - Ht. revert t Ht. induction s as [|x|x y s IH] using list2_ind; intros t Ht.
    - reflexivity.
    - discriminate.
    - cbn [hex_bytes] in Ht. destruct (hex_value x); [|discriminate].
      destruct (hex_value y) eqn:Ey; [|discriminate].
      destruct (hex_bytes s) as [t'|]; [|discriminate].
      destruct s as [|z s].
      + simpl. destruct (is_nul y) eqn:E; auto. apply is_nul_true in E. subst.
        vm_compute in Ey. discriminate.
      + apply (IH t' eq_refl). }
  assert (Es : without_final_nul (firstn (N.to_nat n) m) = s).
  { unfold without_final_nul. destruct Hs as [-> | ->].
    - rewrite Hnn. reflexivity.
    - rewrite last_last. cbn. apply removelast_last. }
  rewrite Es, Hlt. rewrite Nat.mod_mul, Nat.div_mul by lia. cbn [Nat.eqb negb].
  destruct (N.ltb_spec size (N.of_nat (length t) + 1)); [lia|].
  unfold cur_start.
  destruct (hex_loop_ok p s [] o) as (out & Hout & Hlo & Heq).
  { rewrite Hlt, Nat.div_mul by lia. lia. }
  rewrite Hout. rewrite (Heq t Ht). cbn [c_done c_rest]. unfold cur_buf. cbn [c_done c_rest].
  rewrite app_nil_r, rev_involutive, Hlt, Nat.div_mul by lia.
  rewrite skipn_skipn. reflexivity.
Qed.
Print Assumptions C37_hexstr2bin_value_partial.

(** For every text whatsoever the call is defined, and only the first [k+1] bytes, which fit in
    [output_size], are written; bad arguments are reported and nothing is written. *)
Theorem C37_hexstr2bin_safe_partial :
  forall p b m n ob o size nn,
    (n <= N.of_nat (length m))%N -> (size <= N.of_nat (length o))%N ->
    (exists rc, l8w8jwt_hexstr2bin p (Ptr b m) n (Ptr ob o) size nn = OK (rc, None, None)
                /\ (rc = 1 \/ rc = 2 \/ rc = 3)%Z)
    \/ exists k out,
         l8w8jwt_hexstr2bin p (Ptr b m) n (Ptr ob o) size nn
         = OK (0%Z, Some out, if nn then Some (N.of_nat k) else None)
         /\ (N.of_nat k + 1 <= size)%N /\ length out = length o
         /\ nth_error out k = Some x00 /\ skipn (S k) out = skipn (S k) o.
Proof.
  intros p b m n ob o size nn Hm Ho.
  destruct (N.eqb_spec n 0) as [->|Hn].
  { left. exists 1%Z. split; auto. }
  rewrite hexstr2bin_cases by (auto; lia).
  set (s := without_final_nul (firstn (N.to_nat n) m)).
  destruct (negb (length s mod 2 =? 0)%nat); [left; exists 2%Z; auto|].
  destruct (N.ltb_spec size (N.of_nat (length s / 2) + 1)) as [H|H]; [left; exists 3%Z; auto|].
  right. unfold cur_start.
  destruct (hex_loop_ok p s [] o) as (out & Hout & Hlo & _); [lia|].
  rewrite Hout. cbn [c_done c_rest]. unfold cur_buf. cbn [c_done c_rest].
  rewrite app_nil_r, rev_involutive, skipn_skipn. rewrite <- Hlo in *.
  exists (length out), (out ++ x00 :: skipn (1 + length out) o).
  split; [reflexivity|]. split; [lia|].
  split; [rewrite app_length; cbn [length]; rewrite skipn_length; lia|].
  split; [rewrite nth_error_app2, Nat.sub_diag by lia; reflexivity|].
  rewrite skipn_app. rewrite skipn_all2 by lia.
  replace (S (length out) - length out)%nat with 1%nat by lia. reflexivity.
Qed.
Print Assumptions C37_hexstr2bin_safe_partial.

(** Odd lengths and too small outputs are refused, with their codes. *)
Theorem C37_hexstr2bin_codes_partial :
  forall p b m n ob o size nn,
    (0 < n)%N -> (n <= N.of_nat (length m))%N -> (size <= N.of_nat (length o))%N ->
    no_nul (firstn (N.to_nat n) m) ->
    exists rc x y, l8w8jwt_hexstr2bin p (Ptr b m) n (Ptr ob o) size nn = OK (rc, x, y)
      /\ (rc = 2%Z <-> N.odd n = true)
      /\ (rc = 3%Z <-> N.even n = true /\ (size < n / 2 + 1)%N)
      /\ (rc = 0%Z <-> N.even n = true /\ (n / 2 + 1 <= size)%N).
Proof.
  intros p b m n ob o size nn Hn Hm Ho Hnn.
  rewrite hexstr2bin_cases by auto.
  assert (Hlen : length (firstn (N.to_nat n) m) = N.to_nat n) by (rewrite firstn_length; lia).
  assert (Es : without_final_nul (firstn (N.to_nat n) m) = firstn (N.to_nat n) m).
  { unfold without_final_nul.
    destruct (exists_last (l := firstn (N.to_nat n) m)) as (s' & z & E).
    - intros E. rewrite E in Hlen. simpl in Hlen. lia.
    - rewrite E, last_last. destruct (is_nul z) eqn:Ez; auto. apply is_nul_true in Ez. subst z.
      exfalso. apply Hnn. rewrite E. apply in_or_app. right. left. reflexivity. }
  rewrite Es. set (s := firstn (N.to_nat n) m) in *. clearbody s.
  assert (Heo : (length s mod 2 =? 0)%nat = N.even n /\ N.odd n = negb (N.even n)).
  { rewrite N.negb_even. split; [|reflexivity]. rewrite Hlen.
    destruct (N.even n) eqn:E.
    - apply N.even_spec in E. destruct E as [q ->]. lia.
    - assert (Eo : N.odd n = true) by (rewrite <- N.negb_even, E; reflexivity).
      apply N.odd_spec in Eo. destruct Eo as [q ->]. lia. }
  destruct Heo as [He Hodd]. rewrite He, Hodd.
  destruct (N.even n) eqn:E; cbn [negb].
  - assert (Hk : N.of_nat (length s / 2) = (n / 2)%N) by lia.
    destruct (N.ltb_spec size (N.of_nat (length s / 2) + 1)).
    + do 3 eexists. split; [reflexivity|]. intuition (try discriminate; try lia).
    + destruct (hex_loop_ok p s [] o) as (out & Hout & Hlo & _); [lia|].
      unfold cur_start. rewrite Hout.
      do 3 eexists. split; [reflexivity|]. intuition (try discriminate; try lia).
  - do 3 eexists. split; [reflexivity|]. intuition (try discriminate; try lia).
Qed.
Print Assumptions C37_hexstr2bin_codes_partial.

Example C37_example :
  l8w8jwt_hexstr2bin (Platform 64 true true true true)
    (Ptr None (clit "00fFA9")) 7 (Ptr None (repeat xee 6)) 5 true
  = OK (0%Z, Some [x00; xff; xa9; x00; xee; xee], Some 3%N)
  /\ hex_bytes (lit "00fFA9") = Some [x00; xff; xa9]
  /\ hex_bytes (lit "0g") = None /\ hex_bytes (lit "abc") = None.
Proof. repeat split. Qed.

(** ** C48 *)
(** A decimal numeral with separators, read as a number. *)
Definition digits_value (s : bytes) : Z :=
  fold_left (fun v c => if is_digit c then (10 * v + (b2z c - 48))%Z else v) s 0%Z.

Theorem C48_version_functions :
  forall b o, (32 <= length o)%nat ->
    exists v rest,
      l8w8jwt_get_version_string (Ptr b o) = OK (v ++ x00 :: rest)
      /\ ~ In x00 v /\ (length v < 32)%nat
      /\ length (v ++ x00 :: rest) = length o
      /\ skipn 32 (v ++ x00 :: rest) = skipn 32 o
      /\ digits_value v = l8w8jwt_get_version_number.
Proof.
  intros b o Ho. do 6 (destruct o as [|? o]; [simpl in Ho; lia|]).
  exists (lit "2.3.4"), o. split; [reflexivity|].
  split; [vm_compute; intuition discriminate|].
  split; [vm_compute; lia|]. split; [reflexivity|]. split; reflexivity.
Qed.
Print Assumptions C48_version_functions.
Example C48_example : digits_value (lit "10.20.3") = 10203%Z.
Proof. reflexivity. Qed.
