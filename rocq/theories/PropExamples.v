(** * Properties C66: the example key generator *)
From Verif Require Import Base BaseProofs Util Claim Jsmn Env Encode Decode Examples.
From Coq Require Import Znumtheory Zpow_facts ZifyBool ZifyNat ZifyN.
Ltac Zify.zify_post_hook ::= Z.div_mod_to_equations.

(** ** C66 *)
(** The four digest bytes that meet byte [j] of the seed, multiplied. *)
Definition factor (md : bytes) (j : nat) : N :=
  b2n (nth j md x00) * b2n (nth (j + 16) md x00) * b2n (nth (j + 32) md x00) * b2n (nth (j + 48) md x00).
Definition odd_byte (b : byte) : Prop := N.odd (b2n b) = true.
Definition all_bytes : list byte := map (fun n => n2b (N.of_nat n)) (seq 0 256).
(** How many values byte [j] of the mixed seed can take. *)
Definition reachable (md : bytes) (j : nat) : nat :=
  length (nodup N.eq_dec (map (fun b => b2n (nth j (mix (repeat b 32) md) x00)) all_bytes)).

Lemma nth_repeat_lt {A} (a d : A) n k : (k < n)%nat -> nth k (repeat a n) d = a.
Proof. intros H. rewrite nth_indep with (d' := a) by (rewrite repeat_length; exact H). apply nth_repeat. Qed.
Lemma b2n_mul a b : b2n (mul_byte a b) = (b2n a * b2n b mod 256)%N.
Proof. apply b2n_n2b_mod. Qed.
Local Opaque mul_byte.

Ltac list_of l n := match n with O => destruct l; [|discriminate] | S ?k =>
  let x := fresh "x" in destruct l as [|x l]; [discriminate|]; list_of l k end.
Lemma mix_explicit seed md : length seed = 32%nat -> length md = 64%nat ->
  mix seed md = map (fun j => let m k := nth (j + k) md x00 in
      mul_byte (mul_byte (mul_byte (mul_byte (nth j seed x00) (m 0%nat)) (m 16%nat)) (m 32%nat)) (m 48%nat)) (seq 0 16)
    ++ skipn 16 seed.
Proof.
  intros H1 H2. list_of seed 32%nat. list_of md 64%nat. reflexivity.
Qed.
Lemma mix_length seed md : length seed = 32%nat -> length md = 64%nat -> length (mix seed md) = 32%nat.
Proof. intros H1 H2. rewrite mix_explicit by assumption. rewrite app_length, map_length, seq_length, skipn_length. lia. Qed.
Lemma mix_low seed md j : length seed = 32%nat -> length md = 64%nat -> (j < 16)%nat ->
  b2n (nth j (mix seed md) x00) = (b2n (nth j seed x00) * factor md j mod 256)%N.
Proof.
  intros H1 H2 Hj. rewrite mix_explicit by assumption. rewrite app_nth1 by (rewrite map_length, seq_length; exact Hj).
  match goal with |- context [map ?f _] => rewrite (nth_indep (map f (seq 0 16)) x00 (f 0%nat))
    by (rewrite map_length, seq_length; exact Hj); rewrite (map_nth f) end.
  rewrite seq_nth by exact Hj. cbv beta zeta. rewrite !b2n_mul, Nat.add_0_r. cbn [Nat.add]. unfold factor.
  rewrite (N.mul_mod_idemp_l _ (b2n (nth (j + 48) md x00))) by lia.
  do 2 (rewrite <- ?N.mul_assoc, N.mul_mod_idemp_l by lia). f_equal. ring.
Qed.
Lemma mix_high seed md j : length seed = 32%nat -> length md = 64%nat -> (16 <= j)%nat ->
  nth j (mix seed md) x00 = nth j seed x00.
Proof.
  intros H1 H2 Hj. rewrite mix_explicit by assumption. rewrite app_nth2 by (rewrite map_length, seq_length; exact Hj).
  rewrite map_length, seq_length. rewrite <- (firstn_skipn 16 seed) at 2.
  rewrite app_nth2 by (rewrite firstn_length; lia). rewrite firstn_length, H1. f_equal.
Qed.
Lemma mul_inj a b f : N.odd f = true -> (a < 256)%N -> (b < 256)%N -> (a * f mod 256 = b * f mod 256)%N -> a = b.
Proof.
  intros Ho Ha Hb E.
  assert (R : rel_prime 256 (Z.of_N f)).
  { change 256%Z with (2 ^ 8)%Z. apply rel_prime_sym, rel_prime_Zpower_r; [lia|]. apply rel_prime_sym, prime_rel_prime; [apply prime_2|].
    intros (k & Hk). apply N.odd_spec in Ho as (m & Hm). lia. }
  assert (D : (256 | Z.of_N f * (Z.of_N a - Z.of_N b))%Z).
  { apply Z.mod_divide; [lia|]. rewrite Z.mul_sub_distr_l, Zminus_mod.
    assert (E' : ((Z.of_N f * Z.of_N a) mod 256 = (Z.of_N f * Z.of_N b) mod 256)%Z).
    { rewrite !(Z.mul_comm (Z.of_N f)), <- !N2Z.inj_mul. change 256%Z with (Z.of_N 256). rewrite <- !N2Z.inj_mod, E. reflexivity. }
    rewrite E', Z.sub_diag. reflexivity. }
  apply Gauss in D; [|exact R]. destruct D as (k & Hk). lia.
Qed.
Lemma b2n_lt b : (b2n b < 256)%N.
Proof. destruct b; reflexivity. Qed.
Lemma odd_factor md j : Forall odd_byte md -> length md = 64%nat -> (j < 16)%nat -> N.odd (factor md j) = true.
Proof.
  intros H Hl Hj. rewrite Forall_forall in H. unfold factor. rewrite !N.odd_mul.
  assert (K : forall i, (i < 64)%nat -> N.odd (b2n (nth i md x00)) = true) by (intros i Hi; apply H, nth_In; lia).
  rewrite !K by lia. reflexivity.
Qed.
Lemma even_factor md i : length md = 64%nat -> (i < 64)%nat -> N.odd (b2n (nth i md x00)) = false ->
  N.odd (factor md (i mod 16)) = false.
Proof.
  intros Hl Hi He. unfold factor. rewrite !N.odd_mul.
  assert (K : (i = i mod 16 \/ i = i mod 16 + 16 \/ i = i mod 16 + 32 \/ i = i mod 16 + 48)%nat) by lia.
  destruct K as [K|[K|[K|K]]]; rewrite K in He at 1; rewrite He; rewrite ?andb_false_r; reflexivity.
Qed.
Definition gcd_ok (f : N) : bool :=
  Nat.eqb (length (nodup N.eq_dec (map (fun b => b2n b * f mod 256)%N all_bytes))) (N.to_nat (256 / N.gcd 256 f)).
Lemma gcd_all : forallb gcd_ok (map N.of_nat (seq 0 256)) = true.
Proof. vm_compute. reflexivity. Qed.
Local Opaque all_bytes nodup.
Lemma gcd_count f : length (nodup N.eq_dec (map (fun b => b2n b * f mod 256)%N all_bytes)) = N.to_nat (256 / N.gcd 256 f).
Proof.
  pose proof (proj1 (forallb_forall gcd_ok _) gcd_all (f mod 256)%N) as G.
  assert (I : In (f mod 256)%N (map N.of_nat (seq 0 256))).
  { apply in_map_iff. exists (N.to_nat (f mod 256)). split; [lia|]. apply in_seq. pose proof (N.mod_lt f 256). lia. }
  apply G in I. unfold gcd_ok in I. apply Nat.eqb_eq in I. rewrite N.gcd_comm, N.gcd_mod in I by lia. rewrite <- I.
  f_equal. f_equal. apply map_ext. intros b. symmetry. apply N.mul_mod_idemp_r. lia.
Qed.

(** What the extra entropy does to the seed. The second half of the seed stays; each byte of the first
    half is multiplied by a product of four digest bytes, modulo 256, and can take 256 / gcd(256, product)
    values afterwards. So no entropy is lost exactly if all 64 digest bytes are odd. Without extra
    arguments the seed is left alone. *)
Theorem C66_keygen_seed_partial :
  forall sha512 argv seed,
    length seed = 32%nat -> (forall m, length (sha512 m) = 64%nat) ->
    let md := sha512 (concat argv) in
    length (keygen_seed sha512 argv seed) = 32%nat
    /\ ((length argv <= 1)%nat -> keygen_seed sha512 argv seed = seed)
    /\ ((1 < length argv)%nat ->
        (forall j, (j < 16)%nat ->
           b2n (nth j (keygen_seed sha512 argv seed) x00) = (b2n (nth j seed x00) * factor md j mod 256)%N
           /\ reachable md j = N.to_nat (256 / N.gcd 256 (factor md j)))
        /\ (forall j, (16 <= j)%nat -> nth j (keygen_seed sha512 argv seed) x00 = nth j seed x00)
        /\ ((forall s1 s2, length s1 = 32%nat -> length s2 = 32%nat ->
               keygen_seed sha512 argv s1 = keygen_seed sha512 argv s2 -> s1 = s2)
            <-> Forall odd_byte md)).
Proof.
  intros sha512 argv seed Hs Hd md. unfold keygen_seed, bytes in *. destruct (1 <? length argv)%nat eqn:Ea.
  2: { split; [exact Hs|]. split; [auto|]. intros K. lia. }
  split; [apply mix_length; auto|]. split; [intros K; lia|]. intros _. fold md. assert (Hm : length md = 64%nat) by apply Hd.
  split; [|split].
  - intros j Hj. split; [apply mix_low; auto|]. unfold reachable. rewrite <- gcd_count. f_equal. f_equal. apply map_ext. intros b.
    rewrite mix_low; [|apply repeat_length|exact Hm|exact Hj]. f_equal. f_equal. f_equal. apply nth_repeat_lt. lia.
  - intros j Hj. apply mix_high; auto.
  - split.
    + intros Inj. apply Forall_forall. intros b Hb. apply (In_nth _ _ x00) in Hb as (i & Hi & <-). unfold odd_byte.
      destruct (N.odd (b2n (nth i md x00))) eqn:Eo; [reflexivity|exfalso]. rewrite Hm in Hi.
      pose proof (even_factor md i Hm Hi Eo) as Ef. set (j := (i mod 16)%nat) in *. assert (Hj : (j < 16)%nat) by (unfold j; lia).
      set (s1 := repeat x00 32). set (s2 := repeat x00 j ++ x80 :: repeat x00 (31 - j)).
      assert (L1 : length s1 = 32%nat) by reflexivity.
      assert (L2 : length s2 = 32%nat) by (unfold s2; rewrite app_length; cbn [length]; rewrite !repeat_length; lia).
      assert (Q : forall k, nth k s2 x00 = if Nat.eqb k j then x80 else nth k s1 x00).
      { intros k. unfold s1, s2. rewrite (nth_repeat x00 32 k). destruct (Nat.eqb k j) eqn:Ek.
        - apply Nat.eqb_eq in Ek. subst k. rewrite app_nth2; rewrite repeat_length; [|lia]. rewrite Nat.sub_diag. reflexivity.
        - apply Nat.eqb_neq in Ek. destruct (Nat.lt_ge_cases k j) as [Kl|Kl].
          + rewrite app_nth1 by (rewrite repeat_length; exact Kl). apply nth_repeat.
          + rewrite app_nth2; rewrite repeat_length; [|lia]. destruct (k - j)%nat eqn:Ekj; [lia|]. cbn [nth]. apply nth_repeat. }
      assert (E : s1 = s2).
      { apply Inj; [exact L1|exact L2|]. apply (nth_ext _ _ x00 x00); [rewrite !mix_length; auto|]. intros k Hk.
        destruct (Nat.lt_ge_cases k 16) as [Kl|Kl]; [|rewrite !mix_high by auto; rewrite Q].
        - apply b2n_inj. rewrite !mix_low by auto. rewrite Q. destruct (Nat.eqb k j) eqn:Ek; [|reflexivity].
          apply Nat.eqb_eq in Ek. subst k. unfold s1. rewrite nth_repeat. change (b2n x00) with 0%N. change (b2n x80) with 128%N.
          rewrite <- N.negb_even in Ef. apply negb_false_iff, N.even_spec in Ef as (m & Ef). rewrite Ef. lia.
        - destruct (Nat.eqb k j) eqn:Ek; [|reflexivity]. apply Nat.eqb_eq in Ek. lia. }
      specialize (Q j). rewrite <- E in Q. unfold s1 in Q. rewrite nth_repeat, Nat.eqb_refl in Q. discriminate Q.
    + intros Ho s1 s2 L1 L2 E. apply (nth_ext _ _ x00 x00); [congruence|]. intros k Hk.
      destruct (Nat.lt_ge_cases k 16) as [Kl|Kl].
      * apply b2n_inj. apply (mul_inj _ _ (factor md k)); [apply odd_factor; auto|apply b2n_lt|apply b2n_lt|].
        rewrite <- !mix_low by auto. rewrite E. reflexivity.
      * rewrite <- (mix_high s1 md k), <- (mix_high s2 md k) by auto. rewrite E. reflexivity.
Qed.
Print Assumptions C66_keygen_seed_partial.

(** Supplying entropy can destroy that of the seed: two random seeds lead to the same key pair; with an
    unlucky digest all seeds lose their first half. *)
Theorem C66_keygen_seed_refuted :
  (exists sha512 argv s1 s2, (forall m, length (sha512 m) = 64%nat) /\ length s1 = 32%nat /\ length s2 = 32%nat /\ s1 <> s2
     /\ keygen_seed sha512 argv s1 = keygen_seed sha512 argv s2)
  /\ exists sha512 argv, (forall m, length (sha512 m) = 64%nat)
     /\ forall s, length s = 32%nat -> firstn 16 (keygen_seed sha512 argv s) = repeat x00 16.
Proof.
  split.
  - exists (fun _ => repeat x02 64), [lit "keygen"; lit "dice"], (repeat x00 32), (xf0 :: repeat x00 31).
    split; [reflexivity|]. split; [reflexivity|]. split; [reflexivity|]. split; [discriminate|vm_compute; reflexivity].
  - exists (fun _ => repeat x04 64), [lit "keygen"; lit "dice"]. split; [reflexivity|]. intros s Hs.
    change (firstn 16 (mix s (repeat x04 64)) = repeat x00 16).
    apply (nth_ext _ _ x00 x00); [rewrite firstn_length, mix_length; auto|]. intros k Hk.
    rewrite firstn_length, mix_length in Hk by auto. cbn in Hk.
    assert (F : nth k (firstn 16 (mix s (repeat x04 64))) x00 = nth k (mix s (repeat x04 64)) x00).
    { rewrite <- (firstn_skipn 16 (mix s (repeat x04 64))) at 2. rewrite app_nth1; [reflexivity|]. rewrite firstn_length, mix_length by auto. lia. }
    rewrite F, nth_repeat. apply b2n_inj. rewrite mix_low by (auto; lia).
    assert (Ef : factor (repeat x04 64) k = 256%N) by (unfold factor; rewrite !nth_repeat_lt by lia; reflexivity).
    rewrite Ef. apply N.mod_mul. lia.
Qed.
Print Assumptions C66_keygen_seed_refuted.

(** A digest of odd bytes, and one with a single even byte. *)
Example C66_example :
  let seed := map (fun n => n2b (N.of_nat (7 * n + 3))) (seq 0 32) in
  let argv := [lit "keygen"; lit "dice"] in
  length seed = 32%nat
  /\ Forall odd_byte (map (fun n => n2b (N.of_nat (2 * n + 1))) (seq 0 64))
  /\ firstn 3 (keygen_seed (fun _ => map (fun n => n2b (N.of_nat (2 * n + 1))) (seq 0 64)) argv seed) = [x43; xaa; x41]
  /\ keygen_seed (fun _ => repeat x02 64) [lit "keygen"] seed = seed
  /\ reachable (x02 :: repeat x01 63) 0 = 128%nat /\ reachable (x02 :: repeat x01 63) 1 = 256%nat.
Proof.
  cbv zeta. split; [reflexivity|]. split; [apply Forall_forall; intros b Hb; vm_compute in Hb;
    repeat (destruct Hb as [<-|Hb]; [reflexivity|]); destruct Hb|]. split; [vm_compute; reflexivity|].
  repeat split; vm_compute; reflexivity.
Qed.
