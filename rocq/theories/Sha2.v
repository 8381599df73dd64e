(** * SHA-2 and HMAC, from their standards (specification side of C88)
    FIPS 180-4 for the hash functions, RFC 2104 for HMAC. The library calls mbedtls_md and
    mbedtls_md_hmac for these (encode.c:286, decode.c:570 and the like), which the model keeps as oracles:
    nothing here is a model of code in /repo. It says what a right oracle answers. *)
From Verif Require Import Base Env.
Local Open Scope N_scope.

(** One of the two variants of FIPS 180-4: the width of a word, the constants, the rotations. *)
Record sha2 := { s_bits : N; s_k : list N; s_S0 : N * N * N; s_S1 : N * N * N; s_s0 : N * N * N; s_s1 : N * N * N }.

(** FIPS 180-4 section 4.2: the first bits of the fractional parts of the cube roots of the first
    primes; section 5.3: those of the square roots. *)
Definition k256 : list N := [
   1116352408; 1899447441; 3049323471; 3921009573; 961987163; 1508970993;
   2453635748; 2870763221; 3624381080; 310598401; 607225278; 1426881987;
   1925078388; 2162078206; 2614888103; 3248222580; 3835390401; 4022224774;
   264347078; 604807628; 770255983; 1249150122; 1555081692; 1996064986;
   2554220882; 2821834349; 2952996808; 3210313671; 3336571891; 3584528711;
   113926993; 338241895; 666307205; 773529912; 1294757372; 1396182291;
   1695183700; 1986661051; 2177026350; 2456956037; 2730485921; 2820302411;
   3259730800; 3345764771; 3516065817; 3600352804; 4094571909; 275423344;
   430227734; 506948616; 659060556; 883997877; 958139571; 1322822218;
   1537002063; 1747873779; 1955562222; 2024104815; 2227730452; 2361852424;
   2428436474; 2756734187; 3204031479; 3329325298]%N.
Definition k512 : list N := [
   4794697086780616226; 8158064640168781261; 13096744586834688815; 16840607885511220156;
   4131703408338449720; 6480981068601479193; 10538285296894168987; 12329834152419229976;
   15566598209576043074; 1334009975649890238; 2608012711638119052; 6128411473006802146;
   8268148722764581231; 9286055187155687089; 11230858885718282805; 13951009754708518548;
   16472876342353939154; 17275323862435702243; 1135362057144423861; 2597628984639134821;
   3308224258029322869; 5365058923640841347; 6679025012923562964; 8573033837759648693;
   10970295158949994411; 12119686244451234320; 12683024718118986047; 13788192230050041572;
   14330467153632333762; 15395433587784984357; 489312712824947311; 1452737877330783856;
   2861767655752347644; 3322285676063803686; 5560940570517711597; 5996557281743188959;
   7280758554555802590; 8532644243296465576; 9350256976987008742; 10552545826968843579;
   11727347734174303076; 12113106623233404929; 14000437183269869457; 14369950271660146224;
   15101387698204529176; 15463397548674623760; 17586052441742319658; 1182934255886127544;
   1847814050463011016; 2177327727835720531; 2830643537854262169; 3796741975233480872;
   4115178125766777443; 5681478168544905931; 6601373596472566643; 7507060721942968483;
   8399075790359081724; 8693463985226723168; 9568029438360202098; 10144078919501101548;
   10430055236837252648; 11840083180663258601; 13761210420658862357; 14299343276471374635;
   14566680578165727644; 15097957966210449927; 16922976911328602910; 17689382322260857208;
   500013540394364858; 748580250866718886; 1242879168328830382; 1977374033974150939;
   2944078676154940804; 3659926193048069267; 4368137639120453308; 4836135668995329356;
   5532061633213252278; 6448918945643986474; 6902733635092675308; 7801388544844847127]%N.
Definition h256 : list N := [
   1779033703; 3144134277; 1013904242; 2773480762; 1359893119; 2600822924; 528734635; 1541459225]%N.
Definition h384 : list N := [
   14680500436340154072; 7105036623409894663; 10473403895298186519; 1526699215303891257;
   7436329637833083697; 10282925794625328401; 15784041429090275239; 5167115440072839076]%N.
Definition h512 : list N := [
   7640891576956012808; 13503953896175478587; 4354685564936845355; 11912009170470909681;
   5840696475078001361; 11170449401992604703; 2270897969802886507; 6620516959819538809]%N.

Definition narrow : sha2 := {| s_bits := 32; s_k := k256; s_S0 := (2, 13, 22); s_S1 := (6, 11, 25); s_s0 := (7, 18, 3); s_s1 := (17, 19, 10) |}.
Definition wide : sha2 := {| s_bits := 64; s_k := k512; s_S0 := (28, 34, 39); s_S1 := (14, 18, 41); s_s0 := (1, 8, 7); s_s1 := (19, 61, 6) |}.

(** ** Words *)
Definition wrap (v : sha2) (x : N) : N := N.land x (N.ones (s_bits v)).
Definition rotr (v : sha2) (x n : N) : N := N.lor (N.shiftr x n) (wrap v (N.shiftl x (s_bits v - n))).
Definition upper (v : sha2) (r : N * N * N) (x : N) : N := let '(a, b, c) := r in N.lxor (N.lxor (rotr v x a) (rotr v x b)) (rotr v x c).
Definition lower (v : sha2) (r : N * N * N) (x : N) : N := let '(a, b, c) := r in N.lxor (N.lxor (rotr v x a) (rotr v x b)) (N.shiftr x c).
Definition ch (x y z : N) : N := N.lxor (N.land x y) (N.ldiff z x).
Definition maj (x y z : N) : N := N.lxor (N.lxor (N.land x y) (N.land x z)) (N.land y z).

(** Section 6.2.2 step 1: the schedule, the newest word first. *)
Fixpoint schedule (v : sha2) (n : nat) (ws : list N) : list N :=
  match n with
  | O => ws
  | S n' => let g i := nth i ws 0 in
            schedule v n' (wrap v (lower v (s_s1 v) (g 1%nat) + g 6%nat + lower v (s_s0 v) (g 14%nat) + g 15%nat) :: ws)
  end.
(** Step 3: one round. *)
Definition round (v : sha2) (st : list N) (kw : N * N) : list N :=
  match st with
  | [a; b; c; d; e; f; g; h] =>
      let t1 := h + upper v (s_S1 v) e + ch e f g + fst kw + snd kw in
      let t2 := upper v (s_S0 v) a + maj a b c in
      [wrap v (t1 + t2); a; b; c; wrap v (d + t1); e; f; g]
  | _ => st
  end.
Definition compress (v : sha2) (st ws : list N) : list N :=
  let w := rev (schedule v (length (s_k v) - 16) (rev ws)) in
  map (fun '(x, y) => wrap v (x + y)) (combine st (fold_left (round v) (combine (s_k v) w) st)).

(** Section 5.1: the message, a one bit, zeros, the length of the message in bits. *)
Fixpoint big (n : nat) (x : N) : bytes := match n with O => [] | S n' => big n' (x / 256) ++ [n2b (x mod 256)] end.
Definition word_bytes (v : sha2) : nat := N.to_nat (s_bits v / 8).
Definition padded (v : sha2) (m : bytes) : bytes :=
  let blk := (16 * s_bits v / 8) in let tail := s_bits v / 4 in
  let used := N.of_nat (length m) + 1 + tail in
  m ++ n2b 128 :: repeat (n2b 0) (N.to_nat ((blk - used mod blk) mod blk)) ++ big (2 * word_bytes v) (8 * N.of_nat (length m)).
Fixpoint word (l : bytes) (acc : N) : N := match l with [] => acc | b :: l' => word l' (256 * acc + b2n b) end.
Fixpoint words (n : nat) (w : nat) (l : bytes) : list N := match n with O => [] | S n' => word (firstn w l) 0 :: words n' w (skipn w l) end.
(** Section 6.2: block by block. *)
Fixpoint blocks (v : sha2) (n : nat) (st : list N) (l : bytes) : list N :=
  match n with
  | O => st
  | S n' => blocks v n' (compress v st (words 16 (word_bytes v) l)) (skipn (16 * word_bytes v) l)
  end.
Definition digest (v : sha2) (init : list N) (m : bytes) : bytes :=
  let l := padded v m in
  flat_map (big (word_bytes v)) (blocks v (length l / (16 * word_bytes v)) init l).
(** Section 6.5: SHA-384 is SHA-512 with its own start, cut to 48 bytes. *)
Definition sha (h : md) (m : bytes) : bytes :=
  match h with SHA256 => digest narrow h256 m | SHA384 => firstn 48 (digest wide h384 m) | SHA512 => digest wide h512 m end.

(** ** RFC 2104 *)
(** RFC 2104 section 2: the length of a block of the hash (FIPS 180-4, figure 1). *)
Definition block_size (h : md) : nat := match h with SHA256 => 64%nat | _ => 128%nat end.
(** "Applications that use keys longer than B bytes will first hash the key using H"; the key is
    then filled up with zeros to the length of a block. *)
Definition block_key (H : bytes -> bytes) (B : nat) (k : bytes) : bytes :=
  let k0 := if (B <? length k)%nat then H k else k in k0 ++ repeat x00 (B - length k0).
Definition xored (c : N) (k : bytes) : bytes := map (fun b => n2b (N.lxor (b2n b) c)) k.
Definition rfc2104 (H : bytes -> bytes) (B : nat) (k m : bytes) : bytes :=
  let K := block_key H B k in H (xored 92 K ++ H (xored 54 K ++ m)).
Definition hmac_sha (h : md) (k m : bytes) : bytes := rfc2104 (sha h) (block_size h) k m.
