(** * Properties C01-C09: base64 *)
From Verif Require Import Base BaseProofs HeapProofs Base64 SpecB64 Base64EncProofs Base64EncApi
  Base64DecProofs Base64Api.
From Coq Require Import ZifyBool ZifyNat ZifyN.
Ltac Zify.zify_post_hook ::= Z.div_mod_to_equations.

(** Sample platform and world used by the examples. *)
Definition p64 : platform := Platform 64 true false true true.
Definition w_sample : world :=
  World (fun _ => true) (fun _ => true) (fun _ _ => xff) 1 0 (fun _ => false).
Lemma w_sample_wf : wf w_sample.
Proof. intros i _. reflexivity. Qed.

(** The text the encoder is documented to produce (written with SpecB64.v only). *)
Definition documented_text (url : bool) (s : bytes) : bytes :=
  if url then rfc4648_unpadded true s else in_lines_of_72 (rfc4648_padded false s).

(** ** C01 *)
(** Whatever the encoder returned, decoding it (later, in any heap state in which the one
    allocation succeeds) gives back the input bytes, NUL-terminated, and the input length. *)
Theorem C01_base64_round_trip :
  forall p url b mem n w r w1,
    (6 <= p_size_bits p)%N -> (n < size_mod p)%N -> (n <= N.of_nat (length mem))%N ->
    l8w8jwt_base64_encode p url (Ptr b mem) n true true w = Ret r w1 ->
    b_rc r = L8W8JWT_SUCCESS ->
    exists out len, b_out r = Some out /\ b_len r = Some len /\
      forall w2, wf w2 -> w_alloc w2 (w_next w2) = true ->
      exists blk rest w3,
        l8w8jwt_base64_decode url out len true true w2
        = Ret (B64 L8W8JWT_SUCCESS (Some (Ptr blk (firstn (N.to_nat n) mem ++ x00 :: rest)))
                   (Some n)) w3.
Proof.
  intros p url b mem n w r w1 Hp Hm Hl Hc Hrc.
  destruct (encode_cases p url b mem n w Hp Hm Hl)
    as [(_ & H)|[(_ & _ & H)|[(_ & _ & _ & H)|[(_ & _ & _ & _ & _ & H)|(Hn & _ & _ & _ & rest & H & _)]]]];
    rewrite H in Hc; inversion Hc; subst; clear Hc; try discriminate Hrc.
  do 2 eexists. split; [reflexivity|]. split; [reflexivity|].
  intros w2 Hwf Hal.
  set (s := firstn (N.to_nat n) mem).
  assert (Hls : N.of_nat (length s) = n) by (unfold s; rewrite firstn_length; lia).
  destruct (decode_text url (Some (w_next w)) s (x00 :: rest) w2) as (z & Hz); auto.
  { intros E. rewrite E in Hls. simpl in Hls. lia. }
  do 3 eexists. rewrite Hz, Hls. reflexivity.
Qed.
Print Assumptions C01_base64_round_trip.

(** Non-vacuity: the encoder does succeed on every input of admissible size (see C02), here one. *)
Example C01_example :
  exists r w1, l8w8jwt_base64_encode p64 true (Ptr None (lit "hello?>")) 7 true true w_sample
               = Ret r w1 /\ b_rc r = L8W8JWT_SUCCESS
               /\ b_len r = Some 10%N.
Proof. do 2 eexists. split; [vm_compute; reflexivity|]. split; reflexivity. Qed.

(** ** C02 *)
Theorem C02_encoder_emits_rfc4648 :
  forall p url b mem n w,
    (6 <= p_size_bits p)%N -> (0 < n)%N -> (n <= N.of_nat (length mem))%N ->
    (n * 4 < size_mod p)%N ->
    (url = true -> (4 * ((Z.of_N n + 2) / 3) <= INT_MAX)%Z) ->
    w_alloc w (w_next w) = true ->
    let s := firstn (N.to_nat n) mem in
    exists id rest w',
      l8w8jwt_base64_encode p url (Ptr b mem) n true true w
      = Ret (B64 L8W8JWT_SUCCESS (Some (Ptr (Some id) (documented_text url s ++ x00 :: rest)))
                 (Some (N.of_nat (length (documented_text url s))))) w'.
Proof.
  intros p url b mem n w Hp Hn Hl H4 Hi Ha s.
  destruct (encode_success p url b mem n w Hp Hn Hl H4 Hi Ha) as (rest & H & _).
  do 3 eexists. exact H.
Qed.
Print Assumptions C02_encoder_emits_rfc4648.

(** The specification itself, on the RFC 4648 section 10 test vectors. *)
Example C02_spec_vectors :
  map (fun s => rfc4648_padded false (lit s)) ["f"; "fo"; "foo"; "foob"; "fooba"; "foobar"]%string
  = map lit ["Zg=="; "Zm8="; "Zm9v"; "Zm9vYg=="; "Zm9vYmE="; "Zm9vYmFy"]%string.
Proof. vm_compute. reflexivity. Qed.
Example C02_example :
  exists w', l8w8jwt_base64_encode p64 false (Ptr None (lit "fooba")) 5 true true w_sample
             = Ret (B64 L8W8JWT_SUCCESS
                     (Some (Ptr (Some 1%nat) (lit "Zm9vYmE=" ++ [x0a; x00; xff])))
                     (Some 9%N)) w'.
Proof. eexists. vm_compute. reflexivity. Qed.

(** ** C03 *)
(** Below the counter limit the call is defined (so no access leaves the allocation, which has
    exactly the computed size); on success the returned block is new, live and NUL-terminated at
    the returned length, with no earlier NUL; otherwise no block is handed out or left behind. *)
Theorem C03_encoder_buffer_safe :
  forall p url data n out_nn len_nn w,
    (6 <= p_size_bits p)%N -> (n < size_mod p)%N -> wf w ->
    (forall b mem, data = Ptr b mem -> (n <= N.of_nat (length mem))%N) ->
    (url = true -> (4 * ((Z.of_N n + 2) / 3) <= INT_MAX)%Z) ->
    exists r w',
      l8w8jwt_base64_encode p url data n out_nn len_nn w = Ret r w' /\
      ((b_rc r = L8W8JWT_SUCCESS
        /\ exists id buf len,
             b_out r = Some (Ptr (Some id) buf) /\ b_len r = Some len
             /\ nth_error buf (N.to_nat len) = Some x00
             /\ ~ In x00 (firstn (N.to_nat len) buf)
             /\ w_live w id = false
             /\ (forall i, w_live w' i = true <-> w_live w i = true \/ i = id))
       \/ (b_rc r <> L8W8JWT_SUCCESS
           /\ (b_out r = None \/ b_out r = Some Null) /\ b_len r = None
           /\ forall i, w_live w' i = w_live w i)).
Proof.
  intros p url data n out_nn len_nn w Hp Hm Hwf Hl Hi.
  assert (Hnull : (data = Null \/ out_nn = false \/ len_nn = false)
                  \/ (exists b mem, data = Ptr b mem) /\ out_nn = true /\ len_nn = true).
  { destruct data, out_nn, len_nn; auto. right. eauto. }
  destruct Hnull as [Hnull|((b & mem & ->) & -> & ->)].
  { rewrite encode_null by auto. do 2 eexists. split; [reflexivity|]. right. cbn.
    repeat split; auto. discriminate. }
  specialize (Hl _ _ eq_refl).
  destruct (encode_cases p url b mem n w Hp Hm Hl)
    as [(_ & H)|[(_ & _ & H)|[(_ & _ & _ & H)|[(_ & _ & _ & Hu & Hbig & H)|(Hn & _ & _ & _ & rest & H & _)]]]];
    rewrite H.
  - do 2 eexists. split; [reflexivity|]. right. cbn. repeat split; auto. discriminate.
  - do 2 eexists. split; [reflexivity|]. right. cbn. repeat split; auto. discriminate.
  - do 2 eexists. split; [reflexivity|]. right. cbn. repeat split; auto. discriminate.
  - specialize (Hi Hu). lia.
  - do 2 eexists. split; [reflexivity|]. left. split; [reflexivity|].
    do 3 eexists. cbn [b_out b_len]. split; [reflexivity|]. split; [reflexivity|].
    rewrite Nat2N.id, firstn_app_exact. split.
    { rewrite nth_error_app2 by lia. rewrite Nat.sub_diag. reflexivity. }
    split; [apply text_no_nul|]. split; [apply Hwf; lia|].
    intros i. cbn [w_ok w_live]. unfold upd_live. destruct (Nat.eqb_spec i (w_next w)); intuition.
Qed.
Print Assumptions C03_encoder_buffer_safe.
Example C03_example :
  exists w', l8w8jwt_base64_encode p64 true (Ptr None (lit "ab")) 2 true true w_sample
             = Ret (B64 L8W8JWT_SUCCESS
                     (Some (Ptr (Some 1%nat) (lit "YWI" ++ [x00; x00; xff; xff])))
                     (Some 3%N)) w'.
Proof. eexists. vm_compute. reflexivity. Qed.

(** ** C04 *)
(** OVERFLOW exactly when 4*n is not representable, and then nothing at all happens; on success
    the allocation has the mathematically exact (unwrapped) size. *)
Theorem C04_encoder_overflow_exact :
  forall p url b mem n w,
    (6 <= p_size_bits p)%N -> (0 < n)%N -> (n < size_mod p)%N ->
    (n <= N.of_nat (length mem))%N ->
    ((exists r w', l8w8jwt_base64_encode p url (Ptr b mem) n true true w = Ret r w'
                   /\ b_rc r = L8W8JWT_OVERFLOW) <-> (size_mod p <= 4 * n)%N)
    /\ (forall r w', l8w8jwt_base64_encode p url (Ptr b mem) n true true w = Ret r w' ->
         (b_rc r = L8W8JWT_OVERFLOW -> r = B64 L8W8JWT_OVERFLOW None None /\ w' = w)
         /\ (b_rc r = L8W8JWT_SUCCESS ->
             exists blk buf, b_out r = Some (Ptr blk buf)
             /\ N.of_nat (length buf) = (4 * n / 3 + 4 + (4 * n / 3 + 4) / 72 + 1)%N)).
Proof.
  intros p url b mem n w Hp Hn Hm Hl.
  destruct (encode_cases p url b mem n w Hp Hm Hl)
    as [(H0 & _)|[(_ & H4 & H)|[(_ & H4 & _ & H)|[(_ & H4 & _ & Hu & Hbig & H)|(_ & H4 & _ & _ & rest & H & Hlen)]]]];
    [lia| | | |]; rewrite H.
  - split.
    + split; [lia|]. intros _. do 2 eexists. split; [reflexivity|reflexivity].
    + intros r w' E. inversion E; subst. split; [auto|discriminate].
  - split.
    + split; [|lia]. intros (r & w' & E & Hrc). inversion E; subst. discriminate.
    + intros r w' E. inversion E; subst. split; discriminate.
  - split.
    + split; [|lia]. intros (r & w' & E & Hrc). discriminate.
    + intros r w' E. discriminate.
  - split.
    + split; [|lia]. intros (r & w' & E & Hrc). inversion E; subst. discriminate.
    + intros r w' E. inversion E; subst. split; [discriminate|]. intros _.
      do 2 eexists. split; [reflexivity|]. rewrite Hlen, b64_olen_nowrap by auto. cbv zeta. lia.
Qed.
Print Assumptions C04_encoder_overflow_exact.
(** A concrete overflowing length on a 32-bit platform (any memory contents). *)
Example C04_example :
  let p32 := Platform 32 true false true true in
  forall b mem, l8w8jwt_base64_encode p32 true (Ptr b mem) 1073741824 true true w_sample
                = Ret (B64 L8W8JWT_OVERFLOW None None) w_sample.
Proof. intros. reflexivity. Qed.

(** ** C05 *)
(** Refuted: 3*2^29 bytes in url mode overflow the int [line_length] on a 64-bit platform. *)
Theorem C05_encoder_defined_refuted :
  exists p url b mem n w,
    (6 <= p_size_bits p)%N /\ (0 < n)%N /\ (n <= N.of_nat (length mem))%N
    /\ (n * 4 < size_mod p)%N
    /\ l8w8jwt_base64_encode p url (Ptr b mem) n true true w = Undef SignedOverflow.
Proof.
  exists p64, true, None, (repeat x00 (N.to_nat (3 * 2 ^ 29))), (3 * 2 ^ 29)%N, w_sample.
  assert (Hl : (3 * 2 ^ 29 <= N.of_nat (length (repeat x00 (N.to_nat (3 * 2 ^ 29)))))%N)
    by (rewrite repeat_length, N2Nat.id; apply N.le_refl).
  split; [discriminate|]. split; [reflexivity|]. split; [exact Hl|]. split; [reflexivity|].
  apply encode_overflow_ub; [discriminate|reflexivity|exact Hl|reflexivity|reflexivity|reflexivity].
Qed.
Print Assumptions C05_encoder_defined_refuted.
(** The exact boundary: for a readable non-empty input whose size fits, the call is defined if
    and only if not (url mode, allocation succeeded, more than INT_MAX output characters). *)
Theorem C05_encoder_defined_partial :
  forall p url b mem n w,
    (6 <= p_size_bits p)%N -> (0 < n)%N -> (n < size_mod p)%N ->
    (n <= N.of_nat (length mem))%N -> (n * 4 < size_mod p)%N ->
    ((exists r w', l8w8jwt_base64_encode p url (Ptr b mem) n true true w = Ret r w')
     <-> (url = true -> w_alloc w (w_next w) = true -> (4 * ((Z.of_N n + 2) / 3) <= INT_MAX)%Z)).
Proof.
  intros p url b mem n w Hp Hn Hm Hl H4'.
  destruct (encode_cases p url b mem n w Hp Hm Hl)
    as [(H0 & _)|[(_ & H4 & H)|[(_ & H4 & Ha & H)|[(_ & H4 & Ha & Hu & Hbig & H)|(_ & H4 & Ha & Hi & rest & H & Hlen)]]]];
    [lia|lia| | |]; rewrite H.
  - split; [intros _ _ E; congruence|eauto].
  - split; [intros (r & w' & E); discriminate|]. intros Hc. specialize (Hc Hu Ha). lia.
  - split; [auto|eauto].
Qed.
Print Assumptions C05_encoder_defined_partial.
(** In particular it never happens where size_t has 32 bits. *)
Corollary C05_encoder_defined_32bit_partial :
  forall p url b mem n w,
    p_size_bits p = 32%N -> (0 < n)%N -> (n < size_mod p)%N -> (n <= N.of_nat (length mem))%N ->
    exists r w', l8w8jwt_base64_encode p url (Ptr b mem) n true true w = Ret r w'.
Proof.
  intros p url b mem n w Hp Hn Hm Hl. unfold size_mod in *. rewrite Hp in *.
  destruct (N.ltb_spec (n * 4) (2 ^ 32)).
  - apply C05_encoder_defined_partial; unfold size_mod; rewrite ?Hp; auto; try lia.
    intros _ _. change (2 ^ 32)%N with 4294967296%N in *. unfold INT_MAX.
    enough (Z.of_N n < 1073741824)%Z by lia. lia.
  - rewrite encode_size_overflow; eauto; unfold size_mod; rewrite ?Hp; auto; lia.
Qed.
Print Assumptions C05_encoder_defined_32bit_partial.

(** ** C06 *)
Theorem C06_decoder_memory_safe :
  forall url data n out_nn len_nn w,
    wf w ->
    (forall b mem, data = Ptr b mem -> (n <= N.of_nat (length mem))%N) ->
    exists r w',
      (* always defined: no access outside an object, no bad free *)
      l8w8jwt_base64_decode url data n out_nn len_nn w = Ret r w' /\ wf w' /\
      (* nothing behind the first n bytes is looked at *)
      (forall b mem, data = Ptr b mem ->
         l8w8jwt_base64_decode url (Ptr b (firstn (N.to_nat n) mem)) n out_nn len_nn w = Ret r w') /\
      (* errors leave nothing allocated, success exactly the new output block *)
      ((b_rc r <> L8W8JWT_SUCCESS /\ (b_out r = None \/ b_out r = Some Null) /\ b_len r = None
        /\ forall i, w_live w' i = w_live w i)
       \/ (b_rc r = L8W8JWT_SUCCESS
           /\ exists id buf, b_out r = Some (Ptr (Some id) buf) /\ w_live w id = false
              /\ forall i, w_live w' i = true <-> w_live w i = true \/ i = id)).
Proof.
  intros url data n out_nn len_nn w Hwf Hl.
  assert (Hnull : (data = Null \/ out_nn = false \/ len_nn = false)
                  \/ (exists b mem, data = Ptr b mem) /\ out_nn = true /\ len_nn = true).
  { destruct data, out_nn, len_nn; auto. right. eauto. }
  destruct Hnull as [Hnull|((b & mem & ->) & -> & ->)].
  { exists (B64 L8W8JWT_NULL_ARG None None), w.
    split; [apply decode_null; auto|]. split; [auto|]. split.
    - intros b mem ->. apply decode_null. destruct Hnull as [H|H]; [discriminate|auto].
    - left. cbn. repeat split; auto. discriminate. }
  specialize (Hl _ _ eq_refl).
  destruct (decode_cases url b mem n w Hwf Hl) as (r & w' & H & Hwf' & Hc).
  exists r, w'. split; [exact H|]. split; [exact Hwf'|]. split.
  { intros b' mem' E. inversion E; subst. rewrite <- decode_firstn by auto. exact H. }
  destruct Hc as [Hc|(Hrc & Ha & -> & Hn & Hb & o & lf & z & Hd & Hz & Ho & Hlen)]; [left; exact Hc|].
  right. split; [exact Hrc|]. do 2 eexists. split; [exact Ho|]. split; [apply Hwf; lia|].
  intros i. cbn [w_ok w_live]. unfold upd_live. destruct (Nat.eqb_spec i (w_next w)); intuition.
Qed.
Print Assumptions C06_decoder_memory_safe.
Example C06_example :
  exists w', l8w8jwt_base64_decode true (Ptr None (lit "A===B")) 5 true true w_sample
             = Ret (B64 L8W8JWT_INVALID_ARG None None) w'
  /\ exists w'', l8w8jwt_base64_decode true (Ptr None (lit "A===")) 4 true true w_sample
             = Ret (B64 L8W8JWT_INVALID_ARG (Some Null) None) w''.
Proof. eexists. split; [|eexists]; vm_compute; reflexivity. Qed.

(** ** C07 *)
Definition symbols_in (url : bool) (s : bytes) : nat :=
  length (filter (fun c => existsb (Byte.eqb c) (rfc4648_alphabet url) || Byte.eqb c x3d) s).
Theorem C07_decoder_never_empty :
  forall url b mem n w r w',
    wf w -> (n <= N.of_nat (length mem))%N ->
    l8w8jwt_base64_decode url (Ptr b mem) n true true w = Ret r w' ->
    b_rc r = L8W8JWT_SUCCESS ->
    exists len, b_len r = Some (N.of_nat len)
      /\ (1 <= len <= 3 * ((symbols_in url (firstn (N.to_nat n) mem) + 3) / 4))%nat.
Proof.
  intros url b mem n w r w' Hwf Hl Hc Hrc.
  destruct (decode_cases url b mem n w Hwf Hl) as (r' & w'' & H & Hwf' & Hcs).
  rewrite H in Hc. inversion Hc; subst. clear Hc.
  destruct Hcs as [(Hc & _)|(_ & Ha & -> & Hn & Hb & o & lf & z & Hd & Hz & Ho & Hlen)];
    [contradiction|].
  exists (length o). split; [exact Hlen|].
  pose proof (dec_len_bound _ _ _ _ Hb Hd) as Hbd.
  rewrite syms_strip, syms_in in Hbd. exact Hbd.
Qed.
Print Assumptions C07_decoder_never_empty.
Example C07_example :
  exists w' buf, l8w8jwt_base64_decode true (Ptr None (lit "AAB")) 3 true true w_sample
                 = Ret (B64 L8W8JWT_SUCCESS (Some buf) (Some 2%N)) w'.
Proof. do 2 eexists. vm_compute. reflexivity. Qed.

(** ** C08 *)
(** Refuted: foreign characters are skipped, so A*A.=  decodes like AAA or AA==. *)
Theorem C08_decoder_rejects_foreign_refuted :
  exists url b s w r w',
    (exists c, In c s /\ ~ In c (rfc4648_alphabet url) /\ c <> x3d)
    /\ l8w8jwt_base64_decode url (Ptr b s) (N.of_nat (length s)) true true w = Ret r w'
    /\ b_rc r = L8W8JWT_SUCCESS.
Proof.
  exists true, None, (lit "A*A.A"), w_sample. do 2 eexists. split.
  - exists x2a. split; [right; left; reflexivity|]. split; [|discriminate].
    vm_compute. intuition discriminate.
  - split; [vm_compute; reflexivity|reflexivity].
Qed.
Print Assumptions C08_decoder_rejects_foreign_refuted.
(** What holds instead, exactly: the result is that of the text with the foreign characters
    removed; an input without any alphabet or padding character is rejected; so is one with 4k+1
    such characters, or (standard alphabet) with a number not divisible by four. *)
Definition known_char (url : bool) (c : byte) : bool :=
  existsb (Byte.eqb c) (rfc4648_alphabet url) || Byte.eqb c x3d.
Theorem C08_decoder_skips_foreign_partial :
  forall url b s w, wf w ->
    let t := filter (known_char url) s in
    (t <> [] ->
       l8w8jwt_base64_decode url (Ptr b s) (N.of_nat (length s)) true true w
       = l8w8jwt_base64_decode url (Ptr b t) (N.of_nat (length t)) true true w)
    /\ (t = [] \/ (length t mod 4 = 1)%nat \/ (url = false /\ (length t mod 4 <> 0)%nat) ->
        l8w8jwt_base64_decode url (Ptr b s) (N.of_nat (length s)) true true w
        = Ret (B64 L8W8JWT_INVALID_ARG None None) w).
Proof.
  intros url b s w Hwf t.
  pose proof (decode_only_symbols url b s w Hwf) as H. cbv zeta in H.
  change (filter (in_alphabet url) s) with t in H. split.
  - intros Ht. rewrite H. destruct t; [congruence|reflexivity].
  - intros Hc.
    assert (Hs : s = [] \/ (0 < N.of_nat (length s))%N) by (destruct s; [auto|right; simpl; lia]).
    destruct Hs as [->|Hs]; [reflexivity|].
    rewrite base64_decode_fun by (auto; lia).
    rewrite Nat2N.id, firstn_all, syms_strip, syms_in.
    change (filter (in_alphabet url) s) with t.
    assert (E : bad_count url (length t) = true).
    { unfold bad_count. destruct Hc as [->|[E|[-> E]]]; [reflexivity| |].
      - rewrite E. simpl. rewrite orb_true_r. reflexivity.
      - destruct (Nat.eqb_spec (length t mod 4) 0); [lia|]. simpl. apply orb_true_r. }
    rewrite E. reflexivity.
Qed.
Print Assumptions C08_decoder_skips_foreign_partial.
Example C08_example :
  l8w8jwt_base64_decode true (Ptr None (lit "**. .")) 5 true true w_sample
  = Ret (B64 L8W8JWT_INVALID_ARG None None) w_sample.
Proof. vm_compute. reflexivity. Qed.

(** ** C09 *)
(** Refuted: the non-canonical text AAB decodes to two bytes followed by 0x40. *)
Theorem C09_decoded_nul_terminated_refuted :
  exists url b s w buf len w' blk,
    l8w8jwt_base64_decode url (Ptr b s) (N.of_nat (length s)) true true w
    = Ret (B64 L8W8JWT_SUCCESS (Some (Ptr blk buf)) (Some len)) w'
    /\ nth_error buf (N.to_nat len) = Some x40.
Proof.
  exists true, None, (lit "AAB"), w_sample. do 4 eexists.
  split; [vm_compute; reflexivity|reflexivity].
Qed.
Print Assumptions C09_decoded_nul_terminated_refuted.
(** The byte behind the output is always inside the buffer; it is zero whenever the significant
    characters are the canonical encoding of some bytes [t] (padded, or url and unpadded), and
    then the output is [t]. *)
Theorem C09_decoded_nul_terminated_partial :
  forall url b mem n w r w',
    wf w -> (n <= N.of_nat (length mem))%N ->
    l8w8jwt_base64_decode url (Ptr b mem) n true true w = Ret r w' ->
    b_rc r = L8W8JWT_SUCCESS ->
    exists blk buf len, b_out r = Some (Ptr blk buf) /\ b_len r = Some (N.of_nat len)
      /\ (exists x, nth_error buf len = Some x)
      /\ (forall t, filter (known_char url) (firstn (N.to_nat n) mem) = rfc4648_padded url t
                    \/ url = true /\ filter (known_char url) (firstn (N.to_nat n) mem)
                                     = rfc4648_unpadded url t ->
                    nth_error buf len = Some x00 /\ firstn len buf = t).
Proof.
  intros url b mem n w r w' Hwf Hl Hc Hrc.
  destruct (decode_cases url b mem n w Hwf Hl) as (r' & w'' & H & Hwf' & Hcs).
  rewrite H in Hc. inversion Hc; subst. clear Hc.
  destruct Hcs as [(Hc & _)|(_ & Ha & -> & Hn & Hb & o & lf & z & Hd & Hz & Ho & Hlen)];
    [contradiction|].
  do 2 eexists. exists (length o). split; [exact Ho|]. split; [exact Hlen|].
  pose proof (dec_room _ _ _ _ _ eq_refl Hb Hd) as Hroom.
  assert (Hz1 : (1 <= z)%nat) by lia. clear Hz.
  rewrite nth_error_app2 by lia. rewrite Nat.sub_diag. split.
  - destruct lf; [destruct z; [lia|]|]; simpl; eauto.
  - intros t Ht. rewrite firstn_app_exact.
    rewrite syms_strip, syms_in in Hd.
    change (in_alphabet url) with (known_char url) in Hd.
    assert (E : exists k, Some (o, lf) = Some (t, repeat x00 k)).
    { destruct Ht as [Ht|[-> Ht]]; rewrite Ht in Hd; rewrite <- Hd;
        [apply dec_all_padded|apply dec_all_unpadded]. }
    destruct E as (k & E). inversion E; subst. split; auto.
    destruct k; [destruct z; [lia|reflexivity]|reflexivity].
Qed.
Print Assumptions C09_decoded_nul_terminated_partial.
Example C09_example :
  exists w', l8w8jwt_base64_decode true (Ptr None (lit "YWI")) 3 true true w_sample
             = Ret (B64 L8W8JWT_SUCCESS (Some (Ptr (Some 1%nat) (lit "ab" ++ repeat x00 14)))
                        (Some 2%N)) w'
             /\ filter (known_char true) (lit "YWI") = rfc4648_unpadded true (lit "ab").
Proof. eexists. split; vm_compute; reflexivity. Qed.
