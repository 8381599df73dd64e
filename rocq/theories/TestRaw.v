(** * Model of the tests in /repo/tests/tests.c that do more than issue a token and decode it: the one that calls
    the three decode functions one after the other, and those that start with a fixed token *)
From Verif Require Import Base Util Claim Jsmn Env Encode Decode Examples Tests ArgTests.

(** [*q]: a NULL or dangling pointer is undefined behaviour. *)
Definition first_char (q : ptr) : M byte :=
  fun w =>
    match q with
    | Ptr (Some id) m => if w_live w id then lift (read_at m 0) w else Undef OOBRead
    | Ptr None m => lift (read_at m 0) w
    | Null => Undef NullDeref
    end.
(** A variable for a length after a call. *)
Definition len_var (old : N) (s : option seg) : N := match s with Some s => s_len s | None => old end.
(** tests.c:1372-1379 and 1383-1389: the assertions on the three parts, each ending the test if it does not hold (as
    acutest has it), and the calls of free. *)
Definition parts_asserted (header payload signature : ptr) (signature_length : N) : M bool :=
  h <- first_char header ;;
  if negb (Byte.eqb h x7b (* { *)) then mret false
  else q <- first_char payload ;;
       if negb (Byte.eqb q x7b) then mret false
       else if (signature_length =? 0)%N then mret false
       else _ <- free header ;; _ <- free payload ;; _ <- free signature ;; mret true.
(** tests.c:1362-1389: the rest of the test after l8w8jwt_decode. The variables keep the freed pointers
    between the two calls, and [validation_result] is what l8w8jwt_decode wrote to it ([verdict]). *)
Definition raw_rest (p : platform) (e : env) (dp : dec_params) (verdict : N) : M bool :=
  r2 <- l8w8jwt_decode_raw_no_validation p (Some dp) true true true true true true ;;
  let header := seg_var Null (rr_header r2) in
  let payload := seg_var Null (rr_payload r2) in
  let signature := seg_var Null (rr_signature r2) in
  let signature_length := len_var 0 (rr_signature r2) in
  if negb (rr_rc r2 =? L8W8JWT_SUCCESS)%Z then mret false
  else ok2 <- parts_asserted header payload signature signature_length ;;
  if negb ok2 then mret false
  else r3 <- l8w8jwt_decode_raw p e (Some dp) true true true true true true true ;;
  if negb (rr_rc r3 =? L8W8JWT_SUCCESS)%Z then mret false
  else if negb (match rr_valid r3 with Some v => v | None => verdict end =? L8W8JWT_VALID)%N then mret false
  else parts_asserted (seg_var header (rr_header r3)) (seg_var payload (rr_payload r3)) (seg_var signature (rr_signature r3))
         (len_var signature_length (rr_signature r3)).
(** tests.c:1327-1392, with the parameters of [valid_signature_rs256] (tests.c:1329-1355). The readings of the clock: the
    first in l8w8jwt_decode, the second in l8w8jwt_decode_raw. *)
Definition run_rs256 (p : platform) (e : env) (keys : string -> bytes) (c : clock) : M bool :=
  let a := Asking L8W8JWT_ALG_RS256 (Named "RSA_PUBLIC_KEY") None None None None None None None None false Valid in
  r <- l8w8jwt_encode p e (Some (issue_params keys c (t_issue valid_signature_rs256))) ;;
  if (er_rc r =? L8W8JWT_SUCCESS)%Z
  then match er_out r, er_len r with
       | Some jwt, Some n =>
           ok <- ask p (with_clock e (at_asking c 0)) keys jwt n a ;;
           if negb ok then mret false
           else ok <- raw_rest p (with_clock e (at_asking c 1)) (asking_params keys jwt n a) L8W8JWT_VALID ;;
           if negb ok then mret false else _ <- free jwt ;; mret true
       | _, _ => mub UninitUse
       end
  else mret false.

(** tests.c:475, 528 and 581: the parts of the fixed tokens, and the algorithm they are decoded with. *)
Record fixed := Fixed { f_alg : Z; f_header : string; f_signature : string }.
Arguments Fixed f_alg%Z f_header%string f_signature%string.
Definition fixed_payload : string := "eyJzdWIiOiIxMjM0NTY3ODkwIiwibmFtZSI6IkpvaG4gRG9lIiwiaWF0IjoxNTE2MjM5MDIyfQ"%string.
Definition fixed_message (f : fixed) : bytes := lit (f_header f) ++ lit "." ++ lit fixed_payload.
Definition fixed_token (f : fixed) : bytes := lit (f_header f) ++ lit "." ++ lit fixed_payload ++ lit "." ++ lit (f_signature f).
Definition fixed_hs256 : fixed := Fixed L8W8JWT_ALG_HS256 "eyJhbGciOiJIUzI1NiIsInR5cCI6IkpXVCJ9" "7eMe1dyoNm0xNvZnT5asc7wo3uj412WPFukRKFfKjdk".
Definition fixed_hs384 : fixed :=
  Fixed L8W8JWT_ALG_HS384 "eyJhbGciOiJIUzM4NCIsInR5cCI6IkpXVCJ9" "NCrZ423t7J3jlUIS7vVLpYhMiM8hN-Maj2yuRKRiuBhoEtDWX25t-j5Yh-kkNhNZ".
Definition fixed_hs512 : fixed :=
  Fixed L8W8JWT_ALG_HS512 "eyJhbGciOiJIUzUxMiIsInR5cCI6IkpXVCJ9"
    "f7QsyR0cLva8oq6Wz_PEN9tI5KajMdahsYOTcdSM8ODJSkOcCg9az5lOLCwV-pGKD544c07u4V7uby-D9Bkwog".
(** tests.c:465-479 (518-532, 571-585): the fixed token is decoded, with the claims. [validation_result] is -1
    before the call, which has every flag. The return code is compared with L8W8JWT_VALID, which is 0, too. *)
Definition fixed_params (f : fixed) : dec_params :=
  set_dec (f_alg f) (Ptr None (fixed_token f ++ [x00])) (N.of_nat (length (fixed_token f))) (literal "test key") 8.
Definition run_fixed (p : platform) (e : env) (f : fixed) : M bool :=
  r <- l8w8jwt_decode p e (Some (fixed_params f)) true true true ;;
  if (dr_rc r =? Z.of_N L8W8JWT_VALID)%Z
  then mret (match dr_valid r with Some v => verdict_wanted (Flagged L8W8JWT_SIGNATURE_VERIFICATION_FAILURE) v | None => true end)
  else mret false.
(** tests.c:463-514 (516-567, 569-620): the test as a whole. *)
Definition run_hmac_test (p : platform) (e : env) (keys : string -> bytes) (c : clock) (f : fixed) (t : test) : M bool :=
  ok <- run_fixed p e f ;; if ok then run_test p e keys c t else mret false.
Definition hmac_tests : list (fixed * test) :=
  [(fixed_hs256, invalid_signature_hs256); (fixed_hs384, invalid_signature_hs384); (fixed_hs512, invalid_signature_hs512)].
