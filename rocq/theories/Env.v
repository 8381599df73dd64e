(** * The external functions the code calls, as a record of arbitrary functions.

    mbedtls, ed25519, checknum and jsmn are empty submodules in /repo. Theorems quantify over every
    [env]; what they additionally assume about one is stated in the theorem. Functions are
    deterministic in their arguments; every one is called at most once per API call with given
    arguments, so this is no restriction (a random signature is an arbitrary value). A key context
    is an abstract handle ([nat]). [None] / [false] stands for a non-zero mbedtls return code. *)
From Verif Require Import Base Jsmn.

Inductive md := SHA256 | SHA384 | SHA512.
(** Digest sizes in bytes (FIPS 180-4). *)
Definition md_size (m : md) : N := match m with SHA256 => 32 | SHA384 => 48 | SHA512 => 64 end.

Inductive pk_type := PK_RSA | PK_RSA_ALT | PK_RSASSA_PSS | PK_ECDSA.
Inductive ecp_group := SECP256R1 | SECP384R1 | SECP521R1 | SECP256K1 | OtherGroup.
Definition ecp_group_eqb (a b : ecp_group) : bool :=
  match a, b with
  | SECP256R1, SECP256R1 | SECP384R1, SECP384R1 | SECP521R1, SECP521R1
  | SECP256K1, SECP256K1 | OtherGroup, OtherGroup => true
  | _, _ => false
  end.

Definition pk := nat.

Record env := Env {
  e_seed_ok : bool;                                   (* mbedtls_ctr_drbg_seed succeeds *)
  e_hmac : md -> bytes -> bytes -> option bytes;      (* mbedtls_md_hmac: key, message *)
  e_md : md -> bytes -> option bytes;                 (* mbedtls_md *)
  e_parse_key : bytes -> ptr -> N -> option pk;       (* mbedtls_pk_parse_key: key, pw, pwlen *)
  e_parse_public_key : bytes -> option pk;            (* mbedtls_pk_parse_public_key *)
  e_x509_parse : bytes -> option pk;                  (* mbedtls_x509_crt_parse, then crt.pk *)
  e_can_do : pk -> pk_type -> bool;                   (* mbedtls_pk_can_do *)
  e_bitlen : pk -> N;                                 (* mbedtls_pk_get_bitlen *)
  e_pk_sign : pk -> md -> bytes -> option bytes;      (* mbedtls_pk_sign: at most 4096 bytes *)
  e_pk_verify : pk -> md -> bytes -> bytes -> bool;   (* mbedtls_pk_verify: hash, signature *)
  e_pk_rsa : pk -> bool;                              (* mbedtls_pk_rsa(pk) != NULL *)
  e_rsa_len : pk -> N;                                (* modulus size in bytes *)
  e_pss_sign : pk -> md -> bytes -> option bytes;     (* mbedtls_rsa_rsassa_pss_sign *)
  e_pss_verify : pk -> md -> bytes -> bytes -> bool;  (* mbedtls_rsa_rsassa_pss_verify *)
  e_pk_ec : pk -> bool;                               (* mbedtls_pk_ec(pk) != NULL *)
  e_ecdsa_from_keypair : pk -> bool;
  e_group : pk -> ecp_group;                          (* ecdsa.grp.id *)
  e_ecdsa_sign : pk -> bytes -> option (N * N);       (* (r, s) *)
  e_ecdsa_verify : pk -> bytes -> N -> N -> bool;
  e_ed_sign : bytes -> bytes -> bytes;                (* ed25519_sign_ref10: message, private key *)
  e_ed_verify : bytes -> bytes -> bytes -> bool;      (* signature, message, public key *)
  e_time : Z;                                         (* time(NULL) *)
  e_checknum : bytes -> Z;
  e_jsmn : bytes -> option Z -> Z * list tok;         (* jsmn_parse on a fresh parser *)
  e_tok_junk : Z -> tok                               (* indeterminate content of the token array *)
}.

(** The tokenizer is jsmn as modelled in Jsmn.v. *)
Definition uses_jsmn (e : env) : Prop := forall js cap, e_jsmn e js cap = jsmn_parse js cap.

(** A fixed-size output buffer after an external function wrote [s] to its start: exactly [n]
    bytes, the rest zero (every such buffer is zero-initialised by the code). *)
Definition fit (n : N) (s : bytes) : bytes :=
  firstn (N.to_nat n) (s ++ repeat x00 (N.to_nat n)).

(** mbedtls_mpi_write_binary: big-endian, exactly [n] bytes; fails if the number does not fit. *)
Fixpoint be_bytes (n : nat) (x : N) : bytes :=
  match n with O => [] | S k => be_bytes k (x / 256) ++ [n2b x] end.
Definition mpi_write_binary (x : N) (n : nat) : option bytes :=
  if (x <? 256 ^ N.of_nat n)%N then Some (be_bytes n x) else None.
(** mbedtls_mpi_read_binary: big-endian. *)
Definition mpi_read_binary (s : bytes) : N := fold_left (fun a b => (a * 256 + b2n b)%N) s 0%N.
