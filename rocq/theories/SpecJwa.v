(** * Specification: JSON Web Algorithms (RFC 7518, 8037, 8812), written against the record of
    external functions only. *)
From Verif Require Import Base SpecJson Env.

Inductive family :=
| HS                                                (* HMAC *)
| RS                                                (* RSASSA-PKCS1-v1_5 *)
| PS                                                (* RSASSA-PSS *)
| ES (curve : ecp_group) (bits : N) (width : nat)   (* ECDSA: curve, key bits, bytes of r and s *)
| ED.                                               (* Ed25519 *)

Record jwa := Jwa { j_id : Z; j_name : bytes; j_family : family; j_hash : md }.

(** The fourteen algorithm ids of include/l8w8jwt/algs.h and what the RFCs say about the names. *)
Definition jwa_table : list jwa :=
  [ Jwa 0 (lit "HS256") HS SHA256; Jwa 1 (lit "HS384") HS SHA384; Jwa 2 (lit "HS512") HS SHA512;
    Jwa 3 (lit "RS256") RS SHA256; Jwa 4 (lit "RS384") RS SHA384; Jwa 5 (lit "RS512") RS SHA512;
    Jwa 6 (lit "PS256") PS SHA256; Jwa 7 (lit "PS384") PS SHA384; Jwa 8 (lit "PS512") PS SHA512;
    Jwa 9 (lit "ES256") (ES SECP256R1 256 32) SHA256;
    Jwa 10 (lit "ES384") (ES SECP384R1 384 48) SHA384;
    Jwa 11 (lit "ES512") (ES SECP521R1 521 66) SHA512;
    Jwa 12 (lit "ES256K") (ES SECP256K1 256 32) SHA256;
    Jwa 13 (lit "EdDSA") ED SHA512 ].
Definition supported (alg : Z) (j : jwa) : Prop := In j jwa_table /\ j_id j = alg.

(** The caller's key bytes as an HMAC key (one terminating NUL is not part of it) and as text for
    the PEM parsers (with a terminating NUL). *)
Definition hmac_key (k : bytes) : bytes := if is_nul (last k x01) then removelast k else k.
Definition pem_text (k : bytes) : bytes := if is_nul (last k x01) then k else k ++ [x00].

(** Big-endian number of a byte string. *)
Fixpoint big_endian (s : bytes) : N :=
  match s with [] => 0 | c :: t => (b2n c * 256 ^ N.of_nat (length t) + big_endian t)%N end.

(** Two hexadecimal digits per byte. *)
Fixpoint unhex (s : bytes) : option bytes :=
  match s with
  | [] => Some []
  | a :: b :: t =>
      match hexdig a, hexdig b, unhex t with
      | Some x, Some y, Some r => Some (n2b (16 * x + y) :: r)
      | _, _, _ => None
      end
  | [_] => None
  end.

(** ** Signing. [sig] is what algorithm [j] produces for [msg] with the caller's key bytes [k]
    (and password). Besides the calls made it says which keys are acceptable. *)
Definition signed_by (e : env) (j : jwa) (k : bytes) (pw : ptr) (pwl : N) (msg sig : bytes)
  : Prop :=
  let h := j_hash j in
  let private key := e_parse_key e (pem_text k) pw pwl = Some key in
  let digest d := exists d0, e_md e h msg = Some d0 /\ d = fit (md_size h) d0 in
  match j_family j with
  | HS => exists mac, e_hmac e h (hmac_key k) msg = Some mac /\ sig = fit (md_size h) mac
  | RS => exists key d s, private key /\ digest d
      /\ (e_can_do e key PK_RSA = true \/ e_can_do e key PK_RSA_ALT = true)
      /\ (2048 <= e_bitlen e key)%N
      /\ e_pk_sign e key h d = Some s /\ sig = firstn (N.to_nat 4096) s
  | PS => exists key d s, private key /\ digest d
      /\ e_can_do e key PK_RSASSA_PSS = true /\ e_pk_rsa e key = true
      /\ (2048 <= e_bitlen e key)%N
      /\ e_pss_sign e key h d = Some s
      /\ sig = fit (e_bitlen e key / 8) (fit (e_rsa_len e key) s)
  | ES curve bits width => exists key d r s, private key /\ digest d
      /\ e_can_do e key PK_ECDSA = true /\ e_pk_ec e key = true
      /\ e_group e key = curve /\ e_bitlen e key = bits
      /\ e_ecdsa_sign e key d = Some (r, s)
      /\ length sig = (2 * width)%nat
      /\ big_endian (firstn width sig) = r /\ big_endian (skipn width sig) = s
  | ED => exists hx, (k = hx \/ k = hx ++ [x00]) /\ length hx = 128%nat
      /\ length sig = 64%nat
      /\ forall kb, unhex hx = Some kb -> sig = fit 64 (e_ed_sign e msg kb)
  end.

(** ** Verifying. *)
(** The C string at the start of [k]. *)
Fixpoint before_nul (k : bytes) : bytes :=
  match k with [] => [] | c :: t => if is_nul c then [] else c :: before_nul t end.
Definition certificate (k : bytes) : Prop :=
  exists a b, before_nul k = a ++ lit "-----BEGIN CERTIFICATE-----" ++ b.
(** The public key the caller's key bytes stand for: that of a PEM certificate, or a PEM key. *)
Definition public_key_of (e : env) (k : bytes) (key : pk) : Prop :=
  (certificate k /\ e_x509_parse e (pem_text k) = Some key)
  \/ (~ certificate k /\ e_parse_public_key e (pem_text k) = Some key).

(** [verified_by e j k msg sig]: the signature [sig] passes the verification of algorithm [j] over
    [msg] with the caller's key bytes [k]. *)
Definition verified_by (e : env) (j : jwa) (k msg sig : bytes) : Prop :=
  let h := j_hash j in
  let digest d := exists d0, e_md e h msg = Some d0 /\ d = fit (md_size h) d0 in
  match j_family j with
  | HS => exists mac, e_hmac e h (hmac_key k) msg = Some mac /\ sig = fit (md_size h) mac
  | RS => exists key d, public_key_of e k key /\ digest d /\ e_pk_verify e key h d sig = true
  | PS => exists key d, public_key_of e k key /\ digest d /\ e_pk_rsa e key = true
      /\ N.of_nat (length sig) = e_rsa_len e key /\ e_pss_verify e key h d sig = true
  | ES _ _ _ => exists key d r s, public_key_of e k key /\ digest d /\ e_pk_ec e key = true
      /\ sig = r ++ s /\ length r = length s
      /\ e_ecdsa_verify e key d (big_endian r) (big_endian s) = true
  | ED => exists hx kb, (k = hx \/ k = hx ++ [x00]) /\ length hx = 64%nat /\ unhex hx = Some kb
      /\ length sig = 64%nat /\ e_ed_verify e sig msg kb = true
  end.

(** The signature bytes the algorithm looks at when [sig] is followed by [tail] in memory; equal
    to [sig] if it has the right length. *)
Definition signature_read (e : env) (j : jwa) (k sig tail looked : bytes) : Prop :=
  match j_family j with
  | HS => looked = firstn (N.to_nat (md_size (j_hash j))) (sig ++ tail)
  | RS => looked = sig
  | PS => exists key, public_key_of e k key /\ looked = firstn (N.to_nat (e_rsa_len e key)) (sig ++ tail)
  | ES _ _ _ => looked = firstn (2 * (length sig / 2)) sig
  | ED => looked = firstn 64 (sig ++ tail)
  end.
(** An Ed25519 key consists of hex digits and possibly a terminator. *)
Definition hex_if_ed (j : jwa) (k : bytes) : Prop :=
  j_family j = ED -> exists hx kb, (k = hx \/ k = hx ++ [x00]) /\ unhex hx = Some kb.
