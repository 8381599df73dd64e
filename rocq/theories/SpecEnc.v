(** * Specification: the members l8w8jwt_encode is asked to write *)
From Verif Require Import Base SpecJson Env SpecJwa Claim ClaimProofs Encode.

(** [given q n s] (ClaimProofs): pointer [q] with length [n] denotes the bytes [s]. *)

(** The header members every token of algorithm [j] starts with. *)
Definition string_member (name value : bytes) : member := Member name KString (quoted value).
Definition fixed_members (j : jwa) : list member :=
  [string_member (lit "alg") (j_name j); string_member (lit "typ") (lit "JWT")]
  ++ match j_family j with
     | ES SECP256K1 _ _ => [string_member (lit "kty") (lit "EC"); string_member (lit "crv") (lit "secp256k1")]
     | ED => [string_member (lit "kty") (lit "EC"); string_member (lit "crv") (lit "Ed25519")]
     | _ => []
     end.

(** The member an additional claim asks for: its key and, for a string claim, its value as JSON
    strings; any other value literally, with the whitespace around it not counted. *)
Definition asks_for (c : claim) (m : member) : Prop :=
  exists k v, given (c_key c) (c_key_length c) k /\ given (c_value c) (c_value_length c) v
    /\ json_body (m_key m) k
    /\ (c_type c = L8W8JWT_CLAIM_TYPE_STRING ->
          m_kind m = KString /\ exists b, json_body b v /\ m_value m = quoted b)
    /\ (c_type c <> L8W8JWT_CLAIM_TYPE_STRING ->
          json_value (m_kind m) (m_value m)
          /\ exists w1 w2, json_ws w1 /\ json_ws w2 /\ v = w1 ++ m_value m ++ w2).

(** iat / nbf / exp: absent if zero, else a decimal number. *)
Definition asks_time (name : bytes) (t : Z) (ms : list member) : Prop :=
  (t = 0%Z /\ ms = [])
  \/ (t <> 0%Z /\ exists d, ms = [Member name KNumber d] /\ json_number d /\ Forall digit d
                   /\ dec_value d = Z.to_N (t mod 2 ^ 64)).
(** sub / iss / aud / jti: absent if NULL, else a string. *)
Definition asks_string (name : bytes) (q : ptr) (n : N) (ms : list member) : Prop :=
  (q = Null /\ ms = [])
  \/ (exists v b, given q n v /\ json_body b v /\ ms = [Member name KString (quoted b)]).
Definition asks_registered (ep : enc_params) (ms : list member) : Prop :=
  exists iat nbf exp sub iss aud jti,
    ms = iat ++ nbf ++ exp ++ sub ++ iss ++ aud ++ jti
    /\ asks_time (lit "iat") (ep_iat ep) iat /\ asks_time (lit "nbf") (ep_nbf ep) nbf
    /\ asks_time (lit "exp") (ep_exp ep) exp
    /\ asks_string (lit "sub") (ep_sub ep) (ep_sub_length ep) sub
    /\ asks_string (lit "iss") (ep_iss ep) (ep_iss_length ep) iss
    /\ asks_string (lit "aud") (ep_aud ep) (ep_aud_length ep) aud
    /\ asks_string (lit "jti") (ep_jti ep) (ep_jti_length ep) jti.

(** The additional claims that take part: the first [n] of the array that have a key. *)
Definition keyed_claims (c : cptr) (n : N) : list claim :=
  match c with
  | CNull => []
  | CArr _ cs => filter (fun c => negb (is_null (c_key c))) (firstn (N.to_nat n) cs)
  end.
(** Every non-string value among them is a JSON value. *)
Definition raw_values_ok (cs : list claim) : Prop :=
  Forall (fun c => c_type c <> L8W8JWT_CLAIM_TYPE_STRING ->
    forall v, given (c_value c) (c_value_length c) v ->
    exists w1 k t w2, json_ws w1 /\ json_value k t /\ json_ws w2 /\ v = w1 ++ t ++ w2) cs.

(** The circumstances in which the code's comma logic is right. Header: a positive count comes
    with at least one claim that has a key. Payload: if there is a positive count, a comma is
    written (some time is set or some *_length is not zero) exactly when there is something on
    both sides of it. *)
Definition header_commas_ok (ep : enc_params) : Prop :=
  (0 < ep_header_claims_count ep)%N ->
  keyed_claims (ep_header_claims ep) (ep_header_claims_count ep) <> [].
Definition some_time (ep : enc_params) : Prop :=
  ep_iat ep <> 0%Z \/ ep_nbf ep <> 0%Z \/ ep_exp ep <> 0%Z.
Definition some_length (ep : enc_params) : Prop :=
  ep_iss_length ep <> 0%N \/ ep_sub_length ep <> 0%N \/ ep_jti_length ep <> 0%N
  \/ ep_aud_length ep <> 0%N.
Definition some_string (ep : enc_params) : Prop :=
  ep_sub ep <> Null \/ ep_iss ep <> Null \/ ep_aud ep <> Null \/ ep_jti ep <> Null.
Definition payload_commas_ok (ep : enc_params) : Prop :=
  (0 < ep_payload_claims_count ep)%N ->
  (some_time ep \/ some_length ep
   <-> (some_time ep \/ some_string ep)
       /\ keyed_claims (ep_payload_claims ep) (ep_payload_claims_count ep) <> []).
