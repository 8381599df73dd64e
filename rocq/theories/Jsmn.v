(** * Model of jsmn (https://github.com/zserge/jsmn), the tokenizer src/decode.c:21-27 includes.

    /repo/lib/jsmn is an empty submodule; this follows the published jsmn.h 1.1.0 compiled without
    JSMN_STRICT and without JSMN_PARENT_LINKS. The fields [size] and [toksuper] are left out: they
    influence no token's type, start or end in this configuration and l8w8jwt never reads them.
    Positions are exact integers; src/decode.c callers guard against texts of 2^31 bytes or more
    in the model (jsmn uses [int] offsets). *)
From Verif Require Import Base.

(** jsmntype_t *)
Inductive jtype := JUndefined | JObject | JArray | JString | JPrimitive.
Definition jtype_eqb (a b : jtype) : bool :=
  match a, b with
  | JUndefined, JUndefined | JObject, JObject | JArray, JArray | JString, JString
  | JPrimitive, JPrimitive => true
  | _, _ => false
  end.

(** jsmntok_t *)
Record tok := Tok { t_type : jtype; t_start : Z; t_end : Z }.
Definition tok_open (t : tok) : bool := negb (t_start t =? -1)%Z && (t_end t =? -1)%Z.

(** enum jsmnerr *)
Definition JSMN_ERROR_NOMEM : Z := -1.
Definition JSMN_ERROR_INVAL : Z := -2.
Definition JSMN_ERROR_PART : Z := -3.

Definition is_hex (b : byte) : bool :=
  let n := b2n b in
  (((48 <=? n) && (n <=? 57)) || ((65 <=? n) && (n <=? 70)) || ((97 <=? n) && (n <=? 102)))%N.

(** Result of a token scanner: an error code, or the number of bytes consumed and what remains. *)
Inductive jscan := JErr (e : Z) | JFound (n : Z) (rest : bytes).

(** jsmn_parse_string, after the opening quote. [n] bytes have been consumed; [hex] hexadecimal
    digits of a \u escape are still expected. On success [n] is the length of the string body and
    [rest] starts after the closing quote. *)
Definition is_simple_escape (b : byte) : bool :=
  match b with
  | x22 | x2f | x5c | x62 | x66 | x72 | x6e | x74 => true   (* quote, slash, backslash, b f r n t *)
  | _ => false
  end.
Fixpoint jstr (hex : nat) (l : bytes) (n : Z) : jscan :=
  match l with
  | [] => JErr JSMN_ERROR_PART
  | c :: t =>
      if is_nul c then JErr JSMN_ERROR_PART else
      match hex with
      | S h => if is_hex c then jstr h t (n + 1) else JErr JSMN_ERROR_INVAL
      | O =>
          if Byte.eqb c x22 then JFound n t
          else if Byte.eqb c x5c then
            match t with
            | [] => jstr O t (n + 1)   (* pos + 1 < len is false *)
            | e :: t' =>
                if is_simple_escape e then jstr O t' (n + 2)
                else if Byte.eqb e x75 (* u *) then jstr 4 t' (n + 2)
                else JErr JSMN_ERROR_INVAL
            end
          else jstr O t (n + 1)
      end
  end.

(** jsmn_parse_primitive (non-strict): characters that end a primitive. *)
Definition prim_end (b : byte) : bool :=
  match b with
  | x3a | x09 | x0d | x0a | x20 | x2c | x5d | x7d => true   (* : \t \r \n space , ] } *)
  | _ => false
  end.
Fixpoint jprim (l : bytes) (n : Z) : jscan :=
  match l with
  | [] => JFound n []
  | c :: t =>
      if is_nul c then JFound n l
      else if prim_end c then JFound n l
      else if (b2n c <? 32)%N || (127 <=? b2n c)%N then JErr JSMN_ERROR_INVAL
      else jprim t (n + 1)
  end.

(** jsmn_parse, case '}' / ']': close the most recent open token (the list is newest first). *)
Fixpoint close_last (ty : jtype) (e : Z) (toks : list tok) : option (list tok) :=
  match toks with
  | [] => None
  | t :: r =>
      if tok_open t
      then (if jtype_eqb (t_type t) ty then Some (Tok (t_type t) (t_start t) e :: r) else None)
      else option_map (cons t) (close_last ty e r)
  end.

(** jsmn_alloc_token + filling it: [None] = no room. [cap = None]: tokens == NULL, only count. *)
Definition push_tok (cap : option Z) (toks : list tok) (t : tok) : option (list tok) :=
  match cap with
  | None => Some toks
  | Some n => if (Z.of_nat (length toks) <? n)%Z then Some (t :: toks) else None
  end.

(** jsmn_parse: the main loop. [pos]: parser->pos; [toks]: the tokens so far, newest first. *)
Fixpoint jmain (fuel : nat) (cap : option Z) (rest : bytes) (pos : Z) (toks : list tok)
         (count : Z) : Z * list tok :=
  match fuel with
  | O => (JSMN_ERROR_PART, toks) (* unreachable: fuel = S (length rest), each step consumes *)
  | S f =>
      match rest with
      | [] => (count, toks)
      | c :: t =>
          match c with
          | x00 => (count, toks)
          | x7b | x5b => (* { [ *)
              let ty := if Byte.eqb c x7b then JObject else JArray in
              match push_tok cap toks (Tok ty pos (-1)) with
              | None => (JSMN_ERROR_NOMEM, toks)
              | Some toks' => jmain f cap t (pos + 1) toks' (count + 1)
              end
          | x7d | x5d => (* } ] *)
              match cap with
              | None => jmain f cap t (pos + 1) toks count
              | Some _ =>
                  let ty := if Byte.eqb c x7d then JObject else JArray in
                  match close_last ty (pos + 1) toks with
                  | None => (JSMN_ERROR_INVAL, toks)
                  | Some toks' => jmain f cap t (pos + 1) toks' count
                  end
              end
          | x22 => (* quote *)
              match jstr 0 t 0 with
              | JErr e => (e, toks)
              | JFound n r =>
                  match push_tok cap toks (Tok JString (pos + 1) (pos + 1 + n)) with
                  | None => (JSMN_ERROR_NOMEM, toks)
                  | Some toks' => jmain f cap r (pos + n + 2) toks' (count + 1)
                  end
              end
          | x09 | x0d | x0a | x20 | x3a | x2c => jmain f cap t (pos + 1) toks count
          | _ =>
              match jprim rest 0 with
              | JErr e => (e, toks)
              | JFound n r =>
                  match push_tok cap toks (Tok JPrimitive pos (pos + n)) with
                  | None => (JSMN_ERROR_NOMEM, toks)
                  | Some toks' => jmain f cap r (pos + n) toks' (count + 1)
                  end
              end
          end
      end
  end.

(** jsmn_parse on a fresh parser: [js] are the [len] bytes given. Returns the result code and the
    tokens in order. With a token array, any token left open is JSMN_ERROR_PART. *)
Definition jsmn_parse (js : bytes) (cap : option Z) : Z * list tok :=
  let '(r, toks) := jmain (S (length js)) cap js 0 [] 0 in
  if (r <? 0)%Z then (r, rev toks)
  else
    match cap with
    | None => (r, [])
    | Some _ => if existsb tok_open toks then (JSMN_ERROR_PART, rev toks) else (r, rev toks)
    end.
