(** * jsmn_parse once more, counting the iterations of its loops

    As Jsmn.v, with [toksuper] (jsmn.h 1.1.0 as compiled by src/decode.c:21-27, that is without
    JSMN_PARENT_LINKS) and a count of the iterations of the main loop, of the loops that read a string or a
    primitive, and of the loops that go back over the tokens. A scan that ends in an error is counted as if it
    had read the whole rest; it is the last one. The token array is kept newest first. *)
From Verif Require Import Base Jsmn JsmnProofs.

(** [for (i = toknext - 1; i >= 0; i--) if (found) break;]: the iterations. *)
Fixpoint back (found : tok -> bool) (toks : list tok) : N :=
  match toks with [] => 0 | t :: r => if found t then 1 else 1 + back found r end.
(** The index at which it stops, -1 if it does not. *)
Fixpoint stops_at (found : tok -> bool) (toks : list tok) : Z :=
  match toks with [] => -1 | t :: r => if found t then Z.of_nat (length r) else stops_at found r end.
(** The tokens from the most recent open one on. *)
Fixpoint from_open (toks : list tok) : list tok :=
  match toks with [] => [] | t :: r => if tok_open t then t :: r else from_open r end.
Definition is_container (t : tok) : bool := jtype_eqb (t_type t) JArray || jtype_eqb (t_type t) JObject.
Definition open_container (t : tok) : bool := is_container t && tok_open t.
(** [tokens[i]]. *)
Definition token (toks : list tok) (i : Z) : tok := nth (length toks - 1 - Z.to_nat i) toks (Tok JUndefined 0 0).
(** Case '}' / ']': the loop that finds the open token, then the one that finds the new [toksuper]; it starts at
    the token just closed. *)
Definition close_cost (toks : list tok) : N :=
  back tok_open toks + match from_open toks with [] => 0 | _ :: r => 1 + back tok_open r end.
Definition close_super (toks : list tok) : Z := stops_at tok_open (tl (from_open toks)).
(** Case ',': does the loop run? *)
Definition comma_searches (cap : option Z) (toks : list tok) (super : Z) : bool :=
  match cap with None => false | Some _ => negb (super =? -1)%Z && negb (is_container (token toks super)) end.
Definition tick {A} (k : N) (x : A * N) : A * N := (fst x, k + snd x)%N.

(** The main loop. [super]: parser->toksuper. *)
Fixpoint smain (fuel : nat) (cap : option Z) (rest : bytes) (pos : Z) (toks : list tok) (super count : Z)
  : (Z * list tok) * N :=
  match fuel with
  | O => ((JSMN_ERROR_PART, toks), 0%N)
  | S f =>
      match rest with
      | [] => ((count, toks), 0%N)
      | c :: t =>
          if is_nul c then ((count, toks), 0%N)
          else if opens c then
            match push_tok cap toks (Tok (if Byte.eqb c x7b then JObject else JArray) pos (-1)) with
            | None => ((JSMN_ERROR_NOMEM, toks), 1%N)
            | Some toks' => tick 1 (smain f cap t (pos + 1) toks' (Z.of_nat (length toks') - 1) (count + 1))
            end
          else if closes c then
            match cap with
            | None => tick 1 (smain f cap t (pos + 1) toks super count)
            | Some _ =>
                match close_last (if Byte.eqb c x7d then JObject else JArray) (pos + 1) toks with
                | None => ((JSMN_ERROR_INVAL, toks), 1 + back tok_open toks)%N
                | Some toks' => tick (1 + close_cost toks) (smain f cap t (pos + 1) toks' (close_super toks) count)
                end
            end
          else if Byte.eqb c x22 then
            match jstr 0 t 0 with
            | JErr e => ((e, toks), 1 + N.of_nat (length t))%N
            | JFound n r =>
                match push_tok cap toks (Tok JString (pos + 1) (pos + 1 + n)) with
                | None => ((JSMN_ERROR_NOMEM, toks), 2 + Z.to_N n)%N
                | Some toks' => tick (2 + Z.to_N n) (smain f cap r (pos + n + 2) toks' super (count + 1))
                end
            end
          else if Byte.eqb c x3a then tick 1 (smain f cap t (pos + 1) toks (Z.of_nat (length toks) - 1) count)
          else if Byte.eqb c x2c then
            if comma_searches cap toks super
            then tick (1 + back open_container toks)
                   (smain f cap t (pos + 1) toks (if (stops_at open_container toks =? -1)%Z then super else stops_at open_container toks) count)
            else tick 1 (smain f cap t (pos + 1) toks super count)
          else if blank c then tick 1 (smain f cap t (pos + 1) toks super count)
          else
            match jprim rest 0 with
            | JErr e => ((e, toks), 1 + N.of_nat (length rest))%N
            | JFound n r =>
                match push_tok cap toks (Tok JPrimitive pos (pos + n)) with
                | None => ((JSMN_ERROR_NOMEM, toks), 2 + Z.to_N n)%N
                | Some toks' => tick (2 + Z.to_N n) (smain f cap r (pos + n) toks' super (count + 1))
                end
            end
      end
  end.

(** jsmn_parse with its count; the last loop looks for a token left open. *)
Definition jsmn_steps (js : bytes) (cap : option Z) : (Z * list tok) * N :=
  let '((r, toks), k) := smain (S (length js)) cap js 0 [] (-1) 0 in
  if (r <? 0)%Z then ((r, rev toks), k)
  else
    match cap with
    | None => ((r, []), k)
    | Some _ => ((if existsb tok_open toks then JSMN_ERROR_PART else r, rev toks), k + back tok_open toks)%N
    end.
(** Both passes of l8w8jwt_parse_claims (src/decode.c:228-262); the second is left out if the first finds no
    token or an error. *)
Definition tokenizer_steps (js : bytes) : N :=
  let '((r, _), k) := jsmn_steps js None in
  if (r <=? 0)%Z then k else (k + snd (jsmn_steps js (Some r)))%N.
