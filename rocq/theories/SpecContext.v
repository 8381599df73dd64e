(** * Specification: what may be done with contexts and key copies, told on traces of events.

    Written from the documentation of mbedtls: a context must be initialised before anything else
    is done with it, must own nothing when it is initialised or filled, must not be used after it was
    freed, and what it owns is released by freeing it, once. A context borrowed from a certificate
    belongs to the certificate. The random generator may be used only once it is seeded. *)
From Verif Require Import Base Context.

(** The life of a context: not initialised, initialised and owning nothing, possibly owning memory,
    a view of memory owned by the certificate, freed. *)
Inductive life := Raw | Empty | Full | View | Gone.

Record ledger := Ledger {
  l_ctx : ctx -> life;
  l_seeded : bool;
  l_secret : keybuf -> bool   (* does the buffer hold key material? *)
}.

Definition ctx_eqb (a b : ctx) : bool :=
  match a, b with
  | Pk, Pk | Crt, Crt | Entropy, Entropy | Drbg, Drbg | Ecdsa, Ecdsa | SigR, SigR
  | SigS, SigS => true
  | _, _ => false
  end.
Definition keybuf_eqb (a b : keybuf) : bool :=
  match a, b with KeyCopy, KeyCopy | Ref10, Ref10 => true | _, _ => false end.

Definition set_ctx (l : ledger) (c : ctx) (s : life) : ledger :=
  Ledger (fun d => if ctx_eqb c d then s else l_ctx l d) (l_seeded l) (l_secret l).
Definition set_secret (l : ledger) (b : keybuf) (s : bool) : ledger :=
  Ledger (l_ctx l) (l_seeded l) (fun d => if keybuf_eqb b d then s else l_secret l d).

(** One event; [None] = against the rules. *)
Definition step (l : ledger) (ev : event) : option ledger :=
  match ev with
  | Init c => match l_ctx l c with Raw => Some (set_ctx l c Empty) | _ => None end
  | Load c => match l_ctx l c with Empty => Some (set_ctx l c Full) | _ => None end
  | Use c =>
      match l_ctx l c with
      | Full => Some l
      | View => match l_ctx l Crt with Full => Some l | _ => None end
      | _ => None
      end
  | Free c =>
      match l_ctx l c with
      | Empty | Full =>
          let l := set_ctx l c Gone in
          Some (match c with Drbg => Ledger (l_ctx l) false (l_secret l) | _ => l end)
      | _ => None
      end
  | Borrow =>
      match l_ctx l Crt, l_ctx l Pk with
      | Full, Empty => Some (set_ctx l Pk View)
      | _, _ => None
      end
  | Seeded =>
      match l_ctx l Drbg, l_ctx l Entropy with
      | Full, Full => Some (Ledger (l_ctx l) true (l_secret l))
      | _, _ => None
      end
  | Random =>
      if l_seeded l then match l_ctx l Entropy with Full => Some l | _ => None end else None
  | Store b => Some (set_secret l b true)
  | Wipe b => Some (set_secret l b false)
  end.

Fixpoint follow (l : ledger) (t : list event) : option ledger :=
  match t with
  | [] => Some l
  | ev :: t' => match step l ev with Some l' => follow l' t' | None => None end
  end.

Definition start : ledger := Ledger (fun _ => Raw) false (fun _ => false).

(** The rules were followed from the start, and in the end ... *)
Definition lawful (t : list event) (good : ledger -> Prop) : Prop :=
  exists l, follow start t = Some l /\ good l.
(** ... no context owns anything, *)
Definition nothing_owned (l : ledger) : Prop := forall c, l_ctx l c <> Full.
(** ... no buffer holds key material. *)
Definition nothing_secret (l : ledger) : Prop := forall b, l_secret l b = false.
