(** * Specification: the JSON text format (RFC 8259), written independently of the code.

    Byte-level: a byte of 128 or more stands for itself inside a string (the RFC's UTF-8 layer is
    not checked). *)
From Verif Require Import Base.

(** ** Strings (RFC 8259 section 7) *)
(** Value of a hexadecimal digit. *)
Fixpoint index_of (c : byte) (s : bytes) : option N :=
  match s with
  | [] => None
  | x :: t => if Byte.eqb x c then Some 0%N else option_map N.succ (index_of c t)
  end.
Definition hexdig (c : byte) : option N :=
  match index_of c (lit "0123456789abcdef") with
  | Some v => Some v
  | None => index_of c (lit "0123456789ABCDEF")
  end.
(** The code unit four hexadecimal digits denote. *)
Definition code_unit (a b c d : byte) : option N :=
  match hexdig a, hexdig b, hexdig c, hexdig d with
  | Some w, Some x, Some y, Some z => Some (4096 * w + 256 * x + 16 * y + z)%N
  | _, _, _, _ => None
  end.
(** UTF-8 encoding of a code point (RFC 3629). *)
Definition utf8 (u : N) : bytes :=
  if (u <? 128)%N then [n2b u]
  else if (u <? 2048)%N then [n2b (192 + u / 64); n2b (128 + u mod 64)]
  else if (u <? 65536)%N
  then [n2b (224 + u / 4096); n2b (128 + (u / 64) mod 64); n2b (128 + u mod 64)]
  else [n2b (240 + u / 262144); n2b (128 + (u / 4096) mod 64); n2b (128 + (u / 64) mod 64);
        n2b (128 + u mod 64)].
Definition high_surrogate (u : N) : Prop := (55296 <= u < 56320)%N.
Definition low_surrogate (u : N) : Prop := (56320 <= u < 57344)%N.

(** The two-character escapes and what they denote. *)
Definition simple_escapes : list (byte * byte) :=
  [ (x22, x22); (x5c, x5c); (x2f, x2f);
    (x62, x08); (x66, x0c); (x6e, x0a); (x72, x0d); (x74, x09) ].

(** [json_body t d]: the text [t] between the quotes of a JSON string denotes the bytes [d]. *)
Inductive json_body : bytes -> bytes -> Prop :=
| JB_nil : json_body [] []
| JB_char c t d :
    (32 <= b2n c)%N -> c <> x22 (* quote *) -> c <> x5c (* backslash *) ->
    json_body t d -> json_body (c :: t) (c :: d)
| JB_escape e c t d :
    In (e, c) simple_escapes -> json_body t d -> json_body (x5c :: e :: t) (c :: d)
| JB_unicode h1 h2 h3 h4 u t d :
    code_unit h1 h2 h3 h4 = Some u -> ~ high_surrogate u -> ~ low_surrogate u ->
    json_body t d -> json_body (x5c :: x75 :: h1 :: h2 :: h3 :: h4 :: t) (utf8 u ++ d)
| JB_pair h1 h2 h3 h4 l1 l2 l3 l4 u v t d :
    code_unit h1 h2 h3 h4 = Some u -> high_surrogate u ->
    code_unit l1 l2 l3 l4 = Some v -> low_surrogate v ->
    json_body t d ->
    json_body (x5c :: x75 :: h1 :: h2 :: h3 :: h4 :: x5c :: x75 :: l1 :: l2 :: l3 :: l4 :: t)
              (utf8 (65536 + 1024 * (u - 55296) + (v - 56320)) ++ d).

Definition quoted (t : bytes) : bytes := x22 :: t ++ [x22].

(** ** Numbers (section 6) *)
Definition digit (c : byte) : Prop := In c (lit "0123456789").
Definition digits (s : bytes) : Prop := s <> [] /\ Forall digit s.
Inductive json_int : bytes -> Prop :=
| JI_zero : json_int [x30]
| JI_pos c s : digit c -> c <> x30 -> Forall digit s -> json_int (c :: s).
Inductive json_frac : bytes -> Prop :=
| JF_none : json_frac []
| JF_some s : digits s -> json_frac (x2e :: s).
Inductive json_exp : bytes -> Prop :=
| JE_none : json_exp []
| JE_some c sg s : In c (lit "eE") -> In sg [[]; lit "+"; lit "-"] -> digits s ->
    json_exp (c :: sg ++ s).
Inductive json_number : bytes -> Prop :=
| JN sg i f e : In sg [[]; lit "-"] -> json_int i -> json_frac f -> json_exp e ->
    json_number (sg ++ i ++ f ++ e).

(** Value of a decimal numeral. *)
Definition dec_value (s : bytes) : N := fold_left (fun v c => (10 * v + (b2n c - 48))%N) s 0%N.

(** ** Values (section 3), objects (4), arrays (5) *)
Inductive kind := KString | KNumber | KTrue | KFalse | KNull | KArray | KObject.
Definition json_ws (s : bytes) : Prop := Forall (fun c => In c [x20; x09; x0a; x0d]) s.

(** A member of an object: the text between the key's quotes, the kind of the value, its text. *)
Record member := Member { m_key : bytes; m_kind : kind; m_value : bytes }.

(** [json_value k t]: [t] is (exactly, no surrounding whitespace) a JSON value of kind [k].
    [json_elements t]: one or more values separated by commas. [json_members ms t]: the members
    [ms], one or more, separated by commas. *)
Inductive json_value : kind -> bytes -> Prop :=
| JV_string t d : json_body t d -> json_value KString (quoted t)
| JV_number t : json_number t -> json_value KNumber t
| JV_true : json_value KTrue (lit "true")
| JV_false : json_value KFalse (lit "false")
| JV_null : json_value KNull (lit "null")
| JV_array0 ws : json_ws ws -> json_value KArray (lit "[" ++ ws ++ lit "]")
| JV_array t : json_elements t -> json_value KArray (lit "[" ++ t ++ lit "]")
| JV_object0 ws : json_ws ws -> json_value KObject (lit "{" ++ ws ++ lit "}")
| JV_object ms t : json_members ms t -> json_value KObject (lit "{" ++ t ++ lit "}")
with json_elements : bytes -> Prop :=
| JEl_one w1 k t w2 : json_ws w1 -> json_value k t -> json_ws w2 -> json_elements (w1 ++ t ++ w2)
| JEl_cons w1 k t w2 r : json_ws w1 -> json_value k t -> json_ws w2 -> json_elements r ->
    json_elements (w1 ++ t ++ w2 ++ lit "," ++ r)
with json_members : list member -> bytes -> Prop :=
| JM_one w1 kb kd w2 w3 k t w4 :
    json_ws w1 -> json_body kb kd -> json_ws w2 -> json_ws w3 -> json_value k t -> json_ws w4 ->
    json_members [Member kb k t] (w1 ++ quoted kb ++ w2 ++ lit ":" ++ w3 ++ t ++ w4)
| JM_cons w1 kb kd w2 w3 k t w4 ms r :
    json_ws w1 -> json_body kb kd -> json_ws w2 -> json_ws w3 -> json_value k t -> json_ws w4 ->
    json_members ms r ->
    json_members (Member kb k t :: ms)
      (w1 ++ quoted kb ++ w2 ++ lit ":" ++ w3 ++ t ++ w4 ++ lit "," ++ r).

(** [json_object ms t]: [t] is a JSON object (no surrounding whitespace) with members [ms]. *)
Inductive json_object : list member -> bytes -> Prop :=
| JO_empty ws : json_ws ws -> json_object [] (lit "{" ++ ws ++ lit "}")
| JO_members ms t : json_members ms t -> json_object ms (lit "{" ++ t ++ lit "}").

Scheme json_value_mind := Minimality for json_value Sort Prop
  with json_elements_mind := Minimality for json_elements Sort Prop
  with json_members_mind := Minimality for json_members Sort Prop.
Combined Scheme json_mutind from json_value_mind, json_elements_mind, json_members_mind.

(** ** Size *)
(** The number of values and member names in a JSON value, at every depth: [value_size t n]. *)
Inductive value_size : bytes -> N -> Prop :=
| VS_string t d : json_body t d -> value_size (quoted t) 1
| VS_number t : json_number t -> value_size t 1
| VS_true : value_size (lit "true") 1
| VS_false : value_size (lit "false") 1
| VS_null : value_size (lit "null") 1
| VS_array0 ws : json_ws ws -> value_size (lit "[" ++ ws ++ lit "]") 1
| VS_array t n : elements_size t n -> value_size (lit "[" ++ t ++ lit "]") (1 + n)
| VS_object0 ws : json_ws ws -> value_size (lit "{" ++ ws ++ lit "}") 1
| VS_object t n : members_size t n -> value_size (lit "{" ++ t ++ lit "}") (1 + n)
with elements_size : bytes -> N -> Prop :=
| ES_one w1 t w2 n : json_ws w1 -> value_size t n -> json_ws w2 -> elements_size (w1 ++ t ++ w2) n
| ES_cons w1 t w2 n r m : json_ws w1 -> value_size t n -> json_ws w2 -> elements_size r m ->
    elements_size (w1 ++ t ++ w2 ++ lit "," ++ r) (n + m)
with members_size : bytes -> N -> Prop :=
| MS_one w1 kb kd w2 w3 t n w4 :
    json_ws w1 -> json_body kb kd -> json_ws w2 -> json_ws w3 -> value_size t n -> json_ws w4 ->
    members_size (w1 ++ quoted kb ++ w2 ++ lit ":" ++ w3 ++ t ++ w4) (1 + n)
| MS_cons w1 kb kd w2 w3 t n w4 r m :
    json_ws w1 -> json_body kb kd -> json_ws w2 -> json_ws w3 -> value_size t n -> json_ws w4 ->
    members_size r m ->
    members_size (w1 ++ quoted kb ++ w2 ++ lit ":" ++ w3 ++ t ++ w4 ++ lit "," ++ r) (1 + n + m).
(** The size of a JSON text: that of its value. *)
Definition json_size (js : bytes) (n : N) : Prop :=
  exists w1 t w2, json_ws w1 /\ value_size t n /\ json_ws w2 /\ js = w1 ++ t ++ w2.

Scheme value_size_mind := Minimality for value_size Sort Prop
  with elements_size_mind := Minimality for elements_size Sort Prop
  with members_size_mind := Minimality for members_size Sort Prop.
Combined Scheme size_mutind from value_size_mind, elements_size_mind, members_size_mind.
