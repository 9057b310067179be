(** The JSON texts of a value: the grammar of RFC 8259. [encode_utf8] and [scalar]
    as in Spec_Json.v. *)
From Verif Require Import Prelude Model_Json Spec_Json.

Fixpoint every (P : ascii -> Prop) (s : string) : Prop :=
  match s with EmptyString => True | String c r => P c /\ every P r end.
Definition code (c : ascii) : N := N_of_ascii c.

(** Blanks: space, tab, line feed, carriage return. *)
Definition blank_char (c : ascii) : Prop := In (code c) [32; 9; 10; 13]%N.
Definition blank (s : string) : Prop := every blank_char s.

(** ** Strings *)

(** What the letter after a backslash stands for. *)
Definition short_escapes : list (ascii * N) :=
  [(""""%char, 34); ("\"%char, 92); ("/"%char, 47); ("b"%char, 8); ("f"%char, 12); ("n"%char, 10); ("r"%char, 13); ("t"%char, 9)]%N.

Definition hex_digit_of (c : ascii) (v : N) : Prop :=
  (48 <= code c <= 57 /\ v = code c - 48 \/
   65 <= code c <= 70 /\ v = code c - 55 \/
   97 <= code c <= 102 /\ v = code c - 87)%N.
Definition hex4 (s : string) (v : N) : Prop := exists a b c d va vb vc vd,
  s = String a (String b (String c (String d ""))) /\
  hex_digit_of a va /\ hex_digit_of b vb /\ hex_digit_of c vc /\ hex_digit_of d vd /\
  (v = va * 4096 + vb * 256 + vc * 16 + vd)%N.

(** [chars w s]: [w], between quotes, is the string [s]. *)
Inductive chars : string -> string -> Prop :=
| chars_end : chars "" ""
| chars_plain cp w s :
    scalar cp -> (32 <= cp)%N -> cp <> 34%N -> cp <> 92%N -> chars w s ->
    chars (encode_utf8 cp +++ w) (encode_utf8 cp +++ s)
| chars_short c x w s :
    In (c, x) short_escapes -> chars w s -> chars (String "\" (String c w)) (String (ascii_of_N x) s)
| chars_hex h v w s :
    hex4 h v -> (v < 55296 \/ 57344 <= v)%N -> chars w s -> chars ("\u" +++ h +++ w) (encode_utf8 v +++ s)
| chars_pair h1 v1 h2 v2 w s :
    hex4 h1 v1 -> hex4 h2 v2 -> (55296 <= v1 < 56320)%N -> (56320 <= v2 < 57344)%N -> chars w s ->
    chars ("\u" +++ h1 +++ "\u" +++ h2 +++ w) (encode_utf8 (65536 + (v1 - 55296) * 1024 + (v2 - 56320)) +++ s).

(** ** Numbers *)

Definition decimal (c : ascii) : Prop := (48 <= code c <= 57)%N.
Definition decimals (s : string) : Prop := s <> "" /\ every decimal s.
(** No leading zeros. *)
Definition natural (s : string) : Prop :=
  s = "0" \/ exists c r, s = String c r /\ (49 <= code c <= 57)%N /\ every decimal r.
Definition sign (s : string) : Prop := s = "" \/ s = "-".
Definition fraction (s : string) : Prop := s = "" \/ exists r, s = "." +++ r /\ decimals r.
Definition exponent (s : string) : Prop :=
  s = "" \/ exists e g r, s = e +++ g +++ r /\ In e ["e"; "E"] /\ In g [""; "+"; "-"] /\ decimals r.
(** Horner. *)
Fixpoint number_of (s : string) (acc : N) : N :=
  match s with EmptyString => acc | String c r => number_of r (10 * acc + (code c - 48))%N end.
Definition integer_of (g n : string) : Z :=
  if String.eqb g "-" then (- Z.of_N (number_of n 0))%Z else Z.of_N (number_of n 0).
(** Integers of 64 bits, signed or unsigned, are kept exactly. *)
Definition fits64 (z : Z) : Prop := (- 2 ^ 63 <= z < 2 ^ 64)%Z.
Inductive number : string -> json -> Prop :=
| number_integer g n : sign g -> natural n -> fits64 (integer_of g n) -> number (g +++ n) (JInt (integer_of g n))
| number_large g n : sign g -> natural n -> ~ fits64 (integer_of g n) -> number (g +++ n) (JReal (g +++ n))
| number_real g n f e : sign g -> natural n -> fraction f -> exponent e -> f +++ e <> "" ->
    number (g +++ n +++ f +++ e) (JReal (g +++ n +++ f +++ e)).

(** ** Objects: of members with the same name the last one counts, at the place of
    the first one. *)
Fixpoint first_ones (l : list string) : list string :=
  match l with [] => [] | k :: r => k :: filter (fun x => negb (String.eqb x k)) (first_ones r) end.
Fixpoint last_one (k : string) (l : list (string * json)) : option json :=
  match l with
  | [] => None
  | (k', v) :: r => match last_one k r with Some w => Some w | None => if String.eqb k k' then Some v else None end
  end.
Definition merged (l m : list (string * json)) : Prop :=
  map fst m = first_ones (map fst l) /\ forall k v, In (k, v) m -> last_one k l = Some v.

(** ** Values *)
Inductive value : string -> json -> Prop :=
| value_null : value "null" JNull
| value_true : value "true" (JBool true)
| value_false : value "false" (JBool false)
| value_number t v : number t v -> value t v
| value_string w s : chars w s -> value ("""" +++ w +++ """") (JStr s)
| value_empty_array b : blank b -> value ("[" +++ b +++ "]") (JArr [])
| value_array t l : elements t l -> value ("[" +++ t +++ "]") (JArr l)
| value_empty_object b : blank b -> value ("{" +++ b +++ "}") (JObj [])
| value_object t l m : members t l -> merged l m -> value ("{" +++ t +++ "}") (JObj m)
with elements : string -> list json -> Prop :=
| elements_last b t v b' : blank b -> value t v -> blank b' -> elements (b +++ t +++ b') [v]
| elements_more b t v b' r l : blank b -> value t v -> blank b' -> elements r l ->
    elements (b +++ t +++ b' +++ "," +++ r) (v :: l)
with members : string -> list (string * json) -> Prop :=
| members_last b w k b1 b2 t v b3 : blank b -> chars w k -> blank b1 -> blank b2 -> value t v -> blank b3 ->
    members (b +++ """" +++ w +++ """" +++ b1 +++ ":" +++ b2 +++ t +++ b3) [(k, v)]
| members_more b w k b1 b2 t v b3 r l : blank b -> chars w k -> blank b1 -> blank b2 -> value t v -> blank b3 -> members r l ->
    members (b +++ """" +++ w +++ """" +++ b1 +++ ":" +++ b2 +++ t +++ b3 +++ "," +++ r) ((k, v) :: l).

(** A file: optionally the byte order mark; a value between blanks; the reader
    stops at a byte 0. *)
Definition byte_order_mark : string := String (ascii_of_N 239) (String (ascii_of_N 187) (String (ascii_of_N 191) "")).
Definition json_text (t : string) (v : json) : Prop := exists bom b t' b' tail,
  t = bom +++ b +++ t' +++ b' +++ tail /\ (bom = "" \/ bom = byte_order_mark) /\ blank b /\ value t' v /\ blank b' /\
  (tail = "" \/ exists r, tail = String "000" r).
