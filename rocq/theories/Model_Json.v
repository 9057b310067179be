(** nlohmann::ordered_json as used by the serializers: values, dump(4) and
    parse(text, nullptr, false).  nlohmann/json is a third-party submodule that is
    not checked out in /repo; this models its documented behaviour. *)
From Verif Require Import Prelude.

(** Numbers: integers that fit 64 bits are [JInt]; any other number is kept as
    its text ([JReal]). Numbers that overflow a double (1e999) are errors of the
    parser; here they are [JReal] too. *)
Inductive json :=
| JNull
| JBool (b : bool)
| JInt (z : Z)
| JReal (lexeme : string)
| JStr (s : string)
| JArr (l : list json)
| JObj (l : list (string * json)).

(** ** Bytes and UTF-8 *)

Definition byte (c : ascii) : N := N_of_ascii c.
Definition brange (lo hi : N) (c : ascii) : bool := (lo <=? byte c)%N && (byte c <=? hi)%N.
Definition cont : N * N := (128, 191)%N.

(** Ranges of the continuation bytes after lead byte [c] (RFC 3629); [None] if
    [c] cannot start a character. *)
Definition utf8_lead (c : ascii) : option (list (N * N)) :=
  if brange 0 127 c then Some []
  else if brange 194 223 c then Some [cont]
  else if brange 224 224 c then Some [(160, 191)%N; cont]
  else if brange 225 236 c then Some [cont; cont]
  else if brange 237 237 c then Some [(128, 159)%N; cont]
  else if brange 238 239 c then Some [cont; cont]
  else if brange 240 240 c then Some [(144, 191)%N; cont; cont]
  else if brange 241 243 c then Some [cont; cont; cont]
  else if brange 244 244 c then Some [(128, 143)%N; cont; cont]
  else None.

(** The UTF-8 decoder of [serializer::dump_escaped]: [false] = it throws
    type_error 316. *)
Fixpoint utf8_ok (pending : list (N * N)) (s : string) : bool :=
  match s with
  | EmptyString => match pending with [] => true | _ => false end
  | String c r =>
      match pending with
      | (lo, hi) :: p => brange lo hi c && utf8_ok p r
      | [] => match utf8_lead c with Some p => utf8_ok p r | None => false end
      end
  end.

(** ** dump(4) *)

Definition ch_nl : ascii := "010"%char.
Definition ch_bslash : ascii := "\"%char.

Definition hex_digit (n : N) : ascii :=
  ascii_of_N (if (n <? 10)%N then n + 48 else n + 87)%N.

(** [serializer::dump_escaped] for one byte, ensure_ascii = false. *)
Definition escape_char (c : ascii) : string :=
  let b := byte c in
  if (b =? 8)%N then "\b"
  else if (b =? 9)%N then "\t"
  else if (b =? 10)%N then "\n"
  else if (b =? 12)%N then "\f"
  else if (b =? 13)%N then "\r"
  else if Ascii.eqb c ch_quote then "\" +++ str1 ch_quote
  else if Ascii.eqb c ch_bslash then "\\"
  else if (b <=? 31)%N then "\u00" +++ String (hex_digit (b / 16)) (str1 (hex_digit (b mod 16)))
  else str1 c.

Fixpoint escape (s : string) : string :=
  match s with EmptyString => "" | String c r => escape_char c +++ escape r end.

Definition quoted (s : string) : string := str1 ch_quote +++ escape s +++ str1 ch_quote.

(** Decimal text of an integer. *)
Definition digit_char (n : N) : ascii := ascii_of_N (n + 48).
Fixpoint dec_digits (fuel : nat) (n : N) (acc : string) : string :=
  match fuel with
  | O => acc
  | S f =>
      let acc' := String (digit_char (n mod 10)) acc in
      if (n / 10 =? 0)%N then acc' else dec_digits f (n / 10) acc'
  end.
(** [std::to_string] of an unsigned number *)
Definition dec_of_N (n : N) : string := dec_digits (S (N.size_nat n)) n "".
Definition dec_of_Z (z : Z) : string :=
  match z with
  | Zneg p => "-" +++ dec_of_N (Npos p)
  | _ => dec_of_N (Z.to_N z)
  end.

Definition nl : string := str1 ch_nl.
Definition indent4 : string := "    ".

Fixpoint dump (ind : string) (v : json) : string :=
  match v with
  | JNull => "null"
  | JBool true => "true"
  | JBool false => "false"
  | JInt z => dec_of_Z z
  | JReal t => t
  | JStr s => quoted s
  | JArr [] => "[]"
  | JArr l =>
      let ind' := ind +++ indent4 in
      "[" +++ nl +++ join ("," +++ nl) (map (fun x => ind' +++ dump ind' x) l) +++ nl +++ ind +++ "]"
  | JObj [] => "{}"
  | JObj l =>
      let ind' := ind +++ indent4 in
      "{" +++ nl +++
      join ("," +++ nl) (map (fun kv => ind' +++ quoted (fst kv) +++ ": " +++ dump ind' (snd kv)) l)
      +++ nl +++ ind +++ "}"
  end.

(** Every string of a value is valid UTF-8 (otherwise dump throws). *)
Fixpoint utf8_json (v : json) : bool :=
  match v with
  | JStr s => utf8_ok [] s
  | JArr l => forallb utf8_json l
  | JObj l => forallb (fun kv => utf8_ok [] (fst kv) && utf8_json (snd kv)) l
  | _ => true
  end.

(** [j.dump(4)]; [None] = exception type_error 316. *)
Definition dump4 (v : json) : option string :=
  if utf8_json v then Some (dump "" v) else None.

(** ** parse: a pushdown machine over the bytes of the text *)

(** [ordered_map::operator[]]: replace the value of an existing key, else append. *)
Fixpoint obj_set (l : list (string * json)) (k : string) (v : json) : list (string * json) :=
  match l with
  | [] => [(k, v)]
  | (k', v') :: r => if String.eqb k k' then (k', v) :: r else (k', v') :: obj_set r k v
  end.

Inductive frame :=
| FrArr (acc : list json)                       (* elements so far, last first *)
| FrObj (acc : list (string * json)) (key : string).

(** Inside a string: text so far and what is being read. *)
Inductive strsub :=
| SPlain
| SEsc                                          (* after a backslash *)
| SHex (left : nat) (val : N) (hi : option N)   (* after \u; [hi] = pending high surrogate *)
| SSur1 (hi : N)                                (* high surrogate read, expecting \ *)
| SSur2 (hi : N)                                (* ... expecting u *)
| SUtf (pending : list (N * N)).                (* inside a multi-byte character *)

Inductive numst := NMinus | NZero | NInt | NDot | NFrac | NExp | NExpSign | NExpInt.

Inductive mode :=
| MStart | MBom1 | MBom2
| MVal                       (* a value must follow *)
| MArr0                      (* after '[': value or ']' *)
| MKey0                      (* after '{': key or '}' *)
| MKey                       (* after ',' in an object *)
| MColon
| MAfter                     (* after a value inside an array or object *)
| MStr (iskey : bool) (acc : string) (sub : strsub)
| MLit (rest : string) (v : json)
| MNum (st : numst) (acc : string)
| MDone (v : json)
| MEnd (v : json)            (* NUL byte after the value: the lexer's end of input *)
| MErr.

Definition pstate := (mode * list frame)%type.
Definition perr : pstate := (MErr, []).

Definition deliver (v : json) (k : list frame) : pstate :=
  match k with
  | [] => (MDone v, [])
  | FrArr acc :: k' => (MAfter, FrArr (v :: acc) :: k')
  | FrObj acc key :: k' => (MAfter, FrObj (obj_set acc key v) key :: k')
  end.

Definition is_ws (c : ascii) : bool :=
  let b := byte c in (b =? 32)%N || (b =? 9)%N || (b =? 10)%N || (b =? 13)%N.
Definition is_dec (c : ascii) : bool := brange 48 57 c.
Definition hex_val (c : ascii) : option N :=
  if brange 48 57 c then Some (byte c - 48)%N
  else if brange 97 102 c then Some (byte c - 87)%N
  else if brange 65 70 c then Some (byte c - 55)%N
  else None.

(** UTF-8 encoding of a code point (lexer::scan_string). *)
Definition ch_of (n : N) : ascii := ascii_of_N n.
Definition utf8_encode (cp : N) : string :=
  if (cp <? 128)%N then str1 (ch_of cp)
  else if (cp <? 2048)%N then String (ch_of (192 + cp / 64)) (str1 (ch_of (128 + cp mod 64)))
  else if (cp <? 65536)%N then
    String (ch_of (224 + cp / 4096)) (String (ch_of (128 + (cp / 64) mod 64)) (str1 (ch_of (128 + cp mod 64))))
  else
    String (ch_of (240 + cp / 262144)) (String (ch_of (128 + (cp / 4096) mod 64))
      (String (ch_of (128 + (cp / 64) mod 64)) (str1 (ch_of (128 + cp mod 64))))).

(** Value of a decimal lexeme. *)
Fixpoint dec_value (s : string) (acc : N) : N :=
  match s with EmptyString => acc | String c r => dec_value r (acc * 10 + (byte c - 48))%N end.
Definition int_value (s : string) : Z :=
  match s with
  | String c r => if Ascii.eqb c "-" then (- Z.of_N (dec_value r 0))%Z else Z.of_N (dec_value s 0)
  | EmptyString => 0%Z
  end.
(** lexer::scan_number: 64-bit integer if it fits, floating point otherwise. *)
Definition int_fits (z : Z) : bool :=
  ((-9223372036854775808 <=? z) && (z <=? 18446744073709551615))%Z.
Definition num_value (st : numst) (s : string) : option json :=
  match st with
  | NZero | NInt => Some (if int_fits (int_value s) then JInt (int_value s) else JReal s)
  | NFrac | NExpInt => Some (JReal s)
  | _ => None
  end.

Definition num_step (st : numst) (c : ascii) : option numst :=
  match st with
  | NMinus => if Ascii.eqb c "0" then Some NZero else if is_dec c then Some NInt else None
  | NZero =>
      if Ascii.eqb c "." then Some NDot
      else if Ascii.eqb c "e" || Ascii.eqb c "E" then Some NExp else None
  | NInt =>
      if is_dec c then Some NInt
      else if Ascii.eqb c "." then Some NDot
      else if Ascii.eqb c "e" || Ascii.eqb c "E" then Some NExp else None
  | NDot => if is_dec c then Some NFrac else None
  | NFrac =>
      if is_dec c then Some NFrac
      else if Ascii.eqb c "e" || Ascii.eqb c "E" then Some NExp else None
  | NExp =>
      if is_dec c then Some NExpInt
      else if Ascii.eqb c "+" || Ascii.eqb c "-" then Some NExpSign else None
  | NExpSign => if is_dec c then Some NExpInt else None
  | NExpInt => if is_dec c then Some NExpInt else None
  end.

(** First byte of a value. *)
Definition start_value (c : ascii) (k : list frame) : pstate :=
  if Ascii.eqb c "{" then (MKey0, FrObj [] "" :: k)
  else if Ascii.eqb c "[" then (MArr0, FrArr [] :: k)
  else if Ascii.eqb c ch_quote then (MStr false "" SPlain, k)
  else if Ascii.eqb c "t" then (MLit "rue" (JBool true), k)
  else if Ascii.eqb c "f" then (MLit "alse" (JBool false), k)
  else if Ascii.eqb c "n" then (MLit "ull" JNull, k)
  else if Ascii.eqb c "-" then (MNum NMinus "-", k)
  else if Ascii.eqb c "0" then (MNum NZero "0", k)
  else if is_dec c then (MNum NInt (str1 c), k)
  else perr.

(** A byte after a complete value. *)
Definition after_value (c : ascii) (st : pstate) : pstate :=
  match st with
  | (MDone v, k) =>
      if is_ws c then st else if (byte c =? 0)%N then (MEnd v, k) else perr
  | (MAfter, FrArr acc :: k) =>
      if is_ws c then st
      else if Ascii.eqb c "," then (MVal, FrArr acc :: k)
      else if Ascii.eqb c "]" then deliver (JArr (rev acc)) k
      else perr
  | (MAfter, FrObj acc key :: k) =>
      if is_ws c then st
      else if Ascii.eqb c "," then (MKey, FrObj acc key :: k)
      else if Ascii.eqb c "}" then deliver (JObj acc) k
      else perr
  | _ => perr
  end.

Definition str_done (iskey : bool) (s : string) (k : list frame) : pstate :=
  if iskey then
    match k with
    | FrObj acc _ :: k' => (MColon, FrObj acc s :: k')
    | _ => perr
    end
  else deliver (JStr s) k.

Definition str_step (iskey : bool) (acc : string) (sub : strsub) (c : ascii) (k : list frame) : pstate :=
  match sub with
  | SPlain =>
      if Ascii.eqb c ch_quote then str_done iskey acc k
      else if Ascii.eqb c ch_bslash then (MStr iskey acc SEsc, k)
      else if (byte c <=? 31)%N then perr
      else match utf8_lead c with
           | Some [] => (MStr iskey (acc +++ str1 c) SPlain, k)
           | Some p => (MStr iskey (acc +++ str1 c) (SUtf p), k)
           | None => perr
           end
  | SUtf ((lo, hi) :: p) =>
      if brange lo hi c
      then (MStr iskey (acc +++ str1 c) (match p with [] => SPlain | _ => SUtf p end), k)
      else perr
  | SUtf [] => perr
  | SEsc =>
      let ok x := (MStr iskey (acc +++ str1 x) SPlain, k) in
      if Ascii.eqb c ch_quote then ok ch_quote
      else if Ascii.eqb c ch_bslash then ok ch_bslash
      else if Ascii.eqb c "/" then ok "/"%char
      else if Ascii.eqb c "b" then ok "008"%char
      else if Ascii.eqb c "f" then ok "012"%char
      else if Ascii.eqb c "n" then ok "010"%char
      else if Ascii.eqb c "r" then ok "013"%char
      else if Ascii.eqb c "t" then ok "009"%char
      else if Ascii.eqb c "u" then (MStr iskey acc (SHex 4 0 None), k)
      else perr
  | SHex n v hi =>
      match hex_val c with
      | None => perr
      | Some d =>
          let v' := (v * 16 + d)%N in
          match n with
          | S (S m) => (MStr iskey acc (SHex (S m) v' hi), k)
          | _ =>
              match hi with
              | None =>
                  if (55296 <=? v')%N && (v' <=? 56319)%N then (MStr iskey acc (SSur1 v'), k)
                  else if (56320 <=? v')%N && (v' <=? 57343)%N then perr
                  else (MStr iskey (acc +++ utf8_encode v') SPlain, k)
              | Some h =>
                  if (56320 <=? v')%N && (v' <=? 57343)%N
                  then (MStr iskey (acc +++ utf8_encode (65536 + (h - 55296) * 1024 + (v' - 56320))) SPlain, k)
                  else perr
              end
          end
      end
  | SSur1 h => if Ascii.eqb c ch_bslash then (MStr iskey acc (SSur2 h), k) else perr
  | SSur2 h => if Ascii.eqb c "u" then (MStr iskey acc (SHex 4 0 (Some h)), k) else perr
  end.

Definition pstep (st : pstate) (c : ascii) : pstate :=
  let (m, k) := st in
  match m with
  | MStart =>
      if (byte c =? 239)%N then (MBom1, k) else if is_ws c then (MVal, k) else start_value c k
  | MBom1 => if (byte c =? 187)%N then (MBom2, k) else perr
  | MBom2 => if (byte c =? 191)%N then (MVal, k) else perr
  | MVal => if is_ws c then st else start_value c k
  | MArr0 =>
      if is_ws c then st
      else if Ascii.eqb c "]" then
        match k with FrArr _ :: k' => deliver (JArr []) k' | _ => perr end
      else start_value c k
  | MKey0 =>
      if is_ws c then st
      else if Ascii.eqb c "}" then
        match k with FrObj _ _ :: k' => deliver (JObj []) k' | _ => perr end
      else if Ascii.eqb c ch_quote then (MStr true "" SPlain, k)
      else perr
  | MKey =>
      if is_ws c then st
      else if Ascii.eqb c ch_quote then (MStr true "" SPlain, k)
      else perr
  | MColon => if is_ws c then st else if Ascii.eqb c ":" then (MVal, k) else perr
  | MAfter => after_value c st
  | MDone _ => after_value c st
  | MStr iskey acc sub => str_step iskey acc sub c k
  | MLit rest v =>
      match rest with
      | String x EmptyString => if Ascii.eqb c x then deliver v k else perr
      | String x r => if Ascii.eqb c x then (MLit r v, k) else perr
      | EmptyString => perr
      end
  | MNum ns acc =>
      match num_step ns c with
      | Some ns' => (MNum ns' (acc +++ str1 c), k)
      | None =>
          match num_value ns acc with
          | Some v => after_value c (deliver v k)
          | None => perr
          end
      end
  | MEnd _ => st
  | MErr => st
  end.

Fixpoint prun (s : string) (st : pstate) : pstate :=
  match s with EmptyString => st | String c r => prun r (pstep st c) end.

Definition pfinish (st : pstate) : option json :=
  match st with
  | (MDone v, _) => Some v
  | (MEnd v, _) => Some v
  | (MNum ns acc, []) => num_value ns acc
  | _ => None
  end.

(** [json::parse(text, nullptr, false)]; [None] = is_discarded(). *)
Definition parse_json (s : string) : option json := pfinish (prun s (MStart, [])).
