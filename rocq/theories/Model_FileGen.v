(** The two ready-made generators: lib/target/src/generator/file_generator.cpp and
    template_generator.cpp, and the typed blob handler of
    lib/target/include/target/custom_generator/custom_blob_handler.h:75-108 for
    std::vector<std::string>, with the MessagePack format it uses. *)
From Verif Require Import Prelude Model_Path Model_Json Model_Schema Model_Command Model_Target Model_Gen.

(** ** MessagePack (nlohmann::json::to_msgpack, from_msgpack with strict = true) *)

Definition bytes_of (s : string) : list N := map N_of_ascii (list_ascii_of_string s).
Definition string_of (l : list N) : string := string_of_list_ascii (map ascii_of_N l).

(** Big-endian numbers of 2 and 4 bytes. *)
Definition be2 (n : N) : list N := [N.div n 256; N.modulo n 256].
Definition be4 (n : N) : list N := be2 (N.div n 65536) ++ be2 (N.modulo n 65536).

(** Lengths above 2^32 - 1 get no prefix at all in nlohmann::json. *)
Definition str_prefix (n : N) : list N :=
  if N.ltb n 32 then [160 + n]%N
  else if N.ltb n 256 then [217; n]%N
  else if N.ltb n 65536 then 218%N :: be2 n
  else if N.ltb n 4294967296 then 219%N :: be4 n
  else [].
Definition arr_prefix (n : N) : list N :=
  if N.ltb n 16 then [144 + n]%N
  else if N.ltb n 65536 then 220%N :: be2 n
  else if N.ltb n 4294967296 then 221%N :: be4 n
  else [].
Definition slen (s : string) : N := N.of_nat (String.length s).
Definition enc_str (s : string) : list N := str_prefix (slen s) ++ bytes_of s.
(** to_msgpack of a vector of strings. *)
Definition to_msgpack (l : list string) : list N :=
  arr_prefix (N.of_nat (length l)) ++ flat_map enc_str l.

(** Decoded values; numbers, binary data and extensions are not told apart. *)
Inductive mval :=
| MAtom
| MStr (s : string)
| MArr (l : list mval)
| MMap (l : list (string * mval)).

Fixpoint take (n : N) (l : list N) : option (list N * list N) :=
  if N.eqb n 0 then Some ([], l)
  else match l with
       | [] => None
       | b :: r => match take (N.pred n) r with Some (x, y) => Some (b :: x, y) | None => None end
       end.
Definition be (l : list N) : N := fold_left (fun a b => a * 256 + b)%N l 0%N.
(** A length of [k] bytes. *)
Definition len (k : N) (l : list N) : option (N * list N) :=
  match take k l with Some (x, r) => Some (be x, r) | None => None end.
Definition skip (n : N) (l : list N) : option (mval * list N) :=
  match take n l with Some (_, r) => Some (MAtom, r) | None => None end.
Definition str_n (n : N) (l : list N) : option (string * list N) :=
  match take n l with Some (x, r) => Some (string_of x, r) | None => None end.
Definition with_len {A} (k : N) (f : N -> list N -> option A) (l : list N) : option A :=
  match len k l with Some (n, r) => f n r | None => None end.

(** A string; map keys are strings only. *)
Definition dec_str (l : list N) : option (string * list N) :=
  match l with
  | [] => None
  | b :: r =>
      if N.leb 160 b && N.ltb b 192 then str_n (b - 160) r
      else if N.eqb b 217 then with_len 1 str_n r
      else if N.eqb b 218 then with_len 2 str_n r
      else if N.eqb b 219 then with_len 4 str_n r
      else None
  end.

(** [n] values, each decoded by [dec]; [k] bounds the number of values. *)
Fixpoint dec_many {A} (dec : list N -> option (A * list N)) (k : nat) (n : N) (l : list N) : option (list A * list N) :=
  if N.eqb n 0 then Some ([], l)
  else match k with
       | O => None
       | S k' =>
           match dec l with
           | None => None
           | Some (v, r) =>
               match dec_many dec k' (N.pred n) r with Some (vs, r') => Some (v :: vs, r') | None => None end
           end
       end.
Definition dec_pair (dec : list N -> option (mval * list N)) (l : list N) : option ((string * mval) * list N) :=
  match dec_str l with
  | None => None
  | Some (k, r) => match dec r with Some (v, r') => Some ((k, v), r') | None => None end
  end.
Definition arr_n (dec : list N -> option (mval * list N)) (n : N) (l : list N) : option (mval * list N) :=
  match dec_many dec (length l) n l with Some (vs, r) => Some (MArr vs, r) | None => None end.
Definition map_n (dec : list N -> option (mval * list N)) (n : N) (l : list N) : option (mval * list N) :=
  match dec_many (dec_pair dec) (length l) n l with Some (vs, r) => Some (MMap vs, r) | None => None end.
Definition ext_n (n : N) (l : list N) : option (mval * list N) := skip (n + 1) l.

(** One value; [fuel] bounds the nesting. *)
Fixpoint dec_val (fuel : nat) (l : list N) : option (mval * list N) :=
  match fuel with
  | O => None
  | S f =>
      match l with
      | [] => None
      | b :: r =>
          if N.ltb b 128 then Some (MAtom, r)                      (* positive fixint *)
          else if N.ltb b 144 then map_n (dec_val f) (b - 128) r   (* fixmap *)
          else if N.ltb b 160 then arr_n (dec_val f) (b - 144) r   (* fixarray *)
          else match dec_str l with
          | Some (s, r') => Some (MStr s, r')
          | None =>
              if N.eqb b 192 || N.eqb b 194 || N.eqb b 195 then Some (MAtom, r)   (* nil, booleans *)
              else if N.eqb b 196 then with_len 1 skip r                           (* bin *)
              else if N.eqb b 197 then with_len 2 skip r
              else if N.eqb b 198 then with_len 4 skip r
              else if N.eqb b 199 then with_len 1 ext_n r                          (* ext *)
              else if N.eqb b 200 then with_len 2 ext_n r
              else if N.eqb b 201 then with_len 4 ext_n r
              else if N.eqb b 202 then skip 4 r                                    (* floats *)
              else if N.eqb b 203 then skip 8 r
              else if N.eqb b 204 || N.eqb b 208 then skip 1 r                     (* integers *)
              else if N.eqb b 205 || N.eqb b 209 then skip 2 r
              else if N.eqb b 206 || N.eqb b 210 then skip 4 r
              else if N.eqb b 207 || N.eqb b 211 then skip 8 r
              else if N.eqb b 212 then ext_n 1 r                                   (* fixext *)
              else if N.eqb b 213 then ext_n 2 r
              else if N.eqb b 214 then ext_n 4 r
              else if N.eqb b 215 then ext_n 8 r
              else if N.eqb b 216 then ext_n 16 r
              else if N.eqb b 220 then with_len 2 (arr_n (dec_val f)) r
              else if N.eqb b 221 then with_len 4 (arr_n (dec_val f)) r
              else if N.eqb b 222 then with_len 2 (map_n (dec_val f)) r
              else if N.eqb b 223 then with_len 4 (map_n (dec_val f)) r
              else if N.leb 224 b && N.ltb b 256 then Some (MAtom, r)              (* negative fixint *)
              else None
          end
      end
  end.
(** All bytes must be used. [None] = a discarded value. *)
Definition from_msgpack (l : list N) : option mval :=
  match dec_val (S (length l)) l with Some (v, []) => Some v | _ => None end.

(** ** TypedCustomBlobHandler<std::vector<std::string>> *)

Fixpoint strings_of (l : list mval) : option (list string) :=
  match l with
  | [] => Some []
  | MStr s :: r => match strings_of r with Some x => Some (s :: x) | None => None end
  | _ :: _ => None
  end.
(** custom_blob_handler.h:80-85 [Deserialize]; [None] = get_to throws. *)
Definition deserialize (b : list N) : option (list string) :=
  match from_msgpack b with Some (MArr l) => strings_of l | _ => None end.
(** custom_blob_handler.h:90-107 *)
Definition strings_handler (data : list string) : handler :=
  BH (fun b => match from_msgpack b with Some _ => true | None => false end)
     (fun x y => match deserialize x, deserialize y with
                 | Some a, Some b => Some (str_list_eqb a b)
                 | _, _ => None
                 end)
     (to_msgpack data).

(** ** FileGenerator *)

(** file_generator.h:74-77; the sets in iteration order. *)
Record fgen := FG { fg_base : gobj; fg_in : list string; fg_out : list string; fg_commands : list string }.
Definition fgen_new (o : gobj) : fgen := FG o [] [] [].

Definition set_add (l : list string) (x : string) : list string := if mem_str x l then l else l ++ [x].
(** Calls made to configure it. *)
Inductive fcall :=
| FPattern (k pattern : string)
| FInput (pattern : string)
| FOutput (pattern : string)
| FCommand (pattern : string) (args : list (string * string)).
(** custom_generator.cpp:189-192, file_generator.cpp:47-60 *)
Definition fdo (f : fgen) (c : fcall) : ares fgen :=
  match c with
  | FPattern k p =>
      match add_pattern (fg_base f) k p with
      | AOk o => AOk (FG o (fg_in f) (fg_out f) (fg_commands f))
      | AFatal => AFatal
      | AOther => AOther
      end
  | FInput p => AOk (FG (fg_base f) (set_add (fg_in f) p) (fg_out f) (fg_commands f))
  | FOutput p => AOk (FG (fg_base f) (fg_in f) (set_add (fg_out f) p) (fg_commands f))
  | FCommand p args =>
      match construct (go_args (fg_base f)) p args with
      | FOk c => AOk (FG (fg_base f) (fg_in f) (fg_out f) (fg_commands f ++ [c]))
      | FErr => AFatal
      | FOther => AOther
      end
  end.
Fixpoint fdo_all (f : fgen) (l : list fcall) : ares fgen :=
  match l with
  | [] => AOk f
  | c :: r => match fdo f c with AOk f' => fdo_all f' r | x => x end
  end.
(** file_generator.cpp:62-69 [Build]: the generator object then started. *)
Definition fbuild (f : fgen) : ares gobj :=
  add_id_info (fg_base f) "Generate" (fg_in f) (fg_out f) (Some (strings_handler (fg_commands f))).

(** lib/env/src/execute.cpp:44-65: an empty command is fatal; otherwise it is
    executed, and [r k] tells whether the k-th one succeeds.
    file_generator.cpp:31-39: the executed commands and the result. *)
Fixpoint run_commands (r : nat -> bool) (k : nat) (cs : list string) : list string * bool :=
  match cs with
  | [] => ([], true)
  | c :: rest =>
      if String.eqb c "" then ([], false)
      else if r k then let (e, ok) := run_commands r (S k) rest in (c :: e, ok)
      else ([c], false)
  end.
(** file_generator.cpp:25-41 [FileGeneratorGenerateCb]; an exception is a failure. *)
Definition file_callback (r : nat -> bool) (blob : list N) : list string * bool :=
  match deserialize blob with
  | Some cs => run_commands r 0 cs
  | None => ([], false)
  end.

(** ** TemplateGenerator *)

Record tgen := TG { tg_base : gobj; tg_infos : list (string * string) }.
Inductive tcall := TPattern (k pattern : string) | TTemplate (input output : string).
(** template_generator.cpp:47-53 [AddTemplate] *)
Definition tdo (t : tgen) (c : tcall) : ares tgen :=
  match c with
  | TPattern k p =>
      match add_pattern (tg_base t) k p with
      | AOk o => AOk (TG o (tg_infos t))
      | AFatal => AFatal
      | AOther => AOther
      end
  | TTemplate i o => AOk (TG (tg_base t) (tg_infos t ++ [(i, o)]))
  end.
Fixpoint tdo_all (t : tgen) (l : list tcall) : ares tgen :=
  match l with
  | [] => AOk t
  | c :: r => match tdo t c with AOk t' => tdo_all t' r | x => x end
  end.
(** template_generator.cpp:64-74 [Build]; [root] is the project root. *)
Fixpoint tbuild (root : string) (o : gobj) (l : list (string * string)) : ares gobj :=
  match l with
  | [] => AOk o
  | (i, out) :: r =>
      match construct (go_args o) i [] with
      | FErr => AFatal
      | FOther => AOther
      | FOk p =>
          match add_id_info o (lexically_relative (to_path_string p) root) [i] [out] None with
          | AOk o' => tbuild root o' r
          | x => x
          end
      end
  end.
(** template_generator.cpp:23-41 [template_generate_cb]: the text saved to the
    first output, [text f t] being the contents of file [f] at time [t]. [None]:
    the callback fails before saving. *)
Definition template_text (text : string -> N -> string) (a : gart) : option string :=
  match ga_inputs a with
  | [] => None
  | i :: _ =>
      match ga_snap a i with
      | None => None
      | Some t => match construct (ga_args a) (text i t) [] with FOk s => Some s | _ => None end
      end
  end.
