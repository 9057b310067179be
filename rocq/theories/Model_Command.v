(** env::Command: default arguments and pattern substitution.
    Keys are C strings (no NUL byte inside), as the callers use literals. *)
From Verif Require Import Prelude.

(** Result of [fmt::vformat(pattern, store)] with only named string arguments.
    [FOther] marks pattern features that the model does not interpret:
    positional fields ("{}", "{0}") and format specifications ("{x:...}"). *)
Inductive fres := FOk (s : string) | FErr | FOther.

Definition fprefix (s : string) (r : fres) : fres :=
  match r with FOk t => FOk (s +++ t) | x => x end.

Definition ch_lbrace : ascii := "{"%char.
Definition ch_rbrace : ascii := "}"%char.
Definition ch_colon : ascii := ":"%char.

Definition in_range (lo hi c : ascii) : bool :=
  (nat_of_ascii lo <=? nat_of_ascii c) && (nat_of_ascii c <=? nat_of_ascii hi).
Definition is_digit (c : ascii) : bool := in_range "0" "9" c.
(** fmt [is_name_start] *)
Definition is_name_start (c : ascii) : bool :=
  in_range "a" "z" c || in_range "A" "Z" c || Ascii.eqb c "_".
Definition is_name_char (c : ascii) : bool := is_name_start c || is_digit c.

(** State of the format string scanner (fmt [parse_format_string],
    [parse_replacement_field], [parse_arg_id]). *)
Inductive fstate := FText | FOpen | FName (acc : string) | FClose.

Fixpoint fscan (lookup : string -> option string) (st : fstate) (s : string) : fres :=
  match s with
  | EmptyString => match st with FText => FOk "" | _ => FErr end
  | String c r =>
      match st with
      | FText =>
          if Ascii.eqb c ch_lbrace then fscan lookup FOpen r
          else if Ascii.eqb c ch_rbrace then fscan lookup FClose r
          else fprefix (str1 c) (fscan lookup FText r)
      | FClose =>
          if Ascii.eqb c ch_rbrace then fprefix (str1 c) (fscan lookup FText r) else FErr
      | FOpen =>
          if Ascii.eqb c ch_lbrace then fprefix (str1 c) (fscan lookup FText r)
          else if Ascii.eqb c ch_rbrace || Ascii.eqb c ch_colon || is_digit c then FOther
          else if is_name_start c then fscan lookup (FName (str1 c)) r
          else FErr
      | FName acc =>
          if is_name_char c then fscan lookup (FName (acc +++ str1 c)) r
          else match lookup acc with
               | None => FErr
               | Some v =>
                   if Ascii.eqb c ch_rbrace then fprefix v (fscan lookup FText r)
                   else if Ascii.eqb c ch_colon then FOther
                   else FErr
               end
      end
  end.

(** lib/env/include/env/command.h:90 [default_values_], in iteration order. *)
Definition command := list (string * string).

Definition command_init : command := [].

(** command.cpp:29-32 [AddDefaultArgument] ([emplace]: existing keys win). *)
Definition add_default_argument (c : command) (kv : string * string) : command :=
  match assoc (fst kv) c with Some _ => c | None => c ++ [kv] end.

(** command.cpp:34-37 [AddDefaultArguments] ([insert] range); [args] in the
    iteration order of the argument map. *)
Definition add_default_arguments (c : command) (args : list (string * string)) : command :=
  fold_left add_default_argument args c.

(** command.cpp:39-44 [GetDefaultValueByKey] *)
Definition get_default_value (c : command) (k : string) : outcome string :=
  match assoc k c with Some v => Ok v | None => Fatal end.

(** command.cpp:46-72 [Construct]: the store holds the default arguments, then
    the call's arguments; fmt takes the first argument with the field's name.
    A formatting exception is fatal ([FErr]). [args] in iteration order. *)
Definition construct (c : command) (pattern : string) (args : list (string * string)) : fres :=
  fscan (fun k => assoc k (c ++ args)) FText pattern.

(** A history of calls on one Command object. *)
Inductive call :=
| CallAddOne (k v : string)
| CallAddMany (args : list (string * string)).
Definition do_call (c : command) (x : call) : command :=
  match x with
  | CallAddOne k v => add_default_argument c (k, v)
  | CallAddMany a => add_default_arguments c a
  end.
Definition after_calls (h : list call) : command := fold_left do_call h command_init.
