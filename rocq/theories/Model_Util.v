(** String utilities. lib/env/include/env/util.h:113-154. *)
From Verif Require Import Prelude.

(** util.h:113-122 split: getline delivers the text before each delimiter; at
    the end of input it delivers what is left unless nothing is left. *)
Fixpoint getlines (delim : ascii) (acc s : string) : list string :=
  match s with
  | EmptyString => match acc with EmptyString => [] | _ => [acc] end
  | String a r =>
      if Ascii.eqb a delim then acc :: getlines delim "" r
      else getlines delim (acc +++ str1 a) r
  end.
Definition split (s : string) (delim : ascii) : list string := getlines delim "" s.

(** std::isspace in the "C" locale. (The source passes a plain char; for bytes
    above 127 that is outside the function's domain, here they are no space.) *)
Definition isspace (c : ascii) : bool :=
  let n := N_of_ascii c in
  N.eqb n 32 || (N.leb 9 n && N.leb n 13).

(** util.h:125-133 ltrim. *)
Fixpoint ltrim (s : string) : string :=
  match s with
  | EmptyString => EmptyString
  | String a r => if isspace a then ltrim r else s
  end.
(** util.h:135-146 rtrim: erases from behind the last non-space. *)
Fixpoint rtrim (s : string) : string :=
  match s with
  | EmptyString => EmptyString
  | String a r =>
      match rtrim r with
      | EmptyString => if isspace a then EmptyString else str1 a
      | r' => String a r'
      end
  end.
(** util.h:149-154 trim. *)
Definition trim (s : string) : string := rtrim (ltrim s).
