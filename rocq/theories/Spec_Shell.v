(** How /bin/sh splits a command into words (POSIX 2.2, 2.3): blanks separate
    words, double quotes keep blanks. [None]: the text uses characters with another
    meaning to the shell, or a quote is not closed. *)
From Verif Require Import Prelude.

Definition ch_tab : ascii := "009"%char.
Definition sh_blank (c : ascii) : bool := Ascii.eqb c ch_space || Ascii.eqb c ch_tab.
Definition sh_special (c : ascii) : bool := Ascii.eqb c "010" || str_mem c "|&;<>()$`\'*?[#~".
Definition sh_special_quoted (c : ascii) : bool := str_mem c "$`\".

Inductive sh_state := SBlank | SWord (acc : string) | SQuote (acc : string).
Fixpoint sh_scan (st : sh_state) (s : string) : option (list string) :=
  match s with
  | EmptyString => match st with SBlank => Some [] | SWord a => Some [a] | SQuote _ => None end
  | String c r =>
      match st with
      | SBlank =>
          if sh_blank c then sh_scan SBlank r
          else if Ascii.eqb c ch_quote then sh_scan (SQuote "") r
          else if sh_special c then None
          else sh_scan (SWord (str1 c)) r
      | SWord a =>
          if sh_blank c then option_map (cons a) (sh_scan SBlank r)
          else if Ascii.eqb c ch_quote then sh_scan (SQuote a) r
          else if sh_special c then None
          else sh_scan (SWord (a +++ str1 c)) r
      | SQuote a =>
          if Ascii.eqb c ch_quote then sh_scan (SWord a) r
          else if sh_special_quoted c then None
          else sh_scan (SQuote (a +++ str1 c)) r
      end
  end.
Definition shell_words (s : string) : option (list string) := sh_scan SBlank s.

(** The words of several texts. *)
Fixpoint words_of (l : list string) : option (list string) :=
  match l with
  | [] => Some []
  | x :: r => match shell_words x, words_of r with Some a, Some b => Some (a ++ b) | _, _ => None end
  end.

(** Texts without quotes, tabs and characters special to the shell; with and
    without spaces. *)
Fixpoint sh_plain (s : string) : bool :=
  match s with
  | EmptyString => true
  | String c r => negb (sh_special c) && negb (Ascii.eqb c ch_quote) && negb (Ascii.eqb c ch_tab) && sh_plain r
  end.
Definition plain_path (s : string) : Prop := s <> "" /\ sh_plain s = true.
Definition plain_word (s : string) : Prop := plain_path s /\ str_mem ch_space s = false.
