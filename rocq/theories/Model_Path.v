(** [std::filesystem::path] as used by BuildCC, POSIX flavour (libstdc++).
    A path is its native string; the functions below decompose it. *)
From Verif Require Import Prelude.

(** Decomposition of a POSIX path: root directory flag, file names, trailing
    separator.  Runs of separators count as one, as in [path::begin()]. *)
Record ppath := PP { pp_abs : bool; pp_comps : list string; pp_trail : bool }.

Definition nonempty_str (s : string) : bool :=
  match s with EmptyString => false | _ => true end.

Definition starts_slash (s : string) : bool :=
  match s with String a _ => Ascii.eqb a ch_slash | EmptyString => false end.

Fixpoint ends_slash (s : string) : bool :=
  match s with
  | EmptyString => false
  | String a EmptyString => Ascii.eqb a ch_slash
  | String _ r => ends_slash r
  end.

Definition is_nil {A} (l : list A) : bool := match l with [] => true | _ => false end.

(** libstdc++ [path::_M_split_cmpts]. *)
Definition parse_path (s : string) : ppath :=
  let cs := filter nonempty_str (pieces ch_slash s) in
  PP (starts_slash s) cs (ends_slash s && negb (is_nil cs)).

Definition print_path (p : ppath) : string :=
  (if pp_abs p then "/" else "") +++ join "/" (pp_comps p)
  +++ (if pp_trail p then "/" else "").

(** The sequence visited by [path::begin() .. path::end()]. *)
Definition path_elems (p : ppath) : list string :=
  (if pp_abs p then ["/"] else []) ++ pp_comps p ++ (if pp_trail p then [""] else []).

Definition is_dot (s : string) : bool := String.eqb s ".".
Definition is_dotdot (s : string) : bool := String.eqb s "..".

(** One step of libstdc++ [path::lexically_normal]: [stk] is the result so far
    (last name first), [tr] says whether it ends in a separator. *)
Definition normal_step (abs : bool) (acc : list string * bool) (c : string)
  : list string * bool :=
  let (stk, tr) := acc in
  if is_dot c then (stk, true)
  else if is_dotdot c then
    match stk with
    | t :: r => if is_dotdot t then (c :: stk, false) else (r, true)
    | [] => if abs then ([], tr) else ([c], false)
    end
  else (c :: stk, false).

(** libstdc++ [path::lexically_normal] on a decomposed, non-empty path. *)
Definition normal (p : ppath) : ppath :=
  let (stk, tr) := fold_left (normal_step (pp_abs p)) (pp_comps p) ([], false) in
  let tr' := tr || pp_trail p in
  match stk with
  | [] => if pp_abs p then PP true [] false else PP false ["."] false
  | t :: _ => PP (pp_abs p) (rev stk) (tr' && negb (is_dotdot t))
  end.

(** schema/include/schema/path.h:59-61 [PathInfo::ToPathString] (also
    path.h:237-239 [path_as_string]).  [make_preferred] is the identity on POSIX. *)
Definition to_path_string (s : string) : string :=
  match s with
  | EmptyString => EmptyString
  | _ => print_path (normal (parse_path s))
  end.

(** schema/include/schema/path.h:76-83 [PathInfo::ToPathDisplayString]; this is
    also what [fmt::format("{}", fs::path)] prints (path.h:253-259). *)
Definition to_display_string (s : string) : string :=
  let p := to_path_string s in
  if str_mem ch_space p then str1 ch_quote +++ p +++ str1 ch_quote else p.

(** [path::has_filename] : non-empty and not ending in a separator. *)
Definition has_filename (s : string) : bool := nonempty_str s && negb (ends_slash s).

(** [path::operator/] *)
Definition path_div (a b : string) : string :=
  if starts_slash b then b
  else if has_filename a then a +++ "/" +++ b
  else a +++ b.

(** [path::filename] *)
Definition filename (s : string) : string := last (pieces ch_slash s) "".

(** [path::remove_filename]: everything up to and including the last separator. *)
Fixpoint dir_prefix (s : string) : string :=
  match s with
  | EmptyString => EmptyString
  | String a r =>
      if str_mem ch_slash s then String a (dir_prefix r) else EmptyString
  end.

(** [path::replace_filename(f)] = remove_filename, then operator/=. *)
Definition replace_filename (s f : string) : string := path_div (dir_prefix s) f.

(** Common prefix of two element sequences ([std::mismatch]). *)
Fixpoint mismatch (a b : list string) : list string * list string :=
  match a, b with
  | x :: a', y :: b' => if String.eqb x y then mismatch a' b' else (a, b)
  | _, _ => (a, b)
  end.

(** Depth count of the rest of the base path in [lexically_relative]. *)
Definition depth_step (n : Z) (c : string) : Z :=
  if is_dotdot c then (n - 1)%Z
  else if negb (nonempty_str c) || is_dot c then n else (n + 1)%Z.
Definition depth (l : list string) : Z := fold_left depth_step l 0%Z.

(** libstdc++ [path::lexically_relative(base)]; the empty string is the empty
    path returned when no relative path exists. *)
Definition lexically_relative (p base : string) : string :=
  let pe := parse_path p in
  let be := parse_path base in
  if negb (Bool.eqb (pp_abs pe) (pp_abs be)) then ""
  else
    let (a, b) := mismatch (path_elems pe) (path_elems be) in
    match a, b with
    | [], [] => "."
    | _, _ =>
        let n := depth b in
        if (n =? 0)%Z && match a with [] => true | x :: _ => negb (nonempty_str x) end
        then "."
        else if (n <? 0)%Z then ""
        else fold_left path_div (repeat ".." (Z.to_nat n) ++ a) ""
    end.

(** [s.find("..") != npos] *)
Fixpoint has_dotdot (s : string) : bool :=
  match s with
  | String a ((String b _) as r) =>
      (Ascii.eqb a ch_dot && Ascii.eqb b ch_dot) || has_dotdot r
  | _ => false
  end.

(** [std::replace(relstr.begin(), relstr.end(), '.', '_')] *)
Definition dots_to_unders (s : string) : string :=
  str_map (fun c => if Ascii.eqb c ch_dot then ch_under else c) s.

(** lib/target/src/target/friend/compile_object.cpp:109-164
    [CompileObject::ConstructObjectPath]; [root]/[build] are
    [GetTargetRootDir()]/[GetTargetBuildDir()], [obj_ext] comes from the
    toolchain config. *)
Definition object_path (root build obj_ext source : string) : string :=
  let rel := lexically_relative source root in
  let rel' := if has_dotdot rel then dots_to_unders rel else rel in
  replace_filename (path_div build rel') (filename source +++ obj_ext).

(** [path::replace_extension(ext)] restricted to the way BuildCC uses it
    (compile_pch.cpp:129-143): the file name is "buildcc_pch" followed by an
    extension that starts with a dot (or is empty). The stem is what precedes the last dot of the
    file name (libstdc++ [_M_find_extension]: no extension for ".", ".." or a
    name whose only dot is the first character). *)
Fixpoint last_dot (s : string) (i : nat) (found : option nat) : option nat :=
  match s with
  | EmptyString => found
  | String a r => last_dot r (S i) (if Ascii.eqb a ch_dot then Some i else found)
  end.
Definition stem_of (f : string) : string :=
  if is_dot f || is_dotdot f then f
  else match last_dot f 0 None with
       | None => f
       | Some O => f
       | Some i => String.substring 0 i f
       end.
Definition extension_of (f : string) : string :=
  if is_dot f || is_dotdot f then ""
  else match last_dot f 0 None with
       | None => ""
       | Some O => ""
       | Some i => String.substring i (String.length f - i) f
       end.
Definition replace_extension (s ext : string) : string :=
  let e := match ext with
           | EmptyString => ""
           | String a _ => if Ascii.eqb a ch_dot then ext else "." +++ ext
           end in
  dir_prefix s +++ stem_of (filename s) +++ e.

(** compile_pch.cpp:123-143: ConstructHeaderPath, ConstructCompilePath,
    ConstructSourcePath, ConstructObjectPath. *)
Definition pch_header_path (build header_ext : string) : string :=
  path_div build ("buildcc_pch" +++ header_ext).
Definition pch_compile_path (build header_ext compile_ext : string) : string :=
  replace_extension (pch_header_path build header_ext) (header_ext +++ compile_ext).
Definition pch_source_path (build header_ext : string) (has_cpp : bool) : string :=
  replace_extension (pch_header_path build header_ext) (if has_cpp then ".cpp" else ".c").
Definition pch_object_path (build header_ext obj_ext : string) : string :=
  replace_extension (pch_header_path build header_ext) obj_ext.

(** compile_pch.cpp:112-117: the name under which the placeholder source is
    saved is the *display* string of the source path. *)
Definition pch_source_saved_as (build header_ext : string) (has_cpp : bool) : string :=
  to_display_string (pch_source_path build header_ext has_cpp).

(** link_target.cpp:52-58 ConstructOutputPath *)
Definition target_output_path (build name ext : string) : string :=
  path_div build (name +++ ext).
