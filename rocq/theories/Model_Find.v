(** Looking for toolchains and host executables. POSIX only (delimiter ':',
    empty executable extension). *)
From Verif Require Import Prelude Model_Path Model_Util.

(** What the process sees of the file system and of its environment.
    A directory entry: its name and whether it is a regular file (symbolic links
    followed). The order is that of the directory iterator. Errors while an
    already opened directory is read, and fs::exists throwing, are not modelled. *)
Inductive dir := DAbsent | DUnreadable | DEntries (l : list (string * bool)).
Record world := WORLD { w_env : string -> option string; w_dir : string -> dir }.

(** lib/env/include/env/host_os_util.h get_os_envvar_delim *)
Definition path_delim : ascii := ":"%char.

(** ** Toolchain::Find *)

(** lib/toolchain/include/toolchain/common/toolchain_executables.h:26-38 *)
Record exes := EXES { x_as : string; x_c : string; x_cpp : string; x_ar : string; x_link : string }.

(** lib/toolchain/include/toolchain/api/toolchain_find.h:44-51 *)
Record find_config := FC { fc_env_vars : list string; fc_paths : list string }.

(** lib/toolchain/src/api/toolchain_find.cpp:28-40 ParseEnvVarToPaths *)
Definition parse_env_var (w : world) (v : string) : outcome (list string) :=
  match w_env w v with
  | None => Fatal
  | Some s => Ok (split s path_delim)
  end.

(** toolchain_find.cpp:42-60 ContainsToolchainExecutables: the names are removed
    from a set as their files are met. *)
Definition erase (x : string) (s : list string) : list string := filter (fun y => negb (String.eqb x y)) s.
Fixpoint erase_found (entries : list (string * bool)) (s : list string) : list string :=
  match entries with
  | [] => s
  | (name, regular) :: r => erase_found r (if regular then erase (stem_of name) s else s)
  end.
Definition contains_executables (entries : list (string * bool)) (e : exes) : bool :=
  is_nil (erase_found entries [x_as e; x_c e; x_cpp e; x_ar e; x_link e]).

(** toolchain_find.cpp:75-80 *)
Fixpoint add_env_paths (w : world) (vars : list string) (paths : list string) : outcome (list string) :=
  match vars with
  | [] => Ok paths
  | v :: r => match parse_env_var w v with Ok l => add_env_paths w r (paths ++ l) | Fatal => Fatal end
  end.
(** toolchain_find.cpp:87-103 *)
Fixpoint search_dirs (w : world) (e : exes) (paths found : list string) : list string :=
  match paths with
  | [] => found
  | p :: r =>
      search_dirs w e r
        match w_dir w p with
        | DEntries entries => if contains_executables entries e then found ++ [p] else found
        | DAbsent | DUnreadable => found
        end
  end.
(** toolchain_find.cpp:66-106 Find *)
Definition find (w : world) (e : exes) (c : find_config) : outcome (list string) :=
  match add_env_paths w (fc_env_vars c) (fc_paths c) with
  | Ok paths => Ok (search_dirs w e paths [])
  | Fatal => Fatal
  end.

(** ** Toolchain::Verify *)

(** lib/toolchain/include/toolchain/api/toolchain_verify.h: ToolchainCompilerInfo *)
Record info := INFO { i_path : string; i_version : string; i_arch : string }.

(** lib/toolchain/src/api/toolchain_verify.cpp:37-70 CreateToolchainExecutables *)
Definition create_executables (path : string) (e : exes) : exes :=
  EXES (path_div path (x_as e)) (path_div path (x_c e)) (path_div path (x_cpp e))
       (path_div path (x_ar e)) (path_div path (x_link e)).

(** toolchain_verify.cpp:76-99 Verify: the executables_ afterwards and the
    result. [cb]: the information callback, if one is set. *)
Definition verify (w : world) (cb : option (exes -> option info)) (e : exes) (c : find_config) : exes * outcome info :=
  match find w e c with
  | Fatal => (e, Fatal)
  | Ok [] => (e, Fatal)
  | Ok (p :: _) =>
      let e' := create_executables p e in
      match cb with
      | None => (e, Fatal)
      | Some f =>
          match f e' with
          | None => (e, Fatal)
          | Some i => (e', Ok (INFO p (i_version i) (i_arch i)))
          end
      end
  end.

(** ** BuildccFind: plugins/src/buildcc_find.cpp *)

(** plugins/include/plugins/buildcc_find.h:41-45 *)
Inductive find_type := HostExecutable | BuildccLibrary | BuildccPlugin.
(** regex_, type_, host_env_vars_, target_matches_ (buildcc_find.h:79-86) *)
Record finder := FINDER { f_regex : string; f_type : find_type; f_env_vars : list string; f_matches : list string }.

(** buildcc_find.cpp:37-80 SearchEnv; [rx re s]: std::regex_match (assuming
    [re] is a well-formed expression). *)
Fixpoint search_paths (w : world) (m : string -> bool) (paths : list string) : list string :=
  match paths with
  | [] => []
  | p :: r =>
      match w_dir w p with
      | DEntries entries => map (fun en => path_div p (fst en)) (filter (fun en => m (fst en)) entries)
      | DAbsent | DUnreadable => []
      end ++ search_paths w m r
  end.
Definition search_env (w : world) (rx : string -> string -> bool) (re v : string) : list string :=
  match w_env w v with
  | None => []
  | Some s => search_paths w (rx re) (split s path_delim)
  end.

(** buildcc_find.cpp:103-111 SearchHostExecutable *)
Fixpoint search_vars (w : world) (rx : string -> string -> bool) (re : string) (vars matches : list string) : list string :=
  match vars with
  | [] => matches
  | v :: r => search_vars w rx re r (matches ++ search_env w rx re v)
  end.
(** buildcc_find.cpp:87-100 Search *)
Definition search (w : world) (rx : string -> string -> bool) (f : finder) : finder * bool :=
  match f_type f with
  | HostExecutable =>
      let m := search_vars w rx (f_regex f) (f_env_vars f) (f_matches f) in
      (FINDER (f_regex f) (f_type f) (f_env_vars f) m, negb (is_nil m))
  | BuildccLibrary | BuildccPlugin => (f, false)
  end.
(** buildcc_find.h:56-63 AddHostEnvVar *)
Definition add_env_var (f : finder) (v : string) : finder :=
  FINDER (f_regex f) (f_type f) (f_env_vars f ++ [v]) (f_matches f).
