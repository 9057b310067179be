(** Contents of files: what compilers read and write, beside the times that the
    target looks at. *)
From Verif Require Import Prelude Model_Json Model_Schema Model_Command Model_ToolchainConfig Model_Target Spec_Target.

Definition contents := string -> option string.    (* None: no such file *)

(** Deterministic tools: what a command writes depends on the command, on the
    contents of files and on the precompiled header or the objects as they are
    when it runs. *)
Record tools := TOOLS {
  run_pch : string -> fres -> contents -> string;       (* the text of the generated header *)
  run_cc : string -> contents -> option string -> string;
  run_ld : string -> contents -> contents -> string }.  (* files, objects *)

Record bytes := BY { b_files : contents; b_pch : option string; b_obj : contents; b_tgt : option string }.

(** What the log of events does not say: the contents an edit gives to a file,
    and what a failed command leaves behind: the old file, nothing, or junk. *)
Inductive note := Nothing | Contents (x : string) | Kept | Gone | Junk (x : string).

(** The provenance that stands for junk: a command that is never run. *)
Definition only (x : string) : times := fun f => if String.eqb f x then Some 0%N else None.
Definition junk_pch (x : string) : pch_art := PA "" FErr (only x).
Definition junk_obj (x : string) : obj_art := OA "" (only x) None.
Definition junk_tgt (x : string) : tgt_art := TA "" (only x) (fun _ => None).

Definition left_behind {A} (junk : string -> A) (lo old : option A) (n : note) : Prop :=
  match n with
  | Kept => lo = old
  | Gone => lo = None
  | Junk x => lo = Some (junk x)
  | _ => False
  end.
Definition bytes_left (old : option string) (n : note) : option string :=
  match n with Kept => old | Junk x => Some x | _ => None end.

(** The notes fit the events. *)
Definition noted (e : tenv) (st : tstate) (ev : event) (n : note) : Prop :=
  match ev with
  | EvEdit _ (Some _) => exists x, n = Contents x
  | EvPchExec (XFail lo) => left_behind junk_pch lo (d_pch (s_disk st)) n
  | EvCompile s (XFail lo) => left_behind junk_obj lo (d_obj (s_disk st) (obj_of e s)) n
  | EvLinkExec (XFail lo) => left_behind junk_tgt lo (d_tgt (s_disk st)) n
  | _ => n = Nothing
  end.

(** What a command run by [r] leaves where its output goes. *)
Definition output {A} (cmd : fres) (r : xres A) (n : note) (old : option string) (made : string -> string) : option string :=
  match cmd, r with
  | FOk "", _ => old                  (* an empty command is refused *)
  | FOk cmd, XOk => Some (made cmd)
  | FOk _, XFail _ => bytes_left old n
  | _, _ => old
  end.
Definition written (t : tools) (e : tenv) (st : tstate) (b : bytes) (ev : event) (n : note) : bytes :=
  let c := s_cfg st in
  match ev with
  | EvEdit f m =>
      BY (upd (b_files b) f (match m, n with Some _, Contents x => Some x | _, _ => None end)) (b_pch b) (b_obj b) (b_tgt b)
  | EvPchExec r =>
      BY (b_files b) (output (pch_command e c) r n (b_pch b) (fun cmd => run_pch t cmd (pch_header_text (pchs c)) (b_files b)))
         (b_obj b) (b_tgt b)
  | EvCompile s r =>
      BY (b_files b) (b_pch b)
         (upd (b_obj b) (obj_of e s)
            (output (compile_command e c s) r n (b_obj b (obj_of e s)) (fun cmd => run_cc t cmd (b_files b) (b_pch b))))
         (b_tgt b)
  | EvLinkExec r =>
      BY (b_files b) (b_pch b) (b_obj b)
         (output (link_command e c (s_ord st)) r n (b_tgt b) (fun cmd => run_ld t cmd (b_files b) (b_obj b)))
  | _ => b
  end.

(** A history of Spec_Target, with the contents. *)
Inductive bhistory (t : tools) (rg : regime) (e : tenv) (d0 : disk) (b0 : bytes) :
  list (event * note) -> hist -> tstate -> bytes -> Prop :=
| bh_nil : bhistory t rg e d0 b0 [] (hist0 d0) (init d0) b0
| bh_snoc evs h st b ev n st' :
    bhistory t rg e d0 b0 evs h st b -> admissible rg e h st ev -> noted e st ev n -> step e st ev = Some st' ->
    bhistory t rg e d0 b0 (evs ++ [(ev, n)]) (track e h st ev) st' (written t e st b ev n).

(** At first: any files; the build directory is empty or holds junk. *)
Definition junk_or_none {A} (junk : string -> A) (a : option A) (x : option string) : Prop :=
  match x with Some y => a = Some (junk y) | None => a = None end.
Definition fresh_start (d0 : disk) (b0 : bytes) : Prop :=
  (forall f, b_files b0 f = None <-> d_mt d0 f = None) /\
  junk_or_none junk_pch (d_pch d0) (b_pch b0) /\ (forall k, junk_or_none junk_obj (d_obj d0 k) (b_obj b0 k)) /\
  junk_or_none junk_tgt (d_tgt d0) (b_tgt b0).

(** A file that has the same time twice has the same contents both times. *)
Definition times_tell (V : string -> N -> string) (d0 : disk) (b0 : bytes) (evs : list (event * note)) : Prop :=
  (forall f v, d_mt d0 f = Some v -> b_files b0 f = Some (V f v)) /\
  (forall f v n, In (EvEdit f (Some v), n) evs -> n = Contents (V f v)).

(** The commands of [c] read no files but those the target was told about. *)
Definition same_on (l : list string) (F G : contents) : Prop := forall f, In f l -> F f = G f.
Record reads_declared (t : tools) (e : tenv) (c : cfg) : Prop := {
  rd_pch : forall cmd text F G, pch_command e c = FOk cmd -> same_on (headers c ++ pchs c) F G ->
    run_pch t cmd text F = run_pch t cmd text G;
  rd_cc : forall s cmd F G p, In s (sources c) -> compile_command e c s = FOk cmd ->
    same_on (s :: headers c ++ compile_deps c) F G -> run_cc t cmd F p = run_cc t cmd G p;
  rd_cc_nopch : forall s cmd F p q, In s (sources c) -> compile_command e c s = FOk cmd -> pchs c = [] ->
    run_cc t cmd F p = run_cc t cmd F q;
  rd_ld : forall ord cmd F G O P, Permutation ord (sources c) -> link_command e c ord = FOk cmd ->
    same_on (libs c ++ link_deps c) F G -> same_on (map (obj_of e) (sources c)) O P ->
    run_ld t cmd F O = run_ld t cmd G P }.

(** The precompiled header, the objects and the target are what the commands
    of [c] make of the files as they are now. *)
Definition made_from (t : tools) (e : tenv) (c : cfg) (b : bytes) : Prop :=
  (pchs c <> [] -> exists cmd, pch_command e c = FOk cmd /\
     b_pch b = Some (run_pch t cmd (pch_header_text (pchs c)) (b_files b))) /\
  (forall s, In s (sources c) -> exists cmd, compile_command e c s = FOk cmd /\
     b_obj b (obj_of e s) = Some (run_cc t cmd (b_files b) (b_pch b))) /\
  (exists ord cmd, Permutation ord (sources c) /\ link_command e c ord = FOk cmd /\
     b_tgt b = Some (run_ld t cmd (b_files b) (b_obj b))).

(** The order of the objects makes no difference to what the linker writes. *)
Definition order_free (t : tools) (e : tenv) (c : cfg) : Prop :=
  forall ord ord' cmd cmd' F O, Permutation ord (sources c) -> Permutation ord' (sources c) ->
    link_command e c ord = FOk cmd -> link_command e c ord' = FOk cmd' -> run_ld t cmd F O = run_ld t cmd' F O.

(** What a successful run of [c] can leave: some history leads to it. *)
Definition leaves (t : tools) (e : tenv) (c : cfg) (b : bytes) : Prop :=
  exists V rg d0 b0 evs w n h st, bhistory t rg e d0 b0 (evs ++ [(EvEnd w, n)]) h st b /\ s_ok st = true /\ h_edited h = false /\
    s_cfg st = c /\ fresh_start d0 b0 /\ times_tell V d0 b0 (evs ++ [(EvEnd w, n)]).
