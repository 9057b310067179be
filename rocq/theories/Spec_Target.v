(** What the target theorems talk about: when artifacts are current, and which
    histories of runs, edits, failures and crashes are considered. *)
From Verif Require Import Prelude Model_Json Model_Schema Model_Command Spec_Command Model_ToolchainConfig Model_Target.

(** ** Current artifacts *)

(** The artifact on disk was written by the last command run for it, which
    succeeded, was exactly the command the configuration [c] issues, and saw
    exactly the versions [mt] of its input files. *)
Definition pch_current (e : tenv) (c : cfg) (mt : times) (d : disk) : Prop :=
  exists p, d_pch d = Some p /\ d_pch_bad d = false /\
    pch_command e c = FOk (p_cmd p) /\
    p_text p = pch_header_text (pchs c) /\
    (forall f, In f (headers c ++ pchs c) -> p_snap p f = mt f).

Definition obj_current (e : tenv) (c : cfg) (mt : times) (d : disk) (s : string) : Prop :=
  exists a, d_obj d (obj_of e s) = Some a /\ d_obj_bad d (obj_of e s) = false /\
    compile_command e c s = FOk (a_cmd a) /\
    (forall f, In f (s :: headers c ++ compile_deps c) -> a_snap a f = mt f) /\
    (pchs c <> [] -> a_pch a = d_pch d).

(** Linked from the objects that are on disk now; the objects may be listed in
    any order (it is the iteration order of an unordered_map). *)
Definition tgt_current (e : tenv) (c : cfg) (mt : times) (d : disk) : Prop :=
  exists l ord, d_tgt d = Some l /\ d_tgt_bad d = false /\
    Permutation ord (sources c) /\ link_command e c ord = FOk (l_cmd l) /\
    (forall f, In f (libs c ++ link_deps c) -> l_snap l f = mt f) /\
    (forall s, In s (sources c) -> l_objs l (obj_of e s) = d_obj d (obj_of e s)).

(** Everything the configuration asks for is current with respect to the files
    as they are on [d]. *)
Definition all_current (e : tenv) (c : cfg) (d : disk) : Prop :=
  (pchs c <> [] -> pch_current e c (d_mt d) d) /\
  (forall s, In s (sources c) -> obj_current e c (d_mt d) d s) /\
  tgt_current e c (d_mt d) d.

(** ** Command templates *)

(** [pat] is a pattern of literal text and named fields, none of them in [l]. *)
Definition avoids (pat : string) (l : list string) : Prop :=
  exists toks, pat = render toks /\ Forall token_ok toks /\
    forall f, In f l -> ~ In f (field_names toks).
(** Options that a template may not mention because the stage does not track
    them (C13 shows why). The link template is free. *)
Definition templates_ok (e : tenv) : Prop :=
  avoids (te_compile_command e) ["link_flags"; "lib_dirs"] /\
  avoids (te_pch_command e) ["link_flags"; "lib_dirs"; "pch_object_flags"].

(** ** Histories *)

(** All files the configuration tracks. *)
Definition tracked (c : cfg) : list string :=
  sources c ++ headers c ++ pchs c ++ libs c ++ compile_deps c ++ link_deps c.

(** Two regimes.
    [Quiet]: tracked files change only while no run has looked at them (between
    runs, or before the first task of the run), to any time, also backwards; the process is
    not killed after it executed a command and before the state file is written,
    and writing the state file is not refused.  Configurations are free.
    [Forward]: files may change at any moment but each change gives the file a
    later time than it ever had; the process may be killed at any moment and
    writing the state file may fail; a configuration whose commands may have been
    executed is used again until the state file has been written. *)
Inductive regime := Quiet | Forward.

Record hist := HS {
  h_next : string -> N;         (* above every time the file has had *)
  h_taint : option cfg;         (* commands of this configuration may have run
                                   since the state file was last written *)
  h_lang : option bool;         (* PCH has been used, for this language *)
  h_edited : bool }.            (* a tracked file changed since the first check
                                   of this run *)

(** Configurations considered: object files of different sources differ; once a
    PCH has been used it stays in use, for the same language. *)
Definition permitted (e : tenv) (h : hist) (c : cfg) : Prop :=
  NoDup (map (obj_of e) (sources c)) /\
  (h_lang h <> None -> pchs c <> []) /\
  (forall b, h_lang h = Some b -> contains_cpp e c = b) /\
  (forall c1, h_taint h = Some c1 -> c = c1).

Definition before_checks (st : tstate) : Prop :=
  s_pc st = PcPch \/ (s_pc st = PcObj /\ contains_pch (s_cfg st) = false).
(** Between the PCH stage's look at the headers and the object stage's. *)
Definition in_pch_window (st : tstate) : Prop :=
  contains_pch (s_cfg st) = true /\ (s_pc st = PcPchExec \/ s_pc st = PcObj).

(** The end task writes the state file (fully or not). *)
Definition writes_store (st : tstate) (w : wres) : bool :=
  s_dirty st &&
  match w with WKeep => false | _ => true end &&
  match store_text (update_store (s_buf st) (s_user st)) with Some _ => true | None => false end.

Definition admissible (rg : regime) (e : tenv) (h : hist) (st : tstate) (ev : event) : Prop :=
  match ev with
  | EvEdit f t =>
      match rg with
      | Quiet => s_pc st = Idle \/ before_checks st \/ ~ In f (tracked (s_cfg st))
      | Forward => (forall v, t = Some v -> (h_next h f <= v)%N) /\
                   ~ (in_pch_window st /\ In f (headers (s_cfg st)))
      end
  | EvCrash => rg = Forward \/ h_taint h = None
  | EvDropStore => s_pc st = Idle
  | EvDelObj _ | EvDelPch | EvDelTgt => False
  | EvStart c _ => permitted e h c
  | EvEnd w => rg = Forward \/ s_dirty st = false \/ writes_store st w = true
  | _ => True
  end.

Definition track (e : tenv) (h : hist) (st : tstate) (ev : event) : hist :=
  match ev with
  | EvEdit f t =>
      HS (match t with
          | Some v => upd (h_next h) f (N.max (h_next h f) (v + 1))
          | None => h_next h
          end)
         (h_taint h) (h_lang h)
         (match s_pc st with
          | Idle | PcPch => h_edited h
          | PcObj => h_edited h || contains_pch (s_cfg st) && mem_str f (tracked (s_cfg st))
          | _ => h_edited h || mem_str f (tracked (s_cfg st))
          end)
  | EvStart c _ =>
      HS (h_next h) (h_taint h)
         (if contains_pch c then Some (contains_cpp e c) else h_lang h) false
  | EvPchExec _ | EvCompile _ _ | EvLinkExec _ =>
      HS (h_next h) (Some (s_cfg st)) (h_lang h) (h_edited h)
  | EvDropStore | EvCrashEnd _ => HS (h_next h) None (h_lang h) (h_edited h)
  | EvEnd w =>
      HS (h_next h) (if writes_store st w then None else h_taint h) (h_lang h) (h_edited h)
  | _ => h
  end.

(** At first: no state file; arbitrary files and artifacts on disk. *)
Definition hist0 (d : disk) : hist :=
  HS (fun f => match d_mt d f with Some t => (t + 1)%N | None => 0%N end) None None false.

Inductive history (rg : regime) (e : tenv) (d0 : disk) : list event -> hist -> tstate -> Prop :=
| history_nil : history rg e d0 [] (hist0 d0) (init d0)
| history_snoc evs h st ev st' :
    history rg e d0 evs h st -> admissible rg e h st ev -> step e st ev = Some st' ->
    history rg e d0 (evs ++ [ev]) (track e h st ev) st'.

(** ** Runs *)

(** Everything may happen except: a tracked file changes, a stored or produced
    file is deleted, another configuration is used. *)
Definition undisturbed (c : cfg) (ev : event) : Prop :=
  match ev with
  | EvEdit f _ => ~ In f (tracked c)
  | EvStart c' _ => c' = c
  | EvDropStore | EvDelObj _ | EvDelPch | EvDelTgt => False
  | _ => True
  end.

(** A run of [c] in which no command is needed. *)
Definition idle_run (c : cfg) (ord : list string) : list event :=
  EvStart c ord :: (if contains_pch c then [EvPchCheck] else []) ++ [EvObjCheck; EvLinkCheck; EvEnd WOk].

(** Same state file and same artifacts. *)
Definition same_outputs (d d' : disk) : Prop :=
  d_store d = d_store d' /\ d_pch d = d_pch d' /\ d_obj d = d_obj d' /\ d_tgt d = d_tgt d'.

(** Events of the process running the target, without the environment. *)
Definition compiles (cs : list (string * xres obj_art)) : list event :=
  map (fun x => EvCompile (fst x) (snd x)) cs.

(** The list records exactly these files with the times they have now. *)
Definition recorded_now (mt : times) (files : list string) (l : infolist) : Prop :=
  Forall2 (fun f i => pi_path i = f /\ exists t, mt f = Some t /\ pi_hash i = dec_of_N t) files l.
(** Everything but the sources is as recorded in the stored state [l]. *)
Definition compile_setup_unchanged (l : tschema) (c : cfg) (mt : times) : Prop :=
  ts_preprocessor_flags l = c_preprocessor c /\ ts_common_compile_flags l = c_common c /\
  ts_pch_object_flags l = c_pch_object c /\ ts_asm_compile_flags l = c_asm_flags c /\
  ts_c_compile_flags l = c_c_flags c /\ ts_cpp_compile_flags l = c_cpp_flags c /\
  ts_include_dirs l = dirs (c_include_dirs c) /\
  recorded_now mt (headers c) (ts_headers l) /\ recorded_now mt (compile_deps c) (ts_compile_deps l).
(** Source [p] is recorded in [l] with the time it has now. *)
Definition source_unchanged (l : tschema) (mt : times) (p : string) : Prop :=
  exists t, mt p = Some t /\ il_lookup (ts_sources l) p = Some (dec_of_N t).

(** States that differ only in the order in which parallel compiles finished. *)
Record same_result (a b : tstate) : Prop := {
  sr_ok : s_ok a = s_ok b;
  sr_dirty : s_dirty a = s_dirty b;
  sr_objects : forall k, d_obj (s_disk a) k = d_obj (s_disk b) k;
  sr_bad : forall k, d_obj_bad (s_disk a) k = d_obj_bad (s_disk b) k;
  sr_disk : d_mt (s_disk a) = d_mt (s_disk b) /\ d_pch (s_disk a) = d_pch (s_disk b) /\
            d_tgt (s_disk a) = d_tgt (s_disk b) /\ d_store (s_disk a) = d_store (s_disk b) /\
            d_pch_bad (s_disk a) = d_pch_bad (s_disk b) /\ d_tgt_bad (s_disk a) = d_tgt_bad (s_disk b);
  sr_recorded : Permutation (ts_sources (s_buf a)) (ts_sources (s_buf b)) /\
                with_sources (s_buf a) [] = with_sources (s_buf b) [];
  sr_executed : Permutation (s_log a) (s_log b);
  sr_memory : s_cfg a = s_cfg b /\ s_ord a = s_ord b /\ s_user a = s_user b /\ s_load a = s_load b;
  sr_pc : s_pc a = s_pc b \/
          exists p q, s_pc a = PcCompile p /\ s_pc b = PcCompile q /\ Permutation p q }.

Definition is_start (ev : event) : bool := match ev with EvStart _ _ => true | _ => false end.

(** The stages of executed commands. *)
Definition is_xpch (x : xcmd) : Prop := match x with XPch _ => True | _ => False end.
Definition is_xobj (x : xcmd) : Prop := match x with XObj _ _ => True | _ => False end.
Definition is_xlink (x : xcmd) : Prop := match x with XLink _ => True | _ => False end.
(** [ev] is a command of stage [stage] that fails or cannot be started. *)
Definition failing (ev : event) (stage : xcmd -> Prop) : Prop :=
  match ev with
  | EvPchExec XOk | EvCompile _ XOk | EvLinkExec XOk => False
  | EvPchExec _ => stage = is_xpch
  | EvCompile _ _ => stage = is_xobj
  | EvLinkExec _ => stage = is_xlink
  | _ => False
  end.

(** Steps of the run itself; [good]: with every command and write succeeding. *)
Definition own (ev : event) : Prop :=
  match ev with
  | EvPchCheck | EvPchExec _ | EvObjCheck | EvCompile _ _ | EvLinkCheck | EvLinkExec _ | EvEnd _ => True
  | _ => False
  end.
Definition good (ev : event) : Prop :=
  match ev with
  | EvPchCheck | EvPchExec XOk | EvObjCheck | EvCompile _ XOk | EvLinkCheck | EvLinkExec XOk | EvEnd WOk => True
  | _ => False
  end.
(** No command of the configuration is empty (an empty one is refused). *)
Definition commands_nonempty (e : tenv) (c : cfg) : Prop :=
  (pchs c <> [] -> pch_command e c <> FOk "") /\
  (forall s, In s (sources c) -> compile_command e c s <> FOk "") /\
  (forall ord, link_command e c ord <> FOk "").

(** What may follow the compile phase in the same run (the state file is
    written fully or not at all). *)
Definition after_compiles (ev : event) : Prop :=
  match ev with
  | EvLinkCheck | EvLinkExec _ | EvEnd WOk | EvEnd WKeep | EvEdit _ _ | EvFail | EvCrash => True
  | _ => False
  end.
(** States that cannot be told apart: same verdict, same files (the recorded
    sources may be listed in another order), same commands executed. *)
Definition same_target (a b : option tgt_art) : Prop :=
  match a, b with
  | Some x, Some y => l_cmd x = l_cmd y /\ l_snap x = l_snap y /\ forall k, l_objs x k = l_objs y k
  | None, None => True
  | _, _ => False
  end.
Definition same_record (a b : option tschema) : Prop :=
  match a, b with
  | Some x, Some y => Permutation (ts_sources x) (ts_sources y) /\ with_sources x [] = with_sources y []
  | None, None => True
  | _, _ => False
  end.
Record same_run (a b : tstate) : Prop := {
  sn_ok : s_ok a = s_ok b;
  sn_dirty : s_dirty a = s_dirty b;
  sn_files : d_mt (s_disk a) = d_mt (s_disk b) /\ d_pch (s_disk a) = d_pch (s_disk b) /\
             d_pch_bad (s_disk a) = d_pch_bad (s_disk b) /\ d_tgt_bad (s_disk a) = d_tgt_bad (s_disk b);
  sn_objects : forall k, d_obj (s_disk a) k = d_obj (s_disk b) k /\ d_obj_bad (s_disk a) k = d_obj_bad (s_disk b) k;
  sn_target : same_target (d_tgt (s_disk a)) (d_tgt (s_disk b));
  sn_recorded : same_record (stored (s_disk a)) (stored (s_disk b));
  sn_executed : Permutation (s_log a) (s_log b) }.
