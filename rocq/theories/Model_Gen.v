(** The custom generator: lib/target/src/custom_generator/custom_generator.cpp,
    lib/target/include/target/custom_generator.h, custom_generator/custom_blob_handler.h,
    custom_generator/custom_generator_context.h.
    A generator is driven through histories of events: runs of possibly different
    programs, edits, crashes.  What a callback does is up to the history: it
    succeeds or not and may write any files. *)
From Verif Require Import Prelude Model_Path Model_Json Model_Schema Model_Command Model_Target.

(** ** Configuration *)

(** custom_blob_handler.h:33-65: the three virtual functions. [bh_equal] may throw
    ([None]): lines 92-95 deserialize, which throws on a value of another type. *)
Record handler := BH {
  bh_verify : list N -> bool;
  bh_equal : list N -> list N -> option bool;
  bh_data : list N }.

(** custom_blob_handler.h:37-46 [CheckChanged]; [None] = an exception. *)
Definition check_changed (h : handler) (previous current : list N) : option bool :=
  if negb (bh_verify h previous) then None
  else if negb (bh_verify h current) then None
  else match bh_equal h previous current with Some b => Some (negb b) | None => None end.
(** custom_blob_handler.h:48-54 [GetSerializedData] *)
Definition serialized_data (h : handler) : option (list N) :=
  if bh_verify h (bh_data h) then Some (bh_data h) else None.

(** custom_generator.h:42-51 [UserIdInfo], before [ConvertToInternal]: expanded
    patterns; custom_generator.cpp:219-226 emplaces them. The callback is the
    environment's. *)
Record gid := GI { gi_in : list string; gi_out : list string; gi_handler : option handler }.
(** The normalized paths kept by [PathInfoList] and [PathList]. *)
Definition inputs_of (g : gid) : list string := il_paths (infos (gi_in g)).
Definition outputs_of (g : gid) : list string := dirs (gi_out g).
(** The generator object: [command_] default arguments and [user_.ids]. *)
Record gobj := GO { go_args : command; go_ids : list (string * gid) }.

(** custom_generator.cpp:241-259 [Initialize] *)
Definition gen_new (project_root project_build root build : string) : gobj :=
  GO (add_default_arguments command_init
        [("project_root_dir", project_root); ("project_build_dir", project_build);
         ("current_root_dir", root); ("current_build_dir", build)]) [].

(** Results of API calls: an exception may end them, or a pattern is outside of
    the modelled format language. *)
Inductive ares (A : Type) := AOk (a : A) | AFatal | AOther.
Arguments AOk {A} a.
Arguments AFatal {A}.
Arguments AOther {A}.

(** custom_generator.cpp:189-192 [AddPattern] *)
Definition add_pattern (o : gobj) (k pattern : string) : ares gobj :=
  match construct (go_args o) pattern [] with
  | FOk v => AOk (GO (add_default_argument (go_args o) (k, v)) (go_ids o))
  | FErr => AFatal
  | FOther => AOther
  end.
(** custom_generator.cpp:194-199 [AddPatterns]; [l] in iteration order of the map. *)
Fixpoint add_patterns (o : gobj) (l : list (string * string)) : ares gobj :=
  match l with
  | [] => AOk o
  | (k, v) :: r =>
      match add_pattern o k v with AOk o' => add_patterns o' r | x => x end
  end.

(** custom_generator.cpp:219-226: each pattern is expanded, in iteration order. *)
Fixpoint construct_all (c : command) (l : list string) : ares (list string) :=
  match l with
  | [] => AOk []
  | p :: r =>
      match construct c p [] with
      | FErr => AFatal
      | FOther => AOther
      | FOk v => match construct_all c r with AOk vs => AOk (v :: vs) | AFatal => AFatal | AOther => AOther end
      end
  end.

(** custom_generator.cpp:212-233 [AddIdInfo]; [inputs] and [outputs] in iteration
    order of the unordered_sets; the callback is not null. *)
Definition add_id_info (o : gobj) (id : string) (inputs outputs : list string) (h : option handler) : ares gobj :=
  match assoc id (go_ids o) with
  | Some _ => AFatal
  | None =>
      match construct_all (go_args o) inputs with
      | AFatal => AFatal
      | AOther => AOther
      | AOk ins =>
          match construct_all (go_args o) outputs with
          | AFatal => AFatal
          | AOther => AOther
          | AOk outs => AOk (GO (go_args o) (go_ids o ++ [(id, GI ins outs h)]))
          end
      end
  end.

(** ** Disk *)

(** What the last callback invoked for an id was given and which versions of the
    files it saw (custom_generator_context.h:28-39). *)
Record gart := GA {
  ga_args : command;
  ga_inputs : list string;
  ga_outputs : list string;
  ga_blob : list N;
  ga_snap : times }.

Record gdisk := GD {
  gd_mt : times;
  gd_store : option string;                (* text of {build}/{name}.json *)
  (* history: the last callback invoked for the id, if it succeeded *)
  gd_made : string -> option gart }.

(** custom_generator.h:53-57: json keys are the ids. [u8] as in
    [gen_load_text]. What LoadFromFile finds. *)
Definition gstored (u8 : string -> N) (d : gdisk) : option gschema := bind (gd_store d) (gen_load_text u8).

(** ** One id *)

(** custom_generator.h:44-48 [UserIdInfo::ConvertToInternal]; [None] = exception. *)
Definition convert (mt : times) (g : gid) : option idinfo :=
  let (ins, ok) := hash_all mt (infos (gi_in g)) in
  if ok then
    match gi_handler g with
    | None => Some (II ins (outputs_of g) [])
    | Some h => match serialized_data h with
                | Some b => Some (II ins (outputs_of g) b)
                | None => None
                end
    end
  else None.

(** custom_generator.cpp:70-84 [IsChanged]; [None] = exception. *)
Definition is_changed (h : option handler) (previous current : idinfo) : option bool :=
  if negb (infolist_eqb (ii_inputs previous) (ii_inputs current)) ||
     negb (str_list_eqb (ii_outputs previous) (ii_outputs current))
  then Some true
  else match h with
       | None => Some false
       | Some b => check_changed b (ii_blob previous) (ii_blob current)
       end.

(** ** The run *)

(** One [TaskFunctor]: not started; about to invoke the callback; finished with
    [should_run] and [run_success] (custom_generator.cpp:113-116). *)
Inductive gtask := TWait | TCall (i : idinfo) | TEnd (should_run run_success : bool).

Inductive gpc := GIdle | GBuilt | GTasks.

(** An invoked callback: id, arguments, result. *)
Record gcall := GC { gc_id : string; gc_art : gart; gc_ok : bool }.

Record gstate := GST {
  g_disk : gdisk;
  g_pc : gpc;
  g_cfg : gobj;
  g_load : option gschema;          (* GetLoad() if IsLoaded() *)
  g_dirty : bool;                   (* dirty_ *)
  g_tasks : list (string * gtask);
  g_ok : bool;                      (* env::get_task_state() == SUCCESS *)
  g_log : list gcall }.             (* all callbacks ever invoked *)

Inductive gevent :=
(* environment, at any time *)
| GEdit (f : string) (t : option N)
| GFail                              (* a task of another builder failed *)
| GCrash                             (* the process is killed *)
| GDropStore                         (* the state file is deleted *)
(* the run *)
| GStart (o : gobj)                  (* new process: Build() of a configured generator *)
| GSetup                             (* the generate task up to the subtasks *)
| GEnter (id : string)               (* a subtask up to the callback *)
| GCall (id : string) (ok : bool) (writes : list (string * option N))
| GFinish (w : wres)                 (* after subflow.join() *)
| GCrashFinish (n : nat).            (* killed while writing the state file *)

Definition set_gmt (d : gdisk) (m : times) : gdisk := GD m (gd_store d) (gd_made d).
Definition set_gstore (d : gdisk) (s : option string) : gdisk := GD (gd_mt d) s (gd_made d).
Definition set_made (d : gdisk) (id : string) (a : option gart) : gdisk :=
  GD (gd_mt d) (gd_store d) (upd (gd_made d) id a).
Definition write_all (m : times) (w : list (string * option N)) : times :=
  fold_left (fun m x => upd m (fst x) (snd x)) w m.

Definition gwith_disk (st : gstate) (d : gdisk) : gstate :=
  GST d (g_pc st) (g_cfg st) (g_load st) (g_dirty st) (g_tasks st) (g_ok st) (g_log st).
Definition gwith_ok (st : gstate) (b : bool) : gstate :=
  GST (g_disk st) (g_pc st) (g_cfg st) (g_load st) (g_dirty st) (g_tasks st) b (g_log st).
Definition gidle (st : gstate) : gstate :=
  GST (g_disk st) GIdle (g_cfg st) (g_load st) false [] (g_ok st) (g_log st).
Definition set_task (st : gstate) (id : string) (t : gtask) : gstate :=
  GST (g_disk st) (g_pc st) (g_cfg st) (g_load st) (g_dirty st)
      (map (fun x => if String.eqb (fst x) id then (id, t) else x) (g_tasks st)) (g_ok st) (g_log st).
Definition glogged (st : gstate) (c : gcall) : gstate :=
  GST (g_disk st) (g_pc st) (g_cfg st) (g_load st) (g_dirty st) (g_tasks st) (g_ok st) (g_log st ++ [c]).

(** user_.ids is a map and blobs are bytes. *)
Definition gobj_ok (o : gobj) : bool :=
  nodup_str (map fst (go_ids o)) &&
  forallb (fun x => match gi_handler (snd x) with
                    | Some h => forallb (fun b => N.ltb b 256) (bh_data h)
                    | None => true
                    end) (go_ids o).

(** custom_generator.cpp:235-238 [Build] in a new process. *)
Definition gstart (u8 : string -> N) (st : gstate) (o : gobj) : option gstate :=
  if gobj_ok o then
    Some (GST (g_disk st) GBuilt o (gstored u8 (g_disk st)) false [] true (g_log st))
  else None.

(** Ids in the stored state, none if it was not loaded. *)
Definition loaded_ids (l : option gschema) : list (string * idinfo) :=
  match l with Some s => gs_ids s | None => [] end.

(** custom_generator.cpp:163-187 [ComputeBuild] with 43-69: not loaded, or some id
    was removed or added. *)
Definition compute_build (l : option gschema) (o : gobj) : bool :=
  match l with
  | None => true
  | Some s =>
      existsb (fun x => match assoc (fst x) (go_ids o) with None => true | Some _ => false end) (gs_ids s) ||
      existsb (fun x => match assoc (fst x) (gs_ids s) with None => true | Some _ => false end) (go_ids o)
  end.

(** custom_generator.cpp:262-289 *)
Definition gsetup (st : gstate) : gstate :=
  if negb (g_ok st) then gidle st
  else GST (g_disk st) GTasks (g_cfg st) (g_load st) (compute_build (g_load st) (g_cfg st))
           (map (fun x => (fst x, TWait)) (go_ids (g_cfg st))) (g_ok st) (g_log st).

(** custom_generator.cpp:126-135: a subtask up to the callback. *)
Definition genter (st : gstate) (id : string) (g : gid) : gstate :=
  if negb (g_ok st) then set_task st id (TEnd false false)
  else
    match convert (gd_mt (g_disk st)) g with
    | None => gwith_ok (set_task st id (TEnd false false)) false
    | Some cur =>
        match assoc id (loaded_ids (g_load st)) with
        | None => set_task st id (TCall cur)
        | Some prev =>
            match is_changed (gi_handler g) prev cur with
            | None => gwith_ok (set_task st id (TEnd false false)) false
            | Some true => set_task st id (TCall cur)
            | Some false => set_task st id (TEnd false true)
            end
        end
    end.

(** custom_generator.cpp:136-150: the callback, with what it reads, then what it
    writes. A callback that throws counts as failed. *)
Definition gcallback (st : gstate) (id : string) (i : idinfo) (ok : bool) (writes : list (string * option N)) : gstate :=
  let d := g_disk st in
  let a := GA (go_args (g_cfg st)) (il_paths (ii_inputs i)) (ii_outputs i) (ii_blob i) (gd_mt d) in
  let d' := set_made (set_gmt d (write_all (gd_mt d) writes)) id (if ok then Some a else None) in
  let st1 := glogged (set_task (gwith_disk st d') id (TEnd true ok)) (GC id a ok) in
  if ok then st1 else gwith_ok st1 false.

Definition ended (t : gtask) : bool := match t with TEnd _ _ => true | _ => false end.
Definition should (t : gtask) : bool := match t with TEnd true _ => true | _ => false end.
Definition succeeded (t : gtask) : bool := match t with TEnd _ true => true | _ => false end.

(** custom_generator.cpp:294-300 and custom_generator.h:53-58: the successful ids,
    with the inputs hashed and the blob serialized once more; [None] = exception. *)
Fixpoint final_ids (mt : times) (ids : list (string * gid)) (tasks : list (string * gtask))
  : option (list (string * idinfo)) :=
  match ids with
  | [] => Some []
  | (id, g) :: r =>
      match assoc id tasks with
      | Some t =>
          if succeeded t then
            match convert mt g with
            | Some i => match final_ids mt r tasks with Some l => Some ((id, i) :: l) | None => None end
            | None => None
            end
          else final_ids mt r tasks
      | None => final_ids mt r tasks
      end
  end.

(** The text to be stored; the schema's name is never assigned. *)
Definition final_text (st : gstate) : option string :=
  match final_ids (gd_mt (g_disk st)) (go_ids (g_cfg st)) (g_tasks st) with
  | Some ids => gen_store_text (GS "" ids)
  | None => None
  end.
Definition gdirty (st : gstate) : bool := g_dirty st || existsb (fun x => should (snd x)) (g_tasks st).

(** custom_generator.cpp:294-313 *)
Definition gfinish (st : gstate) (w : wres) : option gstate :=
  if gdirty st then
    match final_text st with
    | None => match w with WOk => Some (gwith_ok (gidle st) false) | _ => None end
    | Some t =>
        match w with
        | WOk => Some (gwith_disk (gidle st) (set_gstore (g_disk st) (Some t)))
        | WKeep => Some (gwith_ok (gidle st) false)
        | WShort n rep =>
            match short n t with
            | None => None
            | Some t' =>
                let st1 := gwith_disk (gidle st) (set_gstore (g_disk st) (Some t')) in
                Some (if rep then st1 else gwith_ok st1 false)
            end
        end
    end
  else match w with WOk => Some (gidle st) | _ => None end.

Definition gkilled (st : gstate) : gstate := gwith_ok (gidle st) false.

Definition gstep (u8 : string -> N) (st : gstate) (ev : gevent) : option gstate :=
  let d := g_disk st in
  match ev with
  | GEdit f t => Some (gwith_disk st (set_gmt d (upd (gd_mt d) f t)))
  | GFail => Some (gwith_ok st false)
  | GDropStore => Some (gwith_disk st (set_gstore d None))
  | GCrash => match g_pc st with GIdle => None | _ => Some (gkilled st) end
  | GStart o => match g_pc st with GIdle => gstart u8 st o | _ => None end
  | GSetup => match g_pc st with GBuilt => Some (gsetup st) | _ => None end
  | GEnter id =>
      match g_pc st, assoc id (g_tasks st), assoc id (go_ids (g_cfg st)) with
      | GTasks, Some TWait, Some g => Some (genter st id g)
      | _, _, _ => None
      end
  | GCall id ok writes =>
      match g_pc st, assoc id (g_tasks st) with
      | GTasks, Some (TCall i) => Some (gcallback st id i ok writes)
      | _, _ => None
      end
  | GFinish w =>
      match g_pc st with
      | GTasks => if forallb (fun x => ended (snd x)) (g_tasks st) then gfinish st w else None
      | _ => None
      end
  | GCrashFinish n =>
      match g_pc st with
      | GTasks =>
          if forallb (fun x => ended (snd x)) (g_tasks st) && gdirty st then
            match bind (final_text st) (short n) with
            | Some t' => Some (gkilled (gwith_disk st (set_gstore d (Some t'))))
            | None => None
            end
          else None
      | _ => None
      end
  end.

Fixpoint gexec (u8 : string -> N) (st : gstate) (evs : list gevent) : option gstate :=
  match evs with
  | [] => Some st
  | ev :: r => match gstep u8 st ev with Some st' => gexec u8 st' r | None => None end
  end.

(** Before the first run: no state file, any files. *)
Definition ginit (m : times) : gstate :=
  GST (GD m None (fun _ => None)) GIdle (GO [] []) None false [] false [].
