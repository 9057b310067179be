(** The serialized state: schema/include/schema/{path,target_schema,target_type,
    custom_generator_schema}.h and the serializers built on them. *)
From Verif Require Import Prelude Model_Path Model_Json.

(** schema/path.h:38-97 [PathInfo] *)
Record pathinfo := PI { pi_path : string; pi_hash : string }.

(** path.h:47-49 *)
Definition pathinfo_eqb (a b : pathinfo) : bool :=
  String.eqb (pi_path a) (pi_path b) && String.eqb (pi_hash a) (pi_hash b).

(** path.h:151-231 [PathInfoList]: [infos_]. *)
Definition infolist := list pathinfo.
Fixpoint infolist_eqb (a b : infolist) : bool :=   (* path.h:183-185, 221 *)
  match a, b with
  | [], [] => true
  | x :: xs, y :: ys => pathinfo_eqb x y && infolist_eqb xs ys
  | _, _ => false
  end.
(** path.h:162-165 [Emplace] *)
Definition il_emplace (l : infolist) (p hash : string) : infolist := l ++ [PI (to_path_string p) hash].
(** path.h:170-172 [Insert] *)
Definition il_insert (l other : infolist) : infolist := l ++ other.
(** path.h:197-203 [GetPaths] *)
Definition il_paths (l : infolist) : list string := map pi_path l.
(** path.h:189-195 [GetUnorderedPathInfos]: first entry of a path wins. *)
Definition il_lookup (l : infolist) (p : string) : option string :=
  assoc p (map (fun i => (pi_path i, pi_hash i)) l).

(** path.h:102-145 [PathList]: [paths_]. *)
Definition pathlist := list string.
(** path.h:111-114 [Emplace] *)
Definition pl_emplace (l : pathlist) (p : string) : pathlist := l ++ [to_path_string p].
Definition pl_insert (l other : pathlist) : pathlist := l ++ other.

(** path.h:206-219 [ComputeHash] given the last-write time of the file
    ([None] = error code, fatal); the time is a uint64 rendered in decimal. *)
Definition compute_hash (mt : string -> option N) (p : string) : outcome string :=
  match mt (to_path_string p) with Some t => Ok (dec_of_N t) | None => Fatal end.

(** schema/target_type.h:26-31 *)
Inductive target_type := TExecutable | TStaticLibrary | TDynamicLibrary | TUndefined.

(** schema/target_schema.h:28-56 [TargetSchema] *)
Record tschema := TS {
  ts_name : string;
  ts_type : target_type;
  ts_sources : infolist;
  ts_headers : infolist;
  ts_pchs : infolist;
  ts_libs : infolist;
  ts_external_libs : list string;
  ts_include_dirs : pathlist;
  ts_lib_dirs : pathlist;
  ts_preprocessor_flags : list string;
  ts_common_compile_flags : list string;
  ts_pch_compile_flags : list string;
  ts_pch_object_flags : list string;
  ts_asm_compile_flags : list string;
  ts_c_compile_flags : list string;
  ts_cpp_compile_flags : list string;
  ts_link_flags : list string;
  ts_compile_deps : infolist;
  ts_link_deps : infolist;
  ts_pch_compiled : bool;
  ts_target_linked : bool }.

(** schema/custom_generator_schema.h:33-55 [IdInfo] and 59-60 the schema; the
    ids are in the iteration order of the unordered_map, keys distinct. *)
Record idinfo := II { ii_inputs : infolist; ii_outputs : pathlist; ii_blob : list N }.
Record gschema := GS { gs_name : string; gs_ids : list (string * idinfo) }.

(** ** to_json *)

Definition strs_to_json (l : list string) : json := JArr (map JStr l).
(** path.h:85-88 *)
Definition pathinfo_to_json (i : pathinfo) : json :=
  JObj [("path", JStr (pi_path i)); ("hash", JStr (pi_hash i))].
(** path.h:223 *)
Definition infolist_to_json (l : infolist) : json := JArr (map pathinfo_to_json l).
(** target_type.h:40-47 *)
Definition type_to_json (t : target_type) : json :=
  match t with
  | TExecutable => JStr "executable"
  | TStaticLibrary => JStr "static_library"
  | TDynamicLibrary => JStr "dynamic_library"
  | TUndefined => JNull
  end.
(** target_schema.h:89-113 *)
Definition target_to_json (s : tschema) : json := JObj [
  ("name", JStr (ts_name s));
  ("type", type_to_json (ts_type s));
  ("sources", infolist_to_json (ts_sources s));
  ("headers", infolist_to_json (ts_headers s));
  ("pchs", infolist_to_json (ts_pchs s));
  ("libs", infolist_to_json (ts_libs s));
  ("external_libs", strs_to_json (ts_external_libs s));
  ("include_dirs", strs_to_json (ts_include_dirs s));
  ("lib_dirs", strs_to_json (ts_lib_dirs s));
  ("preprocessor_flags", strs_to_json (ts_preprocessor_flags s));
  ("common_compile_flags", strs_to_json (ts_common_compile_flags s));
  ("pch_compile_flags", strs_to_json (ts_pch_compile_flags s));
  ("pch_object_flags", strs_to_json (ts_pch_object_flags s));
  ("asm_compile_flags", strs_to_json (ts_asm_compile_flags s));
  ("c_compile_flags", strs_to_json (ts_c_compile_flags s));
  ("cpp_compile_flags", strs_to_json (ts_cpp_compile_flags s));
  ("link_flags", strs_to_json (ts_link_flags s));
  ("compile_dependencies", infolist_to_json (ts_compile_deps s));
  ("link_dependencies", infolist_to_json (ts_link_deps s));
  ("pch_compiled", JBool (ts_pch_compiled s));
  ("target_linked", JBool (ts_target_linked s))].
(** custom_generator_schema.h:44-48, 62-65 *)
Definition idinfo_to_json (i : idinfo) : json := JObj [
  ("inputs", infolist_to_json (ii_inputs i));
  ("outputs", strs_to_json (ii_outputs i));
  ("userblob", JArr (map (fun b => JInt (Z.of_N b)) (ii_blob i)))].
Definition gen_to_json (s : gschema) : json := JObj [
  ("name", JStr (gs_name s));
  ("ids", JObj (map (fun kv => (fst kv, idinfo_to_json (snd kv))) (gs_ids s)))].

(** ** from_json; [None] = exception *)

Definition bind {A B} (o : option A) (f : A -> option B) : option B :=
  match o with Some a => f a | None => None end.
Notation "'let*' x ':=' e 'in' f" := (bind e (fun x => f))
  (at level 200, x name, e at level 100, f at level 200).

(** [j.at(key)] *)
Definition jat (j : json) (k : string) : option json :=
  match j with JObj l => assoc k l | _ => None end.
Definition get_string (j : json) : option string :=
  match j with JStr s => Some s | _ => None end.
Definition get_bool (j : json) : option bool :=
  match j with JBool b => Some b | _ => None end.
Fixpoint get_all {A} (f : json -> option A) (l : list json) : option (list A) :=
  match l with
  | [] => Some []
  | x :: r => let* a := f x in let* b := get_all f r in Some (a :: b)
  end.
Definition get_array {A} (f : json -> option A) (j : json) : option (list A) :=
  match j with JArr l => get_all f l | _ => None end.
Definition get_strings (j : json) : option (list string) := get_array get_string j.
(** path.h:90-93 *)
Definition get_pathinfo (j : json) : option pathinfo :=
  let* p := bind (jat j "path") get_string in
  let* h := bind (jat j "hash") get_string in Some (PI p h).
Definition get_infos (j : json) : option infolist := get_array get_pathinfo j.
(** target_type.h:50-62: anything unknown is Undefined *)
Definition get_type (j : json) : option target_type :=
  match j with
  | JStr s =>
      Some (if String.eqb s "executable" then TExecutable
            else if String.eqb s "static_library" then TStaticLibrary
            else if String.eqb s "dynamic_library" then TDynamicLibrary
            else TUndefined)
  | _ => Some TUndefined
  end.
Definition get_at {A} (j : json) (k : string) (f : json -> option A) : option A :=
  bind (jat j k) f.
(** target_schema.h:115-139 *)
Definition target_from_json (j : json) : option tschema :=
  let* name := get_at j "name" get_string in
  let* type := get_at j "type" get_type in
  let* sources := get_at j "sources" get_infos in
  let* headers := get_at j "headers" get_infos in
  let* pchs := get_at j "pchs" get_infos in
  let* libs := get_at j "libs" get_infos in
  let* external_libs := get_at j "external_libs" get_strings in
  let* include_dirs := get_at j "include_dirs" get_strings in
  let* lib_dirs := get_at j "lib_dirs" get_strings in
  let* preprocessor_flags := get_at j "preprocessor_flags" get_strings in
  let* common_compile_flags := get_at j "common_compile_flags" get_strings in
  let* pch_compile_flags := get_at j "pch_compile_flags" get_strings in
  let* pch_object_flags := get_at j "pch_object_flags" get_strings in
  let* asm_compile_flags := get_at j "asm_compile_flags" get_strings in
  let* c_compile_flags := get_at j "c_compile_flags" get_strings in
  let* cpp_compile_flags := get_at j "cpp_compile_flags" get_strings in
  let* link_flags := get_at j "link_flags" get_strings in
  let* compile_deps := get_at j "compile_dependencies" get_infos in
  let* link_deps := get_at j "link_dependencies" get_infos in
  let* pch_compiled := get_at j "pch_compiled" get_bool in
  let* target_linked := get_at j "target_linked" get_bool in
  Some (TS name type sources headers pchs libs external_libs include_dirs lib_dirs
           preprocessor_flags common_compile_flags pch_compile_flags pch_object_flags
           asm_compile_flags c_compile_flags cpp_compile_flags link_flags
           compile_deps link_deps pch_compiled target_linked).

(** [get_to] of a uint8_t: nlohmann converts any number or boolean with a
    static_cast; [real_u8] is the conversion of a floating point number. *)
Definition get_u8 (real_u8 : string -> N) (j : json) : option N :=
  match j with
  | JInt z => Some (Z.to_N (z mod 256))
  | JReal t => Some (real_u8 t)
  | JBool b => Some (if b then 1%N else 0%N)
  | _ => None
  end.
(** custom_generator_schema.h:50-54 *)
Definition get_idinfo (real_u8 : string -> N) (j : json) : option idinfo :=
  let* i := get_at j "inputs" get_infos in
  let* o := get_at j "outputs" get_strings in
  let* b := get_at j "userblob" (get_array (get_u8 real_u8)) in
  Some (II i o b).
Fixpoint get_members {A} (f : json -> option A) (l : list (string * json)) : option (list (string * A)) :=
  match l with
  | [] => Some []
  | (k, x) :: r => let* a := f x in let* b := get_members f r in Some ((k, a) :: b)
  end.
Definition get_map {A} (f : json -> option A) (j : json) : option (list (string * A)) :=
  match j with JObj l => get_members f l | _ => None end.
(** custom_generator_schema.h:67-70 *)
Definition gen_from_json (real_u8 : string -> N) (j : json) : option gschema :=
  let* name := get_at j "name" get_string in
  let* ids := get_at j "ids" (get_map (get_idinfo real_u8)) in
  Some (GS name ids).

(** ** Files *)

(** schema/src/target_serialization.cpp:68-73 [Store]: the text written;
    [None] = dump throws. *)
Definition store_text (s : tschema) : option string := dump4 (target_to_json s).
(** target_serialization.cpp:53-66 [Load] with serialization_interface.h:37-55;
    [None] = not loaded ([load_] keeps its previous value). *)
Definition load_text (t : string) : option tschema := bind (parse_json t) target_from_json.
(** custom_generator_serialization.cpp:31-52 *)
Definition gen_store_text (s : gschema) : option string := dump4 (gen_to_json s).
Definition gen_load_text (real_u8 : string -> N) (t : string) : option gschema :=
  bind (parse_json t) (gen_from_json real_u8).

(** serialization_interface.h:37-55 [LoadFromFile] on [load_], [loaded_] and the
    content of the file ([None] = load_file fails); returns the new members and
    the result. *)
Definition load_from_file {A} (load : string -> option A) (st : A * bool) (file : option string)
  : (A * bool) * bool :=
  match file with
  | None => (st, false)
  | Some t =>
      match load t with
      | Some s => ((s, true), true)
      | None => ((fst st, false), false)
      end
  end.
