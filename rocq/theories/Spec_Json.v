(** What the storage theorems talk about. *)
From Verif Require Import Prelude Model_Json Model_Schema.

(** Unicode scalar values and their UTF-8 encoding (RFC 3629, table 3). *)
Definition scalar (cp : N) : Prop :=
  (cp < 55296 \/ 57344 <= cp < 1114112)%N.
Definition chr (n : N) : ascii := ascii_of_N n.
Definition encode_utf8 (cp : N) : string :=
  if (cp <? 128)%N then String (chr cp) ""
  else if (cp <? 2048)%N then
    String (chr (192 + cp / 64)) (String (chr (128 + cp mod 64)) "")
  else if (cp <? 65536)%N then
    String (chr (224 + cp / 4096)) (String (chr (128 + cp / 64 mod 64))
      (String (chr (128 + cp mod 64)) ""))
  else
    String (chr (240 + cp / 262144)) (String (chr (128 + cp / 4096 mod 64))
      (String (chr (128 + cp / 64 mod 64)) (String (chr (128 + cp mod 64)) ""))).
Fixpoint encode_all (cps : list N) : string :=
  match cps with [] => "" | c :: r => encode_utf8 c +++ encode_all r end.
Definition valid_utf8 (s : string) : Prop :=
  exists cps, Forall scalar cps /\ s = encode_all cps.

(** All the text in a schema. *)
Definition info_strings (l : infolist) : list string := flat_map (fun i => [pi_path i; pi_hash i]) l.
Definition target_strings (s : tschema) : list string :=
  ts_name s :: info_strings (ts_sources s) ++ info_strings (ts_headers s) ++ info_strings (ts_pchs s)
  ++ info_strings (ts_libs s) ++ ts_external_libs s ++ ts_include_dirs s ++ ts_lib_dirs s
  ++ ts_preprocessor_flags s ++ ts_common_compile_flags s ++ ts_pch_compile_flags s
  ++ ts_pch_object_flags s ++ ts_asm_compile_flags s ++ ts_c_compile_flags s
  ++ ts_cpp_compile_flags s ++ ts_link_flags s
  ++ info_strings (ts_compile_deps s) ++ info_strings (ts_link_deps s).
Definition id_strings (kv : string * idinfo) : list string :=
  fst kv :: info_strings (ii_inputs (snd kv)) ++ ii_outputs (snd kv).
Definition gen_strings (s : gschema) : list string :=
  gs_name s :: flat_map id_strings (gs_ids s).

(** A generator schema as the program can hold it: ids are map keys, blob
    entries are bytes. *)
Definition gen_ok (s : gschema) : Prop :=
  NoDup (map fst (gs_ids s)) /\
  Forall (fun kv => Forall (fun b => (b < 256)%N) (ii_blob (snd kv))) (gs_ids s).

Definition strict_prefix (p t : string) : Prop := exists q, q <> "" /\ t = p +++ q.

(** The 21 keys of a stored target. *)
Definition target_keys : list string :=
  ["name"; "type"; "sources"; "headers"; "pchs"; "libs"; "external_libs"; "include_dirs";
   "lib_dirs"; "preprocessor_flags"; "common_compile_flags"; "pch_compile_flags";
   "pch_object_flags"; "asm_compile_flags"; "c_compile_flags"; "cpp_compile_flags"; "link_flags";
   "compile_dependencies"; "link_dependencies"; "pch_compiled"; "target_linked"].

(** Shapes a stored field may have. *)
Inductive shape := ShString | ShBool | ShStrings | ShInfos | ShAny.
Definition is_string (v : json) : Prop := exists s, v = JStr s.
Definition is_info (v : json) : Prop := exists l p h,
  v = JObj l /\ assoc "path" l = Some (JStr p) /\ assoc "hash" l = Some (JStr h).
Definition has_shape (sh : shape) (v : json) : Prop :=
  match sh with
  | ShString => is_string v
  | ShBool => exists b, v = JBool b
  | ShStrings => exists l, v = JArr l /\ Forall is_string l
  | ShInfos => exists l, v = JArr l /\ Forall is_info l
  | ShAny => True
  end.
(** The expected fields of a stored target.  "type" may have any shape: a value
    that names no target type is read as the undefined type. *)
Definition target_fields : list (string * shape) :=
  [("name", ShString); ("type", ShAny); ("sources", ShInfos); ("headers", ShInfos);
   ("pchs", ShInfos); ("libs", ShInfos); ("external_libs", ShStrings);
   ("include_dirs", ShStrings); ("lib_dirs", ShStrings); ("preprocessor_flags", ShStrings);
   ("common_compile_flags", ShStrings); ("pch_compile_flags", ShStrings);
   ("pch_object_flags", ShStrings); ("asm_compile_flags", ShStrings);
   ("c_compile_flags", ShStrings); ("cpp_compile_flags", ShStrings); ("link_flags", ShStrings);
   ("compile_dependencies", ShInfos); ("link_dependencies", ShInfos);
   ("pch_compiled", ShBool); ("target_linked", ShBool)].

(** The value of a member of a JSON object. *)
Definition member (j : json) (k : string) : option json :=
  match j with JObj l => assoc k l | _ => None end.
