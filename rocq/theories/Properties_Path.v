(** C21, C22, C23, C25: paths. *)
From Verif Require Import Prelude Model_Path Spec_Path Proof_Path Proof_ObjectPath.

(** C21: path_as_string is idempotent, yields a canonical spelling, and keeps
    the location the path leads to (from any working directory). *)
Theorem C21_normalisation_idempotent : forall s : string,
  to_path_string (to_path_string s) = to_path_string s.
Proof. exact to_path_string_idem. Qed.
Print Assumptions C21_normalisation_idempotent.

Theorem C21_normalisation_canonical : forall s : string, canonical (to_path_string s).
Proof. exact to_path_string_canonical. Qed.
Print Assumptions C21_normalisation_canonical.

Theorem C21_normalisation_keeps_location : forall (cwd : list string) (s : string),
  leads_to cwd (to_path_string s) = leads_to cwd s.
Proof. exact to_path_string_location. Qed.
Print Assumptions C21_normalisation_keeps_location.

(** Two absolute spellings of one location get one stored spelling, up to a
    trailing separator. *)
Theorem C21_same_location_same_text : forall s s' : string,
  absolute s -> absolute s' -> leads_to [] s = leads_to [] s' ->
  exists core, (to_path_string s = core \/ to_path_string s = core +++ "/") /\
               (to_path_string s' = core \/ to_path_string s' = core +++ "/").
Proof. exact same_location_same_string. Qed.
Print Assumptions C21_same_location_same_text.

Example C21_case :
  to_path_string "a//b/./../c d/../../.." = ".." /\
  to_path_string "/x/./y/../z/" = "/x/z/" /\
  leads_to [] "/x/./y/../z/" = leads_to [] "/../x//z" /\
  to_path_string "/../x//z" = "/x/z".
Proof. repeat split. Qed.

(** C22: under the root, the object path mirrors the source location inside the
    build directory, and different locations get different object paths. *)
Theorem C22_object_path_mirrors : forall (root build ext s : string) (l : list string) (x : string),
  build <> "" -> under root (l ++ [x]) s -> ~ contains_dotdot (join "/" (l ++ [x])) ->
  str_mem "/"%char ext = false ->
  under build (l ++ [x +++ ext]) (object_path root build ext s).
Proof. exact in_root_objects. Qed.
Print Assumptions C22_object_path_mirrors.

Theorem C22_object_path_injective : forall (root build ext s1 s2 : string) (l1 l2 : list string),
  under root l1 s1 -> under root l2 s2 ->
  ~ contains_dotdot (join "/" l1) -> ~ contains_dotdot (join "/" l2) ->
  str_mem "/"%char ext = false ->
  object_path root build ext s1 = object_path root build ext s2 -> l1 = l2.
Proof. exact in_root_objects_inj. Qed.
Print Assumptions C22_object_path_injective.

Example C22_case :
  under "/p/root" ["src"; "a.cpp"] "/p/root/src/a.cpp" /\
  ~ contains_dotdot "src/a.cpp" /\
  object_path "/p/root" "/p/root/_b/t" ".o" "/p/root/src/a.cpp" = "/p/root/_b/t/src/a.cpp.o".
Proof.
  split; [|split; [|reflexivity]].
  - split; [discriminate|]. split; [reflexivity|]. split; [split; intros _; eexists; reflexivity|].
    intros p Hp. assert (H : ends_slash "/p/root/src/a.cpp" = true) by (apply ends_slash_iff; eauto).
    discriminate.
  - intros (a & b & H). do 8 (destruct a as [|? a]; [discriminate|injection H as _ H]).
    do 2 (destruct a as [|? a]; [discriminate|]; try injection H as _ H); discriminate.
Qed.

(** C23: outside the root (or with ".." in a name) two sources can share an
    object path. *)
Theorem C23_out_of_root_refuted : exists root build ext s1 s2 : string,
  abs_canonical root /\ abs_canonical s1 /\ abs_canonical s2 /\ s1 <> s2 /\
  object_path root build ext s1 = object_path root build ext s2.
Proof.
  exists "/p/root", "/p/root/_b", ".o", "/p/a.b/x.cpp", "/p/a_b/x.cpp".
  repeat split; try discriminate;
    [exists ["p"; "root"]|exists ["p"; "a.b"; "x.cpp"]|exists ["p"; "a_b"; "x.cpp"]];
    (split; [reflexivity|repeat constructor; discriminate]).
Qed.
Print Assumptions C23_out_of_root_refuted.

(** Even under the root, if a directory name contains "..". *)
Theorem C23_in_root_dotdot_name_refuted : exists root build ext s1 s2 : string,
  under root ["a..b"; "x.cpp"] s1 /\ under root ["a__b"; "x.cpp"] s2 /\
  object_path root build ext s1 = object_path root build ext s2.
Proof.
  exists "/p", "/p/_b", ".o", "/p/a..b/x.cpp", "/p/a__b/x.cpp".
  split; [|split; [|reflexivity]]; (split; [discriminate|]; split; [reflexivity|];
    split; [split; intros _; eexists; reflexivity|]; intros p Hp;
    match type of Hp with ?s = _ =>
      assert (H : ends_slash s = true) by (apply ends_slash_iff; eauto); discriminate end).
Qed.
Print Assumptions C23_in_root_dotdot_name_refuted.

(** Exactly when two sources share an object path. *)
Theorem C23_collision_characterised : forall root build ext s1 s2 : string,
  abs_canonical root -> abs_canonical s1 -> abs_canonical s2 -> str_mem "/"%char ext = false ->
  (object_path root build ext s1 = object_path root build ext s2 <->
   filename s1 = filename s2 /\
   dir_prefix (flat (lexically_relative s1 root)) = dir_prefix (flat (lexically_relative s2 root))).
Proof. exact object_collision. Qed.
Print Assumptions C23_collision_characterised.

(** The property holds for sources anywhere (in or out of the root) as long as
    no directory name contains '_'. *)
Theorem C23_no_underscore_partial : forall root build ext s1 s2 : string,
  abs_canonical root -> abs_canonical s1 -> abs_canonical s2 -> str_mem "/"%char ext = false ->
  (forall t, names root <> names s1 ++ t) -> (forall t, names root <> names s2 ++ t) ->
  Forall (fun n => str_mem "_"%char n = false) (dir_names s1) ->
  Forall (fun n => str_mem "_"%char n = false) (dir_names s2) ->
  object_path root build ext s1 = object_path root build ext s2 -> s1 = s2.
Proof. exact no_underscore_inj. Qed.
Print Assumptions C23_no_underscore_partial.

Example C23_case :
  abs_canonical "/p/root" /\ abs_canonical "/p/a.b/x.cpp" /\
  (forall t, names "/p/root" <> names "/p/a.b/x.cpp" ++ t) /\
  Forall (fun n => str_mem "_"%char n = false) (dir_names "/p/a.b/x.cpp") /\
  object_path "/p/root" "/b" ".o" "/p/a.b/x.cpp" = "/b/__/a_b/x.cpp.o".
Proof.
  split; [exists ["p"; "root"]; split; [reflexivity|repeat constructor; discriminate]|].
  split; [exists ["p"; "a.b"; "x.cpp"]; split; [reflexivity|repeat constructor; discriminate]|].
  split; [intros t; discriminate|]. split; [repeat constructor|reflexivity].
Qed.

(** C25: the placeholder source is saved under the name the PCH command reads
    iff that path has no space; refuted in general. *)
Theorem C25_pch_source_no_space_partial : forall (build header_ext : string) (has_cpp : bool),
  pch_source_saved_as build header_ext has_cpp = to_path_string (pch_source_path build header_ext has_cpp)
  <-> str_mem " "%char (to_path_string (pch_source_path build header_ext has_cpp)) = false.
Proof. exact saved_as_iff. Qed.
Print Assumptions C25_pch_source_no_space_partial.

Theorem C25_pch_source_refuted : exists (build header_ext : string) (has_cpp : bool),
  absolute build /\ forall cwd,
  leads_to cwd (pch_source_saved_as build header_ext has_cpp) <>
  leads_to cwd (pch_source_path build header_ext has_cpp).
Proof.
  exists "/p/my build", ".h", true. split; [eexists; reflexivity|].
  intros cwd. discriminate.
Qed.
Print Assumptions C25_pch_source_refuted.

Example C25_case :
  pch_source_saved_as "/p/b" ".h" true = "/p/b/buildcc_pch.cpp" /\
  pch_source_saved_as "/p/my b" ".h" false = """/p/my b/buildcc_pch.c""".
Proof. split; reflexivity. Qed.
