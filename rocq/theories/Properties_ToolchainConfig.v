(** C30: classification of files. *)
From Verif Require Import Prelude Model_Path Model_ToolchainConfig Spec_Find Spec_ToolchainConfig Proof_ToolchainConfig.

(** Precedence C, C++, Asm, Header. *)
Theorem C30_classes : forall (t : tconfig) (p : string), proper p ->
  (get_file_ext t p = ExtC <-> exists x, file_has_ext p x /\ In x (tc_c t)) /\
  (get_file_ext t p = ExtCpp <-> exists x, file_has_ext p x /\ ~ In x (tc_c t) /\ In x (tc_cpp t)) /\
  (get_file_ext t p = ExtAsm <-> exists x, file_has_ext p x /\ ~ In x (tc_c t) /\ ~ In x (tc_cpp t) /\ In x (tc_asm t)) /\
  (get_file_ext t p = ExtHeader <-> exists x, file_has_ext p x /\
      ~ In x (tc_c t) /\ ~ In x (tc_cpp t) /\ ~ In x (tc_asm t) /\ In x (tc_header t)) /\
  (get_file_ext t p = ExtInvalid <-> forall x, file_has_ext p x ->
      ~ In x (tc_c t) /\ ~ In x (tc_cpp t) /\ ~ In x (tc_asm t) /\ ~ In x (tc_header t)).
Proof. exact classify. Qed.
Print Assumptions C30_classes.

Theorem C30_valid_source : forall (t : tconfig) (p : string),
  is_valid_source t p = true <-> get_file_ext t p = ExtC \/ get_file_ext t p = ExtCpp \/ get_file_ext t p = ExtAsm.
Proof. exact source_iff. Qed.
Print Assumptions C30_valid_source.

Theorem C30_valid_header : forall (t : tconfig) (p : string), proper p ->
  (is_valid_header t p = true <-> exists x, file_has_ext p x /\ In x (tc_header t)).
Proof. exact header_iff. Qed.
Print Assumptions C30_valid_header.

Theorem C30_expects : forall (t : tconfig) (p : string),
  (expects_valid_source t p = Ok tt <-> is_valid_source t p = true) /\
  (expects_valid_header t p = Ok tt <-> is_valid_header t p = true).
Proof. exact expects_iff. Qed.
Print Assumptions C30_expects.

Example C30_case :
  let t := TC ".o" ".h" ".gch" "-I" "-L" [".c"; ".h"] [".cpp"; ".c"] [".s"] [".h"; ".hpp"] in
  proper "/src/x.y/main.tar.c" /\ file_has_ext "/src/x.y/main.tar.c" ".c" /\
  get_file_ext t "/src/x.y/main.tar.c" = ExtC /\ get_file_ext t "a.cpp" = ExtCpp /\ get_file_ext t "a.h" = ExtC /\
  is_valid_header t "a.h" = true /\ get_file_ext t "/src/.c" = ExtInvalid /\ get_file_ext t "x.y/c" = ExtInvalid /\
  get_file_ext t "b.hpp" = ExtHeader /\ get_file_ext tconfig_default "a.S" = ExtAsm.
Proof.
  cbv zeta. split; [split; vm_compute; discriminate|]. split; [exists "main.tar"%string, "c"%string; repeat split; discriminate|].
  vm_compute. repeat split.
Qed.
