(** Proofs about the example with generated sources. *)
From Verif Require Import Prelude Proof_Prelude Model_Path Spec_Path Proof_Path Proof_ObjectPath Proof_Relative Model_Json Model_Schema Model_Command
  Model_ToolchainConfig Model_Target Spec_Target Model_Gcc Model_Gen Spec_Gen Model_FileGen Spec_FileGen Model_Sync Spec_Sync Model_Api Spec_Api Model_Toolchains
  Model_Targets Spec_Targets Proof_Targets Model_Reg Spec_Reg Model_Project Spec_Project Model_Full Spec_Full Proof_Full3 Proof_Full4
  Model_Script Spec_Script Proof_Script Model_Chain Spec_Chain Proof_Bootstrap.

(** ** Paths *)

Lemma canonical_normal s : abs_canonical s -> to_path_string s = s.
Proof.
  intros (l & -> & H). rewrite to_path_string_nonempty by discriminate. rewrite abs_string by (apply plains_ok; exact H).
  unfold normal. cbn [pp_abs pp_comps pp_trail]. rewrite push_plain by exact H. rewrite app_nil_r.
  destruct (rev l) as [|t r] eqn:E.
  - apply (f_equal (@rev string)) in E. rewrite rev_involutive in E. subst l. reflexivity.
  - rewrite <- E, rev_involutive. unfold print_path. cbn [pp_abs pp_comps pp_trail].
    destruct l; [discriminate|]. cbn [orb andb]. rewrite sapp_nil_r. reflexivity.
Qed.
Lemma canonical_below b n : abs_canonical b -> plain n -> abs_canonical (path_div b n) /\ path_div b n = dir_open b +++ n.
Proof.
  intros (l & -> & H) N. split.
  - exists (l ++ [n]). split; [|apply Forall_app; split; [exact H|constructor; [exact N|constructor]]].
    rewrite <- below_abs; [reflexivity|exact H|constructor; [apply plain_ok; exact N|constructor]|discriminate].
  - apply path_div_rel. destruct N as (_ & _ & _ & N). apply starts_slash_nosep. exact N.
Qed.
Lemma canonical_slash b n : abs_canonical b -> plain n -> path_div b n +++ "/" = dir_open (path_div b n).
Proof.
  intros B N. destruct (canonical_below b n B N) as [_ E]. unfold dir_open, has_filename. rewrite E. destruct N as (N1 & _ & _ & N2).
  rewrite ends_slash_app by exact N1. rewrite (ends_slash_nosep _ N2). cbn [negb].
  assert (Z : nonempty_str (dir_open b +++ n) = true) by (apply nonempty_str_true; intros K; apply sapp_eq_nil in K as [_ K]; congruence).
  rewrite Z. reflexivity.
Qed.

Lemma plain_cpp_generator : plain "cpp_generator". Proof. repeat split; discriminate. Qed.
Lemma plain_c_generator : plain "c_generator". Proof. repeat split; discriminate. Qed.
Lemma plain_main_cpp : plain "main.cpp". Proof. repeat split; discriminate. Qed.
Lemma plain_main_c : plain "main.c". Proof. repeat split; discriminate. Qed.

Section Dirs.
  Variable p : Model_Targets.project.
  Hypothesis P : proper_dirs p.

  Lemma cpp_dir : to_path_string (path_div (pr_build p) "cpp_generator") +++ "/main.cpp" = main_cpp p /\ abs_canonical (main_cpp p).
  Proof.
    destruct P as (_ & _ & B & _). destruct (canonical_below _ _ B plain_cpp_generator) as [C _]. rewrite (canonical_normal _ C).
    destruct (canonical_below _ _ C plain_main_cpp) as [D E]. split; [|exact D]. unfold main_cpp. rewrite E, <- (canonical_slash _ _ B plain_cpp_generator).
    rewrite sapp_assoc. reflexivity.
  Qed.
  Lemma c_dir : to_path_string (path_div (pr_build p) "c_generator") +++ "/main.c" = main_c p /\ abs_canonical (main_c p).
  Proof.
    destruct P as (_ & _ & B & _). destruct (canonical_below _ _ B plain_c_generator) as [C _]. rewrite (canonical_normal _ C).
    destruct (canonical_below _ _ C plain_main_c) as [D E]. split; [|exact D]. unfold main_c. rewrite E, <- (canonical_slash _ _ B plain_c_generator).
    rewrite sapp_assoc. reflexivity.
  Qed.
  Lemma main_cpp_back : to_path_string (path_div (path_div (pr_root p) "") (lexically_relative (main_cpp p) (pr_root p))) = main_cpp p.
  Proof.
    rewrite below_open. destruct P as (_ & R & _ & N). exact (relative_back _ _ R (proj2 cpp_dir) (fun t => proj1 (N t))).
  Qed.
  Lemma main_c_back : to_path_string (path_div (path_div (pr_root p) "") (lexically_relative (main_c p) (pr_root p))) = main_c p.
  Proof.
    rewrite below_open. destruct P as (_ & R & _ & N). exact (relative_back _ _ R (proj2 c_dir) (fun t => proj2 (N t))).
  Qed.
End Dirs.

(** ** The generators *)

Definition cpp_args (a b c d : string) : command := add_default_argument (go_args (gen_new a b c d)) ("main_cpp", d +++ "/main.cpp").
Definition c_args (a b c d : string) : command := add_default_argument (go_args (gen_new a b c d)) ("main_c", d +++ "/main.c").
Definition cpp_command (c d : string) : string := "python3 " +++ c +++ "/python/gen.py --source_type cpp --destination " +++ d +++ "/main.cpp".
Definition c_command (c d : string) : string := "python3 " +++ c +++ "/python/gen.py --source_type c --destination " +++ d +++ "/main.c".
Lemma cpp_made a b c d : cpp_generator_cb (fgen_new (gen_new a b c d)) =
  AOk (FG (GO (cpp_args a b c d) []) [] ["{main_cpp}"] [cpp_command c d]).
Proof.
  unfold cpp_command. rewrite <- (sapp_nil_r (d +++ "/main.cpp")). vm_compute. reflexivity.
Qed.
Lemma c_made a b c d : c_generator_cb (fgen_new (gen_new a b c d)) =
  AOk (FG (GO (c_args a b c d) []) [] ["{main_c}"] [c_command c d]).
Proof.
  unfold c_command. rewrite <- (sapp_nil_r (d +++ "/main.c")). vm_compute. reflexivity.
Qed.
Lemma cpp_out a b c d : construct (cpp_args a b c d) "{main_cpp}" [] = FOk (d +++ "/main.cpp").
Proof. rewrite <- (sapp_nil_r (d +++ "/main.cpp")). vm_compute. reflexivity. Qed.
Lemma c_out a b c d : construct (c_args a b c d) "{main_c}" [] = FOk (d +++ "/main.c").
Proof. rewrite <- (sapp_nil_r (d +++ "/main.c")). vm_compute. reflexivity. Qed.
Definition cpp_obj a b c d : gobj := GO (cpp_args a b c d) [("Generate", GI [] [d +++ "/main.cpp"] (Some (strings_handler [cpp_command c d])))].
Definition c_obj a b c d : gobj := GO (c_args a b c d) [("Generate", GI [] [d +++ "/main.c"] (Some (strings_handler [c_command c d])))].
Lemma cpp_built a b c d : fbuild (FG (GO (cpp_args a b c d) []) [] ["{main_cpp}"] [cpp_command c d]) = AOk (cpp_obj a b c d).
Proof. unfold fbuild, add_id_info. cbn [fg_base go_ids assoc go_args fg_in fg_out construct_all fg_commands]. rewrite cpp_out. reflexivity. Qed.
Lemma c_built a b c d : fbuild (FG (GO (c_args a b c d) []) [] ["{main_c}"] [c_command c d]) = AOk (c_obj a b c d).
Proof. unfold fbuild, add_id_info. cbn [fg_base go_ids assoc go_args fg_in fg_out construct_all fg_commands]. rewrite c_out. reflexivity. Qed.
Lemma cpp_get a b c d : get_default_value (cpp_args a b c d) "main_cpp" = Ok (d +++ "/main.cpp").
Proof. reflexivity. Qed.
Lemma c_get a b c d : get_default_value (c_args a b c d) "main_c" = Ok (d +++ "/main.c").
Proof. reflexivity. Qed.

Section Main.
  Variable p : Model_Targets.project.
  Definition gdir (name : string) : string := to_path_string (path_div (pr_build p) name).
  Definition groot : string := to_path_string (path_div (pr_root p) "").
  Definition o_cpp : gobj := cpp_obj (to_path_string (pr_root p)) (to_path_string (pr_build p)) groot (gdir "cpp_generator").
  Definition o_c : gobj := c_obj (to_path_string (pr_root p)) (to_path_string (pr_build p)) groot (gdir "c_generator").
  Definition part (ls : listing) (cpp c x1 x2 : string) : list stmt :=
    [ SCalls x1 ls [AddSource cpp ""]; SBuild x1; SCalls x2 ls [AddSource c ""]; SBuild x2 ].
  Definition r_cpp : string := lexically_relative (gdir "cpp_generator" +++ "/main.cpp") (pr_root p).
  Definition r_c : string := lexically_relative (gdir "c_generator" +++ "/main.c") (pr_root p).
  Lemma main_eq ls g m : chain_main p ls g m =
    AOk ((if g then part ls r_cpp r_c "[gcc] cpptarget" "[gcc] ctarget" else []) ++ (if m then part ls r_cpp r_c "[msvc] cpptarget" "[msvc] ctarget" else []),
         [("cpp_generator", o_cpp); ("c_generator", o_c)]).
  Proof.
    unfold chain_main, generator_new. cbv zeta. cbn [env_relative en_root en_build]. rewrite cpp_made. cbn [abind]. rewrite cpp_built. cbn [abind].
    rewrite c_made. cbn [abind]. rewrite c_built. cbn [abind]. unfold generated_source. cbn [fg_base go_args]. rewrite cpp_get. cbn [abind]. rewrite c_get.
    reflexivity.
  Qed.
End Main.

(** ** The registry *)

Definition part_ids (b : bool) (x1 x2 : string) : list string := if b then [x1; x2] else [].
Definition part_edges (b : bool) (x1 x2 : string) : edges := if b then [("cpp_generator", x1); ("c_generator", x2)] else [].
Lemma chain_reg n clean g gt m mt r : registers n (chain_prog clean g gt m mt) r ->
  rg_built r = ["cpp_generator"; "c_generator"] ++ part_ids g "[gcc] cpptarget" "[gcc] ctarget" ++ part_ids m "[msvc] cpptarget" "[msvc] ctarget" /\
  rg_edges r = part_edges g "[gcc] cpptarget" "[gcc] ctarget" ++ part_edges m "[msvc] cpptarget" "[msvc] ctarget".
Proof.
  intros (calls & H). destruct n as [|[|[|n]]]; destruct clean, g, gt, m, mt; vm_compute in H; try discriminate H; injection H as <- _; split; reflexivity.
Qed.
