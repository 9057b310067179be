(** The files tracked by the targets of the bootstrap program. *)
From Verif Require Import Prelude Proof_Prelude Model_Path Spec_Path Proof_Path Proof_ObjectPath Model_Json Model_Schema Model_Command Model_ToolchainConfig
  Model_Target Spec_Target Model_Gcc Model_Find Model_Sync Spec_Sync Model_Api Spec_Api Proof_Api Model_Toolchains
  Spec_Toolchains Model_Targets Spec_Targets Proof_Targets Model_BuildExe Spec_BuildExe Proof_BuildExe Proof_BuildExe2 Proof_TargetBase
  Model_Reg Spec_Reg Model_Bootstrap Model_Project Spec_Project Proof_Project Proof_Project4 Proof_Project5 Spec_Bootstrap Proof_Bootstrap Proof_Bootstrap2.

(** ** Calls that list directories below the root *)

Definition listing_call (c : call) : bool :=
  match c with
  | AddSourceAbsolute _ | AddSource _ _ | GlobSourcesAbsolute _ | AddHeaderAbsolute _ | AddHeader _ _ | GlobHeadersAbsolute _
  | AddIncludeDirAbsolute _ _ => false
  | _ => true
  end.
Definition source_dirs (c : call) : list string := match c with GlobSources d => [d] | _ => [] end.
Definition header_dirs (c : call) : list string := match c with GlobHeaders d | AddIncludeDir d true => [d] | _ => [] end.

Lemma listed_sources a cs e : forallb listing_call cs = true ->
  (In e (added a SourceFiles cs) <-> exists d, In d (flat_map source_dirs cs) /\ In e (map file_entry (sources_in a (below a d)))).
Proof.
  intros T. rewrite in_added. split.
  - intros (c & C & H). pose proof (proj1 (forallb_forall _ _) T c C) as L.
    destruct c; try discriminate L; cbn [adds] in H; try (destruct k; cbn [flag_option In] in H); try (destruct H as [H|[]]; discriminate H).
    + apply in_map_iff in H as (y & H & Y). injection H as <-. exists sub. split; [apply in_flat_map; eexists; split; [exact C|left; reflexivity]|exact Y].
    + apply in_map_iff in H as (y & H & Y). discriminate H.
    + destruct H as [H|H]; [discriminate H|]. destruct glob; [|destruct H]. apply in_map_iff in H as (y & H & Y). discriminate H.
  - intros (d & D & E). apply in_flat_map in D as (c & C & D). destruct c; try (destruct D; fail).
    destruct D as [<-|[]]. exists (GlobSources sub). split; [exact C|]. cbn [adds]. apply in_map_iff. exists e. auto.
Qed.
Lemma listed_headers a cs e : forallb listing_call cs = true ->
  (In e (added a HeaderFiles cs) <-> exists d, In d (flat_map header_dirs cs) /\ In e (map file_entry (headers_in a (below a d)))).
Proof.
  intros T. rewrite in_added. split.
  - intros (c & C & H). pose proof (proj1 (forallb_forall _ _) T c C) as L.
    destruct c; try discriminate L; cbn [adds] in H; try (destruct k; cbn [flag_option In] in H); try (destruct H as [H|[]]; discriminate H).
    + apply in_map_iff in H as (y & H & Y). discriminate H.
    + apply in_map_iff in H as (y & H & Y). injection H as <-. exists sub. split; [apply in_flat_map; eexists; split; [exact C|left; reflexivity]|exact Y].
    + destruct H as [H|H]; [discriminate H|]. destruct glob; [|destruct H]. apply in_map_iff in H as (y & H & Y). injection H as <-.
      exists rel. split; [apply in_flat_map; eexists; split; [exact C|left; reflexivity]|exact Y].
  - intros (d & D & E). apply in_flat_map in D as (c & C & D). destruct c; try (destruct D; fail).
    + destruct D as [<-|[]]. exists (GlobHeaders sub). split; [exact C|]. cbn [adds]. apply in_map_iff. exists e. auto.
    + destruct glob; [|destruct D]. destruct D as [<-|[]]. exists (AddIncludeDir rel true). split; [exact C|]. cbn [adds]. right. apply in_map_iff. exists e. auto.
Qed.

Lemma in_listed valid tc root ls d f : valid = is_valid_source tc \/ valid = is_valid_header tc ->
  (In f (map fst (map file_entry (filter valid (map (path_div d) (names_in (AE tc root ls) d))))) <-> file_of ls valid d f).
Proof.
  intros _. unfold file_of, names_in. cbn [ae_ls]. split.
  - intros H. apply in_map_iff in H as (e & <- & H). apply in_map_iff in H as (q & <- & H). apply filter_In in H as [H V].
    apply in_map_iff in H as (n & <- & H). destruct (ls d) as [l|]; [|destruct H]. exists l, n. auto.
  - intros (l & n & L & I & V & ->). rewrite L. apply in_map_iff. exists (file_entry (path_div d n)). split; [reflexivity|].
    apply in_map. apply filter_In. split; [|exact V]. apply in_map. exact I.
Qed.
Lemma added_none_of a x cs : (forall c e, In c cs -> ~ In (x, e) (adds a c)) -> added a x cs = [].
Proof.
  intros H. destruct (added a x cs) as [|e l] eqn:E; [reflexivity|]. exfalso.
  assert (I : In e (added a x cs)) by (rewrite E; left; reflexivity). apply in_added in I as (c & C & I). exact (H c e C I).
Qed.
Lemma flags_none a x id : x = SourceFiles \/ x = HeaderFiles -> added a x (global_flags id) = [].
Proof. intros [->| ->]; destruct id; reflexivity. Qed.
Lemma host_none a x i id : x = SourceFiles \/ x = HeaderFiles -> added a x (host_calls i id) = [].
Proof. intros [->| ->]; destruct i as [[] []]; destruct id; reflexivity. Qed.
Lemma generic_none p n kd tc env t x : generic_class p n kd tc env None = Ok t -> k_config tc = usual_config (k_id tc) ->
  x = SourceFiles \/ x = HeaderFiles -> entries x (g_user t) = [].
Proof.
  intros G K X. rewrite (generic_entries _ _ _ _ _ _ x G K). unfold initial_entries. destruct X as [->| ->]; destruct (class_for (k_id tc)) as [[]|]; reflexivity.
Qed.
Lemma new_none tc x : x = SourceFiles \/ x = HeaderFiles -> entries x (new_target tc) = [].
Proof. intros X. rewrite new_target_entries. destruct X as [->| ->]; reflexivity. Qed.

Section Steps.
  Variables (p : Model_Targets.project) (tc : toolchain) (h : host) (ls : listing) (tpl0 b0 ex0 tpl b ex : target)
    (json cli11 fmt spdlog taskflow : tschema) (t1 b1 b2 b3 ex1 : target).
  Hypothesis S : steps p tc h ls tpl0 b0 ex0 tpl b ex json cli11 fmt spdlog taskflow t1 b1 b2 b3 ex1.
  Hypothesis K : k_config tc = usual_config (k_id tc).
  Let x := k_config tc.
  Let root := pr_root p.
  Let lib := AE x (path_div root "buildcc") ls.
  Let third (l : string) := AE x (path_div (path_div root "third_party") l) ls.

  Lemma call_env_of n kd d t : generic_class p n kd tc (env_absolute d (pr_build p)) None = Ok t -> call_env t ls = AE x d ls.
  Proof.
    intros G. unfold call_env. destruct (created_fields _ _ _ _ _ _ (by_generic _ _ _ _ _ _ None G)) as (_ & _ & F1 & F2 & _).
    rewrite F1, F2. reflexivity.
  Qed.
  Lemma describe_entries t t0 cs t' : describe t ls cs = Ok t' -> g_env t = g_env t0 -> forall y, entries y (g_user t') = entries y (g_user t) ++ added (call_env t0 ls) y cs.
  Proof. intros D E y. apply describe_more in D as (_ & _ & _ & D & _). rewrite D. unfold call_env. rewrite E. reflexivity. Qed.
  Lemma info_entries l cs u y : info tc (path_div (path_div (pr_root p) "third_party") l) ls cs = Ok u -> y = SourceFiles \/ y = HeaderFiles ->
    entries y u = added (third l) y cs.
  Proof. intros D Y. unfold info in D. rewrite (proj2 (run_adds _ _ _ _ D)), (new_none _ _ Y). reflexivity. Qed.

  Lemma b_sources : entries SourceFiles (g_user b) = added lib SourceFiles buildcc_calls.
  Proof.
    destruct (steps_shape _ _ _ _ _ _ _ _ _ _ _ _ _ _ _ _ _ _ _ _ S) as (SH & X1 & X2 & X3 & X4 & X5).
    pose proof S as [s1 s2 s3 j1 j2 j3 j4 j5 s4 s5 s6 s7 s8 s9 s10 s11]. pose proof (call_env_of _ _ _ _ s2) as CE.
    destruct (inserts_more b2 [json; fmt; spdlog; cli11; taskflow] insert_options) as (I1 & _ & _ & I4).
    destruct (insert_from_more b3 (g_user tpl) insert_options) as (J1 & _ & _ & J4).
    rewrite (describe_entries _ b0 _ _ s9), host_none, app_nil_r, J4 by (first [left; reflexivity|congruence]).
    rewrite (describe_entries _ b0 _ _ s8), I4 by congruence. rewrite (describe_entries _ b0 _ _ s7 X2), (describe_entries _ b0 _ _ s6 eq_refl).
    rewrite (generic_none _ _ _ _ _ _ _ s2 K), flags_none, CE by (left; reflexivity). cbn. rewrite !app_nil_r. reflexivity.
  Qed.
  Lemma t_headers : entries HeaderFiles (g_user tpl) = [file_entry (path_div (path_div (path_div (path_div root "third_party") "tiny-process-library") "") "process.hpp")].
  Proof.
    destruct (steps_shape _ _ _ _ _ _ _ _ _ _ _ _ _ _ _ _ _ _ _ _ S) as (SH & X1 & X2 & X3 & X4 & X5).
    pose proof S as [s1 s2 s3 j1 j2 j3 j4 j5 s4 s5 s6 s7 s8 s9 s10 s11]. pose proof (call_env_of _ _ _ _ s1) as CE.
    rewrite (describe_entries _ tpl0 _ _ s5 X1), (describe_entries _ tpl0 _ _ s4 eq_refl).
    rewrite (generic_none _ _ _ _ _ _ _ s1 K), flags_none, CE by (right; reflexivity). destruct h as [[] []]; reflexivity.
  Qed.
  Lemma b_headers : entries HeaderFiles (g_user b) = added lib HeaderFiles buildcc_calls ++
    added (third "json") HeaderFiles json_calls ++ added (third "fmt") HeaderFiles fmt_calls ++ added (third "spdlog") HeaderFiles spdlog_calls ++
    added (third "CLI11") HeaderFiles cli11_calls ++ added (third "taskflow") HeaderFiles taskflow_calls ++ entries HeaderFiles (g_user tpl).
  Proof.
    destruct (steps_shape _ _ _ _ _ _ _ _ _ _ _ _ _ _ _ _ _ _ _ _ S) as (SH & X1 & X2 & X3 & X4 & X5).
    pose proof S as [s1 s2 s3 j1 j2 j3 j4 j5 s4 s5 s6 s7 s8 s9 s10 s11]. pose proof (call_env_of _ _ _ _ s2) as CE.
    destruct (inserts_more b2 [json; fmt; spdlog; cli11; taskflow] insert_options) as (I1 & _ & _ & I4).
    destruct (insert_from_more b3 (g_user tpl) insert_options) as (J1 & _ & _ & J4).
    rewrite (describe_entries _ b0 _ _ s9), host_none, app_nil_r, J4 by (first [right; reflexivity|congruence]).
    rewrite (describe_entries _ b0 _ _ s8), I4 by congruence. rewrite (describe_entries _ b0 _ _ s7 X2), (describe_entries _ b0 _ _ s6 eq_refl).
    rewrite (generic_none _ _ _ _ _ _ _ s2 K), flags_none, CE by (right; reflexivity).
    change (times insert_options HeaderFiles) with 1. cbn [over flat_map]. rewrite !app_nil_r.
    rewrite (info_entries _ _ _ _ j1), (info_entries _ _ _ _ j2), (info_entries _ _ _ _ j3), (info_entries _ _ _ _ j4), (info_entries _ _ _ _ j5) by (right; reflexivity).
    cbn [app]. rewrite <- !app_assoc. reflexivity.
  Qed.
  Lemma e_headers : entries HeaderFiles (g_user ex) = entries HeaderFiles (g_user b).
  Proof.
    destruct (steps_shape _ _ _ _ _ _ _ _ _ _ _ _ _ _ _ _ _ _ _ _ S) as (SH & X1 & X2 & X3 & X4 & X5).
    pose proof S as [s1 s2 s3 j1 j2 j3 j4 j5 s4 s5 s6 s7 s8 s9 s10 s11].
    destruct (insert_from_more ex1 (g_user b) example_options) as (J1 & _ & _ & J4).
    rewrite (describe_entries _ ex0 _ _ s11), J4 by congruence. rewrite (describe_entries _ ex0 _ _ s10 eq_refl).
    rewrite (generic_none _ _ _ _ _ _ _ s3 K) by (right; reflexivity). change (times example_options HeaderFiles) with 1. cbn [over].
    change (added (call_env ex0 ls) HeaderFiles [AddSource "build.cpp" ""]) with (@nil (string * option string)).
    change (added (call_env ex0 ls) HeaderFiles [AddLibDepTarget (g_env b)]) with (@nil (string * option string)).
    rewrite !app_nil_r. reflexivity.
  Qed.

  Lemma paths_sources u f : In f (il_paths (ts_sources u)) <-> In f (map fst (entries SourceFiles u)).
  Proof. cbn [entries]. rewrite infos_paths. reflexivity. Qed.
  Lemma paths_headers u f : In f (il_paths (ts_headers u)) <-> In f (map fst (entries HeaderFiles u)).
  Proof. cbn [entries]. rewrite infos_paths. reflexivity. Qed.

  Lemma library_sources f : In f (il_paths (ts_sources (g_user b))) <-> library_source tc root ls f.
  Proof.
    rewrite paths_sources, b_sources. unfold library_source. split.
    - intros H. apply in_map_iff in H as (e & <- & H). apply listed_sources in H as (d & D & H); [|reflexivity].
      exists d. split; [exact D|]. apply (in_map fst) in H. exact (proj1 (in_listed _ x (path_div root "buildcc") ls _ _ (or_introl eq_refl)) H).
    - intros (d & D & H). apply (proj2 (in_listed _ x (path_div root "buildcc") ls _ _ (or_introl eq_refl))) in H.
      apply in_map_iff in H as (e & <- & H). apply in_map. apply listed_sources; [reflexivity|]. exists d. split; [exact D|exact H].
  Qed.
  Lemma dirs_headers r cs f : forallb listing_call cs = true ->
    (In f (map fst (added (AE x r ls) HeaderFiles cs)) <-> exists d, In d (flat_map header_dirs cs) /\ file_of ls (is_valid_header x) (path_div r d) f).
  Proof.
    intros L. split.
    - intros H. apply in_map_iff in H as (e & <- & H). apply listed_headers in H as (d & D & H); [|exact L].
      exists d. split; [exact D|]. apply (in_map fst) in H. exact (proj1 (in_listed _ x r ls _ _ (or_intror eq_refl)) H).
    - intros (d & D & H). apply (proj2 (in_listed _ x r ls _ _ (or_intror eq_refl))) in H.
      apply in_map_iff in H as (e & <- & H). apply in_map. apply listed_headers; [exact L|]. exists d. split; [exact D|exact H].
  Qed.
  Lemma library_headers f : In f (il_paths (ts_headers (g_user b))) <-> library_header tc root ls f.
  Proof.
    rewrite paths_headers, b_headers, t_headers, !map_app, !in_app_iff, div_empty. cbn [map fst In file_entry].
    unfold lib, third. rewrite !dirs_headers by reflexivity. unfold library_header. fold x.
    assert (T : (exists l d, In (l, d) third_party_header_dirs /\ file_of ls (is_valid_header x) (path_div (path_div (path_div root "third_party") l) d) f) <->
      (exists d, In d (flat_map header_dirs json_calls) /\ file_of ls (is_valid_header x) (path_div (path_div (path_div root "third_party") "json") d) f) \/
      (exists d, In d (flat_map header_dirs fmt_calls) /\ file_of ls (is_valid_header x) (path_div (path_div (path_div root "third_party") "fmt") d) f) \/
      (exists d, In d (flat_map header_dirs spdlog_calls) /\ file_of ls (is_valid_header x) (path_div (path_div (path_div root "third_party") "spdlog") d) f) \/
      (exists d, In d (flat_map header_dirs cli11_calls) /\ file_of ls (is_valid_header x) (path_div (path_div (path_div root "third_party") "CLI11") d) f) \/
      (exists d, In d (flat_map header_dirs taskflow_calls) /\ file_of ls (is_valid_header x) (path_div (path_div (path_div root "third_party") "taskflow") d) f)).
    { unfold third_party_header_dirs. split.
      - intros (l & d & D & H). apply in_app_or in D as [D|D]; [|apply in_app_or in D as [D|D]; [|apply in_app_or in D as [D|D]; [|apply in_app_or in D as [D|D]]]].
        + apply in_map_iff in D as (d' & D & I). injection D as <- <-. left. exists d'. split; [exact I|exact H].
        + destruct D as [D|[]]. injection D as <- <-. right. left. exists "include/fmt". split; [left; reflexivity|exact H].
        + apply in_map_iff in D as (d' & D & I). injection D as <- <-. right. right. left. exists d'. split; [exact I|exact H].
        + destruct D as [D|[]]. injection D as <- <-. right. right. right. left. exists "include/CLI". split; [left; reflexivity|exact H].
        + apply in_map_iff in D as (d' & D & I). injection D as <- <-. right. right. right. right. exists d'. split; [exact I|exact H].
      - intros [(d & D & H)|[(d & D & H)|[(d & D & H)|[(d & D & H)|(d & D & H)]]]].
        + exists "json", d. split; [|exact H]. apply in_or_app. left. apply in_map. exact D.
        + exists "fmt", d. split; [|exact H]. apply in_or_app. right. apply in_or_app. left. destruct D as [<-|[]]. left. reflexivity.
        + exists "spdlog", d. split; [|exact H]. apply in_or_app. right. apply in_or_app. right. apply in_or_app. left. apply in_map. exact D.
        + exists "CLI11", d. split; [|exact H]. apply in_or_app. right. apply in_or_app. right. apply in_or_app. right. apply in_or_app. left. destruct D as [<-|[]]. left. reflexivity.
        + exists "taskflow", d. split; [|exact H]. apply in_or_app. right. apply in_or_app. right. apply in_or_app. right. apply in_or_app. right. apply in_map. exact D. }
    rewrite T. change (flat_map header_dirs buildcc_calls) with library_header_dirs. fold root.
    assert (Q : forall a c : string, a = c \/ False <-> c = a) by (intros a c; split; [intros [->|[]]; reflexivity|auto]). rewrite Q. tauto.
  Qed.
End Steps.

(** ** The headers of custom generators *)

Lemma leads_div cwd d r : starts_slash r = false -> ~ In ".." (names r) ->
  leads_to cwd (path_div d r) = rev (filter (fun n => negb (String.eqb n ".")) (names r)) ++ leads_to cwd d.
Proof. intros S N. rewrite path_div_rel by exact S. rewrite leads_inner by exact S. apply walk_inner. exact N. Qed.

Definition tame_dir (r : string) : bool := negb (starts_slash r) && negb (mem_str ".." (names r)).
Lemma leads_dir d r : tame_dir r = true -> leads_to [] (path_div d r) = rev (filter (fun n => negb (String.eqb n ".")) (names r)) ++ leads_to [] d.
Proof.
  intros T. apply andb_true_iff in T as [T1 T2]. apply negb_true_iff in T1, T2. apply leads_div; [exact T1|]. apply mem_str_false. exact T2.
Qed.

Section Untracked.
  Variables (tc : toolchain) (root : string) (ls : listing).
  Hypothesis P : proper ls.

  Lemma file_of_leads valid d f : file_of ls valid d f -> exists n, leads_to [] f = n :: leads_to [] d.
  Proof.
    intros (l & n & L & I & _ & ->). exists n. rewrite to_path_string_location. apply leads_simple.
    destruct (P d l L) as [F _]. exact (proj1 (Forall_forall _ _) F n I).
  Qed.
  Definition dir_names_of (a : list string) : list string := flat_map (fun r => rev (filter (fun n => negb (String.eqb n ".")) (names r))) (rev a).
  Fixpoint deep (d : string) (rs : list string) : string := match rs with [] => d | r :: q => deep (path_div d r) q end.
  Lemma deep_leads d rs : forallb tame_dir rs = true -> leads_to [] (deep d rs) = dir_names_of rs ++ leads_to [] d.
  Proof.
    revert d. induction rs as [|r rs IH]; intros d T; [reflexivity|]. cbn [forallb] in T. apply andb_true_iff in T as [T1 T2].
    cbn [deep]. rewrite (IH _ T2), (leads_dir _ _ T1). unfold dir_names_of. cbn [rev]. rewrite flat_map_app. cbn [flat_map]. rewrite app_nil_r, app_assoc. reflexivity.
  Qed.

  Lemma generator_header_untracked n : simple n -> ~ library_header tc root ls (to_path_string (path_div (generator_header_dir root) n)).
  Proof.
    intros Sn H.
    assert (L : leads_to [] (to_path_string (path_div (generator_header_dir root) n)) =
                n :: dir_names_of ["buildcc"; "lib/target/include/target/custom_generator"] ++ leads_to [] root).
    { rewrite to_path_string_location, (leads_simple _ _ _ Sn). f_equal. exact (deep_leads root ["buildcc"; "lib/target/include/target/custom_generator"] eq_refl). }
    assert (C : forall rs m, forallb tame_dir rs = true -> leads_to [] (to_path_string (path_div (generator_header_dir root) n)) = m :: leads_to [] (deep root rs) ->
      dir_names_of ["buildcc"; "lib/target/include/target/custom_generator"] = dir_names_of rs).
    { intros rs m T E. rewrite L, (deep_leads _ _ T) in E. injection E as _ E. apply (app_inv_tail (leads_to [] root)). exact E. }
    destruct H as [(d & D & H)|[(l & d & D & H)|H]].
    - apply file_of_leads in H as (m & H). assert (T : forallb tame_dir library_header_dirs = true) by reflexivity.
      pose proof (proj1 (forallb_forall _ _) T d D) as Td. apply (C ["buildcc"; d] m) in H; [|cbn [forallb]; rewrite Td; reflexivity].
      assert (X : existsb (fun d => str_list_eqb (dir_names_of ["buildcc"; "lib/target/include/target/custom_generator"]) (dir_names_of ["buildcc"; d])) library_header_dirs = false) by (vm_compute; reflexivity).
      assert (Y : existsb (fun d => str_list_eqb (dir_names_of ["buildcc"; "lib/target/include/target/custom_generator"]) (dir_names_of ["buildcc"; d])) library_header_dirs = true); [|congruence].
      apply existsb_exists. exists d. split; [exact D|]. apply str_list_eqb_eq. exact H.
    - apply file_of_leads in H as (m & H). assert (T : forallb (fun ld => tame_dir (fst ld) && tame_dir (snd ld)) third_party_header_dirs = true) by reflexivity.
      pose proof (proj1 (forallb_forall _ _) T _ D) as Td. cbn [fst snd] in Td. apply andb_true_iff in Td as [Tl Td].
      apply (C ["third_party"; l; d] m) in H; [|cbn [forallb]; rewrite Tl, Td; reflexivity].
      assert (X : existsb (fun ld => str_list_eqb (dir_names_of ["buildcc"; "lib/target/include/target/custom_generator"]) (dir_names_of ["third_party"; fst ld; snd ld])) third_party_header_dirs = false) by (vm_compute; reflexivity).
      assert (Y : existsb (fun ld => str_list_eqb (dir_names_of ["buildcc"; "lib/target/include/target/custom_generator"]) (dir_names_of ["third_party"; fst ld; snd ld])) third_party_header_dirs = true); [|congruence].
      apply existsb_exists. exists (l, d). split; [exact D|]. apply str_list_eqb_eq. exact H.
    - apply (f_equal (leads_to [])) in H. rewrite (to_path_string_location _ (path_div (path_div _ _) "process.hpp")) in H.
      rewrite leads_simple in H by (repeat split; discriminate).
      apply (C ["third_party"; "tiny-process-library"] "process.hpp") in H; [discriminate H|reflexivity].
  Qed.
End Untracked.

(** ** ... are tracked by no target *)

Lemma tidy_header_paths x L u f : tidy x L u -> In f (tracked (cfg_of u)) -> is_valid_source x f = false -> ~ In f (map to_path_string L) ->
  In f (il_paths (ts_headers u)).
Proof.
  intros [T1 T2 T3 T4 T5 T6] H V N. cbn [entries] in T1, T2, T3, T4, T5, T6.
  apply (f_equal (map fst)) in T3, T4, T5. rewrite infos_paths in T3, T4, T5, T6. cbn [map] in T3, T4, T5.
  unfold tracked, sources, headers, pchs, libs, compile_deps, link_deps, user_of, cfg_of in H.
  cbn [ts_sources ts_headers ts_pchs ts_libs ts_compile_deps ts_link_deps c_sources c_headers c_pchs c_libs c_compile_deps c_link_deps] in H.
  rewrite !infos_normal, T3, T4, T5, T6 in H. cbn [map app] in H. rewrite app_nil_r in H.
  apply in_app_or in H as [H|H]; [|apply in_app_or in H as [H|H]; [|contradiction]].
  - exfalso. apply in_map_iff in H as (q & <- & H). rewrite <- infos_paths in H. apply in_map_iff in H as (e & <- & H).
    destruct (T1 e H) as (p & -> & Y). cbn [file_entry fst] in V. rewrite to_path_string_idem in V. rewrite (proj1 (valid_source_normal x p Y)) in V. discriminate V.
  - apply in_map_iff in H as (q & <- & H). rewrite <- infos_paths in H. apply in_map_iff in H as (e & <- & H).
    destruct (T2 e H) as (p & -> & _). cbn [file_entry fst] in H |- *. rewrite to_path_string_idem. rewrite <- infos_paths.
    apply in_map_iff. exists (file_entry p). auto.
Qed.
Lemma header_no_source id f : is_valid_header (usual_config id) f = true -> is_valid_source (usual_config id) f = false.
Proof.
  unfold is_valid_header, is_valid_source. cbv zeta. destruct (String.eqb (path_extension f) ""); [reflexivity|]. intros H. apply mem_str_In in H.
  assert (C : path_extension f = ".h" \/ path_extension f = ".hpp") by (destruct id; cbn in H; destruct H as [H|[H|[]]]; auto).
  destruct C as [-> | ->]; destruct id; reflexivity.
Qed.

Section Program.
  Variables (p0 : Model_Targets.project) (tc : toolchain) (h : host).
  Hypothesis K : k_config tc = usual_config (k_id tc).

  Theorem tracked_headers ls ts tpl b ex : bootstrap_targets p0 tc h ls = Ok ts -> ts = [tpl; b; ex] ->
    (forall f, In f (il_paths (ts_sources (g_user b))) <-> library_source tc (pr_root p0) ls f) /\
    (forall f, In f (il_paths (ts_headers (g_user b))) <-> library_header tc (pr_root p0) ls f) /\
    (forall f, In f (il_paths (ts_headers (g_user ex))) <-> library_header tc (pr_root p0) ls f).
  Proof.
    intros B E. apply bootstrap_steps in B as (t0 & b0 & e0 & tpl' & b' & ex' & json & cli11 & fmt & spdlog & taskflow & t1 & b1 & b2 & b3 & ex1 & -> & S).
    injection E as -> -> ->. split; [|split]; intros f.
    - exact (library_sources _ _ _ _ _ _ _ _ _ _ _ _ _ _ _ _ _ _ _ _ S K f).
    - exact (library_headers _ _ _ _ _ _ _ _ _ _ _ _ _ _ _ _ _ _ _ _ S K f).
    - rewrite paths_headers, (e_headers _ _ _ _ _ _ _ _ _ _ _ _ _ _ _ _ _ _ _ _ S K), <- paths_headers.
      exact (library_headers _ _ _ _ _ _ _ _ _ _ _ _ _ _ _ _ _ _ _ _ S K f).
  Qed.

  Theorem generator_header_in_no_target ls ts n t : proper ls -> bootstrap_targets p0 tc h ls = Ok ts -> In t ts -> simple n ->
    is_valid_header (k_config tc) (path_div (generator_header_dir (pr_root p0)) n) = true ->
    ~ In (to_path_string (path_div (generator_header_dir (pr_root p0)) n)) (tracked (cfg_of (g_user t))).
  Proof.
    intros P B I Sn V F. set (f := to_path_string _) in *.
    assert (Vf : is_valid_header (k_config tc) f = true) by (apply valid_header_normal; exact V).
    assert (Vs : is_valid_source (k_config tc) f = false) by (rewrite K in Vf |- *; exact (header_no_source _ _ Vf)).
    pose proof (generator_header_untracked tc (pr_root p0) ls P n Sn) as U. fold f in U.
    destruct (bootstrap_three _ _ _ K _ _ B) as (et & eb & ee & tpl & b & ex & [_ _ _ _ _ _ [_ V1] [_ V2] _] & Ts & E & T1 & T2 & T3 & _).
    destruct (tracked_headers ls ts tpl b ex B Ts) as (_ & Hb & He).
    assert (Q : forall L, incl L [out_file eb; out_file et] -> ~ In f (map to_path_string L)).
    { intros L C X. apply in_map_iff in X as (o & X & Y). apply C in Y. destruct Y as [<-|[<-|[]]]; rewrite out_file_normal in X; congruence. }
    apply bootstrap_steps in B as (t0 & b0 & e0 & tpl' & b' & ex' & json & cli11 & fmt & spdlog & taskflow & t1 & b1 & b2 & b3 & ex1 & -> & S).
    injection Ts as -> -> ->. destruct I as [<-|[<-|[<-|[]]]].
    - apply (tidy_header_paths _ _ _ _ T1) in F; [|exact Vs|intros []]. apply paths_headers in F.
      rewrite (t_headers _ _ _ _ _ _ _ _ _ _ _ _ _ _ _ _ _ _ _ _ S K), div_empty in F. destruct F as [F|[]]. apply U. right. right. symmetry. exact F.
    - apply (tidy_header_paths _ _ _ _ T2) in F; [|exact Vs|apply Q; intros o [<-|[]]; right; left; reflexivity]. apply U, Hb. exact F.
    - apply (tidy_header_paths _ _ _ _ T3) in F; [|exact Vs|apply Q; apply incl_refl]. apply U, He. exact F.
  Qed.

  (** ** Nothing to do *)

  Section History.
    Variables (rg : regime) (ls0 : listing) (ts : list target) (l : list (string * (tenv * disk))).
    Hypothesis (B : bootstrap_targets p0 tc h ls0 = Ok ts) (N : nothing_linked ts l).

    Lemma prog_regs (regs : reg -> Prop) (options : string -> cfg -> Prop) pre w r run hs p :
      prog_history rg regs options l (pre ++ PRun w r :: run) hs p -> regs r.
    Proof.
      intros H. remember (pre ++ PRun w r :: run) as evs eqn:Eq. revert pre run Eq. induction H as [|evs h1 p ev p' H IH A S]; intros pre run Eq.
      - destruct pre; discriminate Eq.
      - destruct (exists_last (l := PRun w r :: run)) as (run' & y & Y); [discriminate|]. rewrite Y, app_assoc in Eq. apply app_inj_tail in Eq as [Eq ->].
        destruct run' as [|z run']; [cbn in Y; injection Y as <- _; exact A|]. cbn [app] in Y. injection Y as <- Y. exact (IH pre run' Eq).
    Qed.

    Theorem bootstrap_idle pre w r run hs p x evs p2 :
      prog_history rg (bootstrap_registry tc) (bootstrap_options p0 tc h) l (pre ++ PRun w r :: run) hs p ->
      Forall undisturbed_run run -> Forall full_writes run -> 0 < w -> rg_built r <> [] ->
      p_run p = Some (w, r, x) -> x_over w (rg_built r) (rg_edges r) x -> p_ok p = true ->
      Forall (again (p_built p)) evs -> pexec p evs = Some p2 ->
      forall id e st2 c, In (id, (e, st2)) (p_targets p2) -> In (id, c) (p_built p) ->
        exists st, In (id, (e, st)) (p_targets p) /\ s_log st2 = s_log st /\ same_outputs (s_disk st) (s_disk st2).
    Proof.
      intros H U FW W NE R O Ok A X. pose proof (bootstrap_history p0 tc h K rg ls0 ts l B N _ _ _ H) as PH.
      destruct (bootstrap_three _ _ _ K _ _ B) as (et & eb & ee & tpl & b & ex & T & _ & E & _ & _ & _ & M).
      destruct (bootstrap_fresh tc _ _ _ _ _ T E N) as (mt0 & F). destruct (prog_inv _ _ _ _ _ _ _ H) as (Q1 & _ & Q3).
      pose proof (prog_regs _ _ _ _ _ _ _ _ H) as RR. pose proof (no_loops tc r RR) as NL.
      destruct (registry_of tc r RR) as [[R1 _]|[R1 _]]; [|contradiction]. destruct RR as (n & clean & build & test & RR).
      apply (nothing_to_do rg mt0 l [] pre w r run hs p x n _ evs p2 F PH U FW RR NL W R O Ok); [|exact A|exact X].
      rewrite R1. intros i I. apply in_map_iff in I as ([i' c] & <- & I). destruct (options_libs p0 tc h K et eb ee i' c M (Q3 i' c I)) as (L & LL & _).
      cbn [fst In]. destruct LL as [LL|[LL|LL]]; injection LL as -> _; auto.
    Qed.

    (** ... not even when headers of custom generators are edited. *)
    Theorem generator_headers_missed pre w r run hs p x evs p2 :
      prog_history rg (bootstrap_registry tc) (bootstrap_options p0 tc h) l (pre ++ PRun w r :: run) hs p ->
      Forall undisturbed_run run -> Forall full_writes run -> 0 < w -> rg_built r <> [] ->
      p_run p = Some (w, r, x) -> x_over w (rg_built r) (rg_edges r) x -> p_ok p = true ->
      Forall (fun ev => again (p_built p) ev \/ edits_generator_header tc (pr_root p0) ev) evs -> pexec p evs = Some p2 ->
      forall id e st2 c, In (id, (e, st2)) (p_targets p2) -> In (id, c) (p_built p) ->
        exists st, In (id, (e, st)) (p_targets p) /\ s_log st2 = s_log st /\ same_outputs (s_disk st) (s_disk st2).
    Proof.
      intros H U FW W NE R O Ok A X. apply (bootstrap_idle pre w r run hs p x evs p2 H U FW W NE R O Ok); [|exact X].
      destruct (prog_inv _ _ _ _ _ _ _ H) as (_ & _ & Q3). apply Forall_forall. intros ev I. apply (proj1 (Forall_forall _ _) A) in I.
      destruct I as [I|(n & t & -> & Sn & V)]; [exact I|]. cbn [again]. intros id c C.
      destruct (Q3 id c C) as (ls & ts' & t' & P & B' & T & _ & ->). exact (generator_header_in_no_target ls ts' n t' P B' T Sn V).
    Qed.
  End History.
End Program.
