(** Proofs about the example with generated sources: what is registered covers it. *)
From Verif Require Import Prelude Proof_Prelude Model_Path Spec_Path Proof_Path Proof_ObjectPath Proof_Relative Model_Json Model_Schema Model_Command
  Model_ToolchainConfig Model_Target Spec_Target Model_Gcc Model_Gen Spec_Gen Model_FileGen Spec_FileGen Proof_FileGen Model_Sync Spec_Sync Model_Api Spec_Api Proof_Api
  Model_Toolchains Spec_Toolchains Model_Targets Spec_Targets Proof_Targets Model_Reg Spec_Reg Model_Project Spec_Project Model_Full Spec_Full Proof_Full3 Proof_Full4
  Model_Script Spec_Script Proof_Script Model_Chain Spec_Chain Proof_Bootstrap Proof_Chain.

(** ** The targets *)

Record chain_target (p : Model_Targets.project) (tc : toolchain) (n id out : string) (t : target) : Prop := {
  ct_templates : templates_ok (g_env t); ct_out : filename (out_file (g_env t)) = out; ct_id : g_unique_id t = id;
  ct_root : te_root (g_env t) = path_div (pr_root p) ""; ct_tc : te_tc (g_env t) = k_config tc;
  ct_new : forall x, file_option x = true -> entries x (g_user t) = [] }.
Lemma class_no_files c k b x : file_option x = true -> class_flags c k b x = [].
Proof. destruct c, x; try discriminate; reflexivity. Qed.
Lemma gcc_one p n t : n = "cpptarget" \/ n = "ctarget" -> gcc_target p n KExecutable chain_gcc (env_relative p "") = Ok t ->
  chain_target p chain_gcc n ("[gcc] " +++ n) n t.
Proof.
  intros N G. pose proof (generic_gcc p n KExecutable chain_gcc (env_relative p "") None eq_refl) as E. cbn [value_or] in E. unfold gcc_target in G. rewrite <- E in G.
  destruct (generic_facts _ _ _ _ _ _ G) as [F U]. pose proof F as [T _].
  destruct (out_named _ _ _ _ F) as (ext & X & O).
  { intros id ext X. destruct N as [-> | ->]; destruct id; try discriminate X; injection X as <-; repeat split; discriminate. }
  injection X as <-. rewrite sapp_nil_r in O.
  destruct (created_fields _ _ _ _ _ _ (by_generic _ _ _ _ _ _ None G)) as (_ & _ & C & R & _).
  split; [exact T|exact O|exact U|exact R|exact C|].
  intros x X. rewrite E in G. rewrite (gcc_flags _ _ _ _ _ _ _ Gcc G eq_refl) by discriminate. rewrite class_no_files by exact X. destruct x; try discriminate X; reflexivity.
Qed.
Lemma msvc_one p n t : n = "cpptarget" \/ n = "ctarget" -> msvc_target p n KExecutable chain_msvc (env_relative p "") = Ok t ->
  chain_target p chain_msvc n ("[msvc] " +++ n) (n +++ ".exe") t.
Proof.
  intros N G. pose proof (generic_msvc p n KExecutable chain_msvc (env_relative p "") None eq_refl) as E. cbn [value_or] in E. unfold msvc_target in G. rewrite <- E in G.
  destruct (generic_facts _ _ _ _ _ _ G) as [F U]. pose proof F as [T _].
  destruct (out_named _ _ _ _ F) as (ext & X & O).
  { intros id ext X. destruct N as [-> | ->]; destruct id; try discriminate X; injection X as <-; repeat split; discriminate. }
  injection X as <-.
  destruct (created_fields _ _ _ _ _ _ (by_generic _ _ _ _ _ _ None G)) as (_ & _ & C & R & _).
  split; [exact T|exact O|exact U|exact R|exact C|].
  intros x X. rewrite E in G. rewrite (msvc_flags _ _ _ _ _ _ _ G eq_refl). rewrite class_no_files by exact X. destruct x; try discriminate X; reflexivity.
Qed.
Record four (p : Model_Targets.project) (a b c d : target) : Prop := {
  f_a : chain_target p chain_gcc "cpptarget" "[gcc] cpptarget" "cpptarget" a; f_b : chain_target p chain_gcc "ctarget" "[gcc] ctarget" "ctarget" b;
  f_c : chain_target p chain_msvc "cpptarget" "[msvc] cpptarget" "cpptarget.exe" c; f_d : chain_target p chain_msvc "ctarget" "[msvc] ctarget" "ctarget.exe" d }.
Lemma chain_four p ts : chain_targets p = Ok ts -> exists a b c d, ts = [a; b; c; d] /\ four p a b c d.
Proof.
  unfold chain_targets. cbv zeta. intros H.
  destruct (gcc_target p "cpptarget" KExecutable chain_gcc (env_relative p "")) as [a|] eqn:A; [|discriminate H]. cbn [obind] in H.
  destruct (gcc_target p "ctarget" KExecutable chain_gcc (env_relative p "")) as [b|] eqn:B; [|discriminate H]. cbn [obind] in H.
  destruct (msvc_target p "cpptarget" KExecutable chain_msvc (env_relative p "")) as [c|] eqn:C; [|discriminate H]. cbn [obind] in H.
  destruct (msvc_target p "ctarget" KExecutable chain_msvc (env_relative p "")) as [d|] eqn:D; [|discriminate H]. cbn [obind] in H.
  apply Ok_inj in H as <-. exists a, b, c, d. split; [reflexivity|]. split.
  - exact (gcc_one p _ a (or_introl eq_refl) A).
  - exact (gcc_one p _ b (or_intror eq_refl) B).
  - exact (msvc_one p _ c (or_introl eq_refl) C).
  - exact (msvc_one p _ d (or_intror eq_refl) D).
Qed.

Section Chain.
  Variables (p : Model_Targets.project) (ts : list target) (a b c d : target).
  Hypotheses (P : proper_dirs p) (E : ts = [a; b; c; d]) (Q : four p a b c d).

  Lemma ids : map g_unique_id ts = ["[gcc] cpptarget"; "[gcc] ctarget"; "[msvc] cpptarget"; "[msvc] ctarget"].
  Proof. rewrite E. cbn [map]. rewrite (ct_id _ _ _ _ _ _ (f_a _ _ _ _ _ Q)), (ct_id _ _ _ _ _ _ (f_b _ _ _ _ _ Q)), (ct_id _ _ _ _ _ _ (f_c _ _ _ _ _ Q)), (ct_id _ _ _ _ _ _ (f_d _ _ _ _ _ Q)). reflexivity. Qed.
  Lemma outs : map (fun t => filename (out_file (g_env t))) ts = ["cpptarget"; "ctarget"; "cpptarget.exe"; "ctarget.exe"].
  Proof. rewrite E. cbn [map]. rewrite (ct_out _ _ _ _ _ _ (f_a _ _ _ _ _ Q)), (ct_out _ _ _ _ _ _ (f_b _ _ _ _ _ Q)), (ct_out _ _ _ _ _ _ (f_c _ _ _ _ _ Q)), (ct_out _ _ _ _ _ _ (f_d _ _ _ _ _ Q)). reflexivity. Qed.
  Lemma of_four t : In t ts -> exists tc n id out, chain_target p tc n id out t /\ (tc = chain_gcc \/ tc = chain_msvc).
  Proof.
    rewrite E. intros [<-|[<-|[<-|[<-|[]]]]]; do 4 eexists.
    - split; [exact (f_a _ _ _ _ _ Q)|auto].
    - split; [exact (f_b _ _ _ _ _ Q)|auto].
    - split; [exact (f_c _ _ _ _ _ Q)|auto].
    - split; [exact (f_d _ _ _ _ _ Q)|auto].
  Qed.
  Lemma chain_new : new_objects (chain_objects ts).
  Proof.
    split.
    - unfold chain_objects. rewrite map_map. cbn [fst]. change (map (fun x => g_unique_id x) ts) with (map g_unique_id ts). rewrite ids.
      repeat constructor; cbn [In]; intros H; repeat (destruct H as [H|H]; [discriminate H|]); exact H.
    - intros i n x I X. apply in_map_iff in I as (t & I & T). injection I as <- <-. cbn [nd_user].
      destruct (of_four t T) as (tc & nm & id & out & K & _). exact (ct_new _ _ _ _ _ _ K x X).
  Qed.
  Lemma chain_fresh mt0 l : unbuilt mt0 ts l -> fresh_full mt0 l chain_gids.
  Proof.
    intros (dk & -> & U). split; [split; [|split]|split].
    - rewrite map_map. cbn [fst]. change (map (fun x => g_unique_id x) ts) with (map g_unique_id ts). rewrite ids.
      repeat constructor; cbn [In]; intros H; repeat (destruct H as [H|H]; [discriminate H|]); exact H.
    - apply (NoDup_map_inv filename). rewrite !map_map. cbn [fst snd]. rewrite outs.
      repeat constructor; cbn [In]; intros H; repeat (destruct H as [H|H]; [discriminate H|]); exact H.
    - intros id e x I. apply in_map_iff in I as (t & I & T). injection I as <- <- <-. destruct (U t T) as (U1 & U2 & U3).
      destruct (of_four t T) as (tc & nm & id & out & K & _). split; [exact (ct_templates _ _ _ _ _ _ K)|auto].
    - repeat constructor; cbn [In]; intros H; repeat (destruct H as [H|H]; [discriminate H|]); exact H.
    - intros j J. rewrite map_map. cbn [fst]. change (map (fun x => g_unique_id x) ts) with (map g_unique_id ts). rewrite ids.
      destruct J as [<-|[<-|[]]]; cbn [In]; intros H; repeat (destruct H as [H|H]; [discriminate H|]); exact H.
  Qed.

  (** ** Names *)
  Lemma name_cpp : filename (main_cpp p) = "main.cpp".
  Proof. rewrite <- (canonical_normal _ (proj2 (cpp_dir p P))). apply out_name. repeat split; discriminate. Qed.
  Lemma name_c : filename (main_c p) = "main.c".
  Proof. rewrite <- (canonical_normal _ (proj2 (c_dir p P))). apply out_name. repeat split; discriminate. Qed.
  Lemma rel_cpp : to_path_string (path_div (path_div (pr_root p) "") (r_cpp p)) = main_cpp p.
  Proof. unfold r_cpp, gdir. rewrite (proj1 (cpp_dir p P)). exact (main_cpp_back p P). Qed.
  Lemma rel_c : to_path_string (path_div (path_div (pr_root p) "") (r_c p)) = main_c p.
  Proof. unfold r_c, gdir. rewrite (proj1 (c_dir p P)). exact (main_c_back p P). Qed.
  Lemma below_two rel : path_div (path_div (path_div (pr_root p) "") "") rel = path_div (path_div (pr_root p) "") rel.
  Proof. apply below_open. Qed.

  (** ** What is told *)
  Lemma in_part ls x1 x2 s : In s (part ls (r_cpp p) (r_c p) x1 x2) ->
    s = SCalls x1 ls [AddSource (r_cpp p) ""] \/ s = SBuild x1 \/ s = SCalls x2 ls [AddSource (r_c p) ""] \/ s = SBuild x2.
  Proof. intros [H|[H|[H|[H|[]]]]]; auto. Qed.
  Definition script_of (ls : listing) (g m : bool) : list stmt :=
    (if g then part ls (r_cpp p) (r_c p) "[gcc] cpptarget" "[gcc] ctarget" else []) ++ (if m then part ls (r_cpp p) (r_c p) "[msvc] cpptarget" "[msvc] ctarget" else []).
  Lemma in_script ls g m s : In s (script_of ls g m) ->
    (exists i r f, s = SCalls i ls [AddSource r ""] /\ to_path_string (path_div (path_div (pr_root p) "") r) = f /\ chain_source p i = Some f) \/ exists i, s = SBuild i.
  Proof.
    unfold script_of. intros H. apply in_app_or in H as [H|H]; [destruct g|destruct m]; try (destruct H; fail);
      apply in_part in H as [-> |[-> |[-> | ->]]]; try (right; eexists; reflexivity); left; do 3 eexists;
      (split; [reflexivity|split; [first [exact rel_cpp|exact rel_c]|reflexivity]]).
  Qed.
  Lemma chain_told ls g m i x f : told (chain_objects ts) (script_of ls g m) i x f -> chain_source p i = Some f.
  Proof.
    intros [i' x' f' (n & l & cs & cl & h & I & S & C & A)|i' j x' f' (md & xs & _ & S) _].
    - apply in_script in S as [(j & r & f0 & S & F & G)|(j & S)]; [|discriminate S]. injection S as -> -> ->. destruct C as [<-|[]].
      apply in_map_iff in I as (t & I & T). injection I as <- <-. destruct (of_four t T) as (tc & nm & id & out & K & _).
      cbn [adds nd_tc nd_root] in A. destruct A as [A|[]]. unfold file_entry, below2 in A. cbn [ae_root] in A. injection A as _ A _.
      rewrite (ct_root _ _ _ _ _ _ K), below_two, F in A. congruence.
    - destruct S as [S|S]; apply in_script in S as [(j' & r & f0 & S & _)|(j' & S)]; discriminate S.
  Qed.

  (** ** Who writes what *)
  Lemma chain_writer mt0 l f bl : unbuilt mt0 ts l -> filename f = "main.cpp" \/ filename f = "main.c" -> writer l (chain_files p) bl f ->
    (bl = "cpp_generator" /\ f = main_cpp p) \/ (bl = "c_generator" /\ f = main_c p).
  Proof.
    intros (dk & -> & _) N [(e & x & I & ->)|(fs & I & J)].
    - apply in_map_iff in I as (t & I & T). injection I as _ <- _. exfalso.
      apply (in_map (fun t => filename (out_file (g_env t)))) in T. rewrite outs in T. destruct N as [N|N]; rewrite N in T; cbn [In] in T;
        repeat (destruct T as [T|T]; [discriminate T|]); exact T.
    - destruct I as [I|[I|[]]]; injection I as <- <-; destruct J as [<-|[]]; auto.
  Qed.
  Lemma source_cases i f : chain_source p i = Some f ->
    ((i = "[gcc] cpptarget" \/ i = "[msvc] cpptarget") /\ f = main_cpp p) \/ ((i = "[gcc] ctarget" \/ i = "[msvc] ctarget") /\ f = main_c p).
  Proof.
    unfold chain_source. cbn [assoc].
    destruct (String.eqb i "[gcc] cpptarget") eqn:E1; [apply String.eqb_eq in E1; intros X; injection X as <-; auto|].
    destruct (String.eqb i "[gcc] ctarget") eqn:E2; [apply String.eqb_eq in E2; intros X; injection X as <-; auto|].
    destruct (String.eqb i "[msvc] cpptarget") eqn:E3; [apply String.eqb_eq in E3; intros X; injection X as <-; auto|].
    destruct (String.eqb i "[msvc] ctarget") eqn:E4; [apply String.eqb_eq in E4; intros X; injection X as <-; auto|]. discriminate.
  Qed.
  Lemma session_of se : chain_session p se -> exists ls g m, se_script se = script_of ls g m /\ se_gens se = [("cpp_generator", o_cpp p); ("c_generator", o_c p)] /\
    rg_built (se_reg se) = ["cpp_generator"; "c_generator"] ++ part_ids g "[gcc] cpptarget" "[gcc] ctarget" ++ part_ids m "[msvc] cpptarget" "[msvc] ctarget" /\
    rg_edges (se_reg se) = part_edges g "[gcc] cpptarget" "[gcc] ctarget" ++ part_edges m "[msvc] cpptarget" "[msvc] ctarget".
  Proof.
    intros (ls & n & cl & g & gt & m & mt & M & R). rewrite main_eq in M. injection M as M1 M2. exists ls, g, m. split; [exact (eq_sym M1)|]. split; [exact (eq_sym M2)|].
    exact (chain_reg _ _ _ _ _ _ _ R).
  Qed.
  Lemma chain_covered mt0 l se : unbuilt mt0 ts l -> chain_session p se -> covered (chain_objects ts) l (chain_files p) se.
  Proof.
    intros U S. destruct (session_of se S) as (ls & g & m & M1 & M2 & R1 & R2). split.
    - intros i x f bl T _ W _ I. rewrite M1 in T. apply chain_told in T. apply source_cases in T. rewrite R1 in I. rewrite R2.
      assert (D : main_cpp p <> main_c p) by (intros K; pose proof name_cpp as N1; pose proof name_c as N2; rewrite K, N2 in N1; discriminate N1).
      destruct T as [[T ->]|[T ->]].
      + destruct (chain_writer _ _ _ _ U (or_introl name_cpp) W) as [[-> _]|[_ W2]]; [|destruct (D W2)]. apply before_edge. apply in_or_app.
        destruct T as [-> | ->], g, m; cbn in I |- *; intuition discriminate.
      + destruct (chain_writer _ _ _ _ U (or_intror name_c) W) as [[_ W2]|[-> _]]; [destruct (D (eq_sym W2))|]. apply before_edge. apply in_or_app.
        destruct T as [-> | ->], g, m; cbn in I |- *; intuition discriminate.
    - intros j o k gi f bl I K F _ _ _ _. exfalso. rewrite M2 in I. destruct I as [I|[I|[]]]; injection I as <- <-; destruct K as [K|[]]; injection K as <- <-; exact F.
  Qed.
End Chain.
