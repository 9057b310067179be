(** Checking concrete histories by computation; the environment used in the
    examples. *)
From Verif Require Import Prelude Proof_Prelude Model_Path Model_Json Model_Schema Model_Command Spec_Command
  Proof_Command Model_ToolchainConfig Model_Target Spec_Target Proof_TargetBase Proof_TargetInv Proof_TargetRun
  Proof_TargetStep Proof_TargetStep2 Proof_TargetMain.

(** ** Reading a pattern *)
Fixpoint read_pattern (p : string) (name : option string) : list token :=
  match p with
  | EmptyString => []
  | String c r =>
      match name with
      | None => if Ascii.eqb c "{" then read_pattern r (Some "") else Lit c :: read_pattern r None
      | Some n => if Ascii.eqb c "}" then Field n :: read_pattern r None else read_pattern r (Some (n +++ str1 c))
      end
  end.
Definition avoidsb (p : string) (l : list string) : bool :=
  let t := read_pattern p None in
  String.eqb p (render t) && forallb token_okb t && forallb (fun f => negb (mem_str f (field_names t))) l.
Lemma avoidsb_sound (p : string) (l : list string) : avoidsb p l = true -> avoids p l.
Proof.
  unfold avoidsb. intros H. apply andb_true_iff in H as [H C]. apply andb_true_iff in H as [A B].
  exists (read_pattern p None). split; [apply String.eqb_eq; exact A|]. split; [apply tokens_okb_sound; exact B|].
  intros f Hf K. rewrite forallb_forall in C. specialize (C f Hf). apply negb_true_iff in C.
  apply mem_str_In in K. congruence.
Qed.
Lemma templates_okb (e : tenv) :
  avoidsb (te_compile_command e) ["link_flags"; "lib_dirs"] &&
  avoidsb (te_pch_command e) ["link_flags"; "lib_dirs"; "pch_object_flags"] = true -> templates_ok e.
Proof. intros H. apply andb_true_iff in H as [A B]. split; apply avoidsb_sound; assumption. Qed.

(** ** Deciding admissibility *)
Definition cfg_eqb (a b : cfg) : bool :=
  str_list_eqb (c_sources a) (c_sources b) && str_list_eqb (c_headers a) (c_headers b) &&
  str_list_eqb (c_pchs a) (c_pchs b) && str_list_eqb (c_libs a) (c_libs b) &&
  str_list_eqb (c_external_libs a) (c_external_libs b) && str_list_eqb (c_include_dirs a) (c_include_dirs b) &&
  str_list_eqb (c_lib_dirs a) (c_lib_dirs b) && str_list_eqb (c_preprocessor a) (c_preprocessor b) &&
  str_list_eqb (c_common a) (c_common b) && str_list_eqb (c_pch_compile a) (c_pch_compile b) &&
  str_list_eqb (c_pch_object a) (c_pch_object b) && str_list_eqb (c_asm_flags a) (c_asm_flags b) &&
  str_list_eqb (c_c_flags a) (c_c_flags b) && str_list_eqb (c_cpp_flags a) (c_cpp_flags b) &&
  str_list_eqb (c_link a) (c_link b) && str_list_eqb (c_compile_deps a) (c_compile_deps b) &&
  str_list_eqb (c_link_deps a) (c_link_deps b).
Lemma cfg_eta (x : cfg) :
  x = CFG (c_sources x) (c_headers x) (c_pchs x) (c_libs x) (c_external_libs x) (c_include_dirs x) (c_lib_dirs x)
          (c_preprocessor x) (c_common x) (c_pch_compile x) (c_pch_object x) (c_asm_flags x) (c_c_flags x)
          (c_cpp_flags x) (c_link x) (c_compile_deps x) (c_link_deps x).
Proof. destruct x; reflexivity. Qed.
Lemma cfg_eqb_sound (a b : cfg) : cfg_eqb a b = true -> a = b.
Proof.
  unfold cfg_eqb. intros H. rewrite !andb_true_iff in H.
  destruct H as ((((((((((((((((H1 & H2) & H3) & H4) & H5) & H6) & H7) & H8) & H9) & H10) & H11) & H12) & H13) & H14) & H15) & H16) & H17).
  apply str_list_eqb_eq in H1, H2, H3, H4, H5, H6, H7, H8, H9, H10, H11, H12, H13, H14, H15, H16, H17.
  rewrite (cfg_eta a), (cfg_eta b), H1, H2, H3, H4, H5, H6, H7, H8, H9, H10, H11, H12, H13, H14, H15, H16, H17. reflexivity.
Qed.
Definition permittedb (e : tenv) (h : hist) (c : cfg) : bool :=
  nodup_str (map (obj_of e) (sources c)) &&
  match h_lang h with None => true | Some b => negb (is_nil (pchs c)) && Bool.eqb (contains_cpp e c) b end &&
  match h_taint h with None => true | Some c1 => cfg_eqb c c1 end.
Lemma permittedb_sound (e : tenv) (h : hist) (c : cfg) : permittedb e h c = true -> permitted e h c.
Proof.
  unfold permittedb. intros H. apply andb_true_iff in H as [H C]. apply andb_true_iff in H as [A B].
  split; [apply nodup_str_NoDup; exact A|]. destruct (h_lang h) as [l|].
  - apply andb_true_iff in B as [B1 B2]. apply Bool.eqb_prop in B2. split; [|split].
    + intros _ K. rewrite K in B1. discriminate.
    + intros b [= <-]. exact B2.
    + intros c1 K. rewrite K in C. apply cfg_eqb_sound. exact C.
  - split; [congruence|]. split; [discriminate|]. intros c1 K. rewrite K in C. apply cfg_eqb_sound. exact C.
Qed.
Definition admissibleb (rg : regime) (e : tenv) (h : hist) (st : tstate) (ev : event) : bool :=
  match ev with
  | EvEdit f t =>
      match rg with
      | Quiet => match s_pc st with Idle | PcPch => true | PcObj => negb (contains_pch (s_cfg st)) | _ => false end ||
                 negb (mem_str f (tracked (s_cfg st)))
      | Forward =>
          match t with None => true | Some v => (h_next h f <=? v)%N end &&
          negb (contains_pch (s_cfg st) && match s_pc st with PcPchExec | PcObj => true | _ => false end &&
                mem_str f (headers (s_cfg st)))
      end
  | EvCrash => match rg, h_taint h with Quiet, Some _ => false | _, _ => true end
  | EvDropStore => match s_pc st with Idle => true | _ => false end
  | EvDelObj _ | EvDelPch | EvDelTgt => false
  | EvStart c _ => permittedb e h c
  | EvEnd w => match rg with Forward => true | Quiet => negb (s_dirty st) || writes_store st w end
  | _ => true
  end.
Lemma admissibleb_sound rg e h st ev : admissibleb rg e h st ev = true -> admissible rg e h st ev.
Proof.
  destruct ev; cbn [admissibleb admissible]; intros H; try exact I; try discriminate.
  - destruct rg.
    + apply orb_true_iff in H as [H|H]; [|right; right; apply negb_true_iff in H; apply mem_str_false; exact H].
      unfold before_checks. destruct (s_pc st); try discriminate; auto. apply negb_true_iff in H. auto.
    + apply andb_true_iff in H as [A B]. split.
      * intros v ->. apply N.leb_le. exact A.
      * intros [[W1 W2] W3]. apply mem_str_In in W3. rewrite W1, W3 in B. destruct W2 as [-> | ->] in B; discriminate.
  - destruct rg; [|left; reflexivity]. destruct (h_taint h); [discriminate|right; reflexivity].
  - destruct (s_pc st); try discriminate. reflexivity.
  - apply permittedb_sound. exact H.
  - destruct rg; [|left; reflexivity]. apply orb_true_iff in H as [H|H]; [right; left; apply negb_true_iff; exact H|right; right; exact H].
Qed.

Fixpoint follow (rg : regime) (e : tenv) (h : hist) (st : tstate) (evs : list event) : option (hist * tstate) :=
  match evs with
  | [] => Some (h, st)
  | ev :: r =>
      if admissibleb rg e h st ev then
        match step e st ev with Some st' => follow rg e (track e h st ev) st' r | None => None end
      else None
  end.
Lemma follow_history rg e d0 evs : forall pre h st h' st',
  history rg e d0 pre h st -> follow rg e h st evs = Some (h', st') -> history rg e d0 (pre ++ evs) h' st'.
Proof.
  induction evs as [|ev evs IH]; intros pre h st h' st' H F; cbn [follow] in F.
  - injection F as <- <-. rewrite app_nil_r. exact H.
  - destruct (admissibleb rg e h st ev) eqn:A; [|discriminate]. destruct (step e st ev) as [st1|] eqn:S; [|discriminate].
    apply admissibleb_sound in A. pose proof (history_snoc rg e d0 pre h st ev st1 H A S) as H1.
    specialize (IH _ _ _ _ _ H1 F). rewrite <- app_assoc in IH. exact IH.
Qed.
Lemma follow_case rg e d0 evs (P : hist -> tstate -> bool) :
  match follow rg e (hist0 d0) (init d0) evs with Some (h, st) => P h st | None => false end = true ->
  exists h st, history rg e d0 evs h st /\ P h st = true.
Proof.
  intros H. destruct (follow rg e (hist0 d0) (init d0) evs) as [[h st]|] eqn:F; [|discriminate].
  exists h, st. split; [|exact H]. exact (follow_history rg e d0 evs [] _ _ h st (history_nil rg e d0) F).
Qed.
Lemma exec_case e st evs (P : tstate -> bool) :
  match exec e st evs with Some st' => P st' | None => false end = true ->
  exists st', exec e st evs = Some st' /\ P st' = true.
Proof. destruct (exec e st evs) as [st'|]; [|discriminate]. intros H. exists st'. split; [reflexivity|exact H]. Qed.

(** ** The environment of the examples: gcc toolchain, default command templates
    (lib/target/include/target/common/target_config.h:31-36). *)
Definition e0 : tenv :=
  TE "/p" "/p/_b/t" "t" "" tconfig_default "as" "gcc" "g++" "ar" "ld"
     "{compiler} {preprocessor_flags} {include_dirs} {common_compile_flags} {pch_compile_flags} {compile_flags} -o {output} -c {input}"
     "{compiler} {preprocessor_flags} {include_dirs} {common_compile_flags} {pch_object_flags} {compile_flags} -o {output} -c {input}"
     "{cpp_compiler} {link_flags} {compiled_sources} -o {output} {lib_dirs} {lib_deps}".
Lemma e0_templates : templates_ok e0.
Proof. apply templates_okb. vm_compute. reflexivity. Qed.

Definition all_files : times := fun f => if mem_str f ["/p/a.cpp"; "/p/b.cpp"; "/p/c.c"; "/p/h.h"; "/p/pch.h"; "/p/l.a"; "/p/dep"] then Some 1%N else None.
Definition disk0 : disk := DK all_files None (fun _ => None) None None false (fun _ => false) false.

(** Sources, flags, PCH files. *)
Definition conf (srcs flags pch : list string) : cfg :=
  CFG srcs ["/p/h.h"] pch ["/p/l.a"] ["m"] ["/p"] ["/p/lib"] ["-DX=1"] flags [] ["-include pch.h"] [] ["-std=c11"]
      ["-std=c++17"] ["-s"] [] ["/p/dep"].
Definition cA : cfg := conf ["/p/a.cpp"; "/p/b.cpp"] ["-O1"] [].
Definition cB : cfg := conf ["/p/a.cpp"; "/p/b.cpp"] ["-O2"] [].
Definition cP : cfg := conf ["/p/a.cpp"; "/p/b.cpp"] ["-O1"] ["/p/pch.h"].
Definition ordA : list string := ["/p/b.cpp"; "/p/a.cpp"].

(** A run that compiles [srcs] (in that order) and links. *)
Definition full_run (c : cfg) (ord srcs : list string) : list event :=
  EvStart c ord :: (if contains_pch c then [EvPchCheck; EvPchExec XOk] else []) ++
  EvObjCheck :: compiles (map (fun s => (s, XOk)) srcs) ++ [EvLinkCheck; EvLinkExec XOk; EvEnd WOk].

(** ** Showing that an artifact is not current *)
Definition timeb (a b : option N) : bool :=
  match a, b with Some x, Some y => N.eqb x y | None, None => true | _, _ => false end.
Definition obj_staleb (e : tenv) (c : cfg) (d : disk) (s : string) : bool :=
  match d_obj d (obj_of e s), compile_command e c s with
  | Some a, FOk cmd => negb (String.eqb cmd (a_cmd a))
  | _, _ => true
  end.
Lemma obj_staleb_sound e c d s : obj_staleb e c d s = true -> ~ obj_current e c (d_mt d) d s.
Proof.
  unfold obj_staleb. intros H (a & A & _ & B & _). rewrite A, B, String.eqb_refl in H. discriminate.
Qed.
Definition pch_staleb (e : tenv) (c : cfg) (d : disk) : bool :=
  match d_pch d, pch_command e c with
  | Some p, FOk cmd =>
      negb (String.eqb cmd (p_cmd p)) ||
      existsb (fun f => negb (timeb (p_snap p f) (d_mt d f))) (headers c ++ pchs c)
  | _, _ => true
  end.
Lemma pch_staleb_sound e c d : pch_staleb e c d = true -> ~ pch_current e c (d_mt d) d.
Proof.
  unfold pch_staleb. intros H (p & A & _ & B & _ & C). rewrite A, B, String.eqb_refl in H. cbn [negb orb] in H.
  apply existsb_exists in H as (f & Hf & K). rewrite (C f Hf) in K. apply negb_true_iff in K.
  unfold timeb in K. destruct (d_mt d f); [rewrite N.eqb_refl in K|]; discriminate.
Qed.
Definition tgt_staleb (d : disk) : bool := match d_tgt d with None => true | Some _ => false end.
Lemma tgt_staleb_sound e c d : tgt_staleb d = true -> ~ tgt_current e c (d_mt d) d.
Proof. unfold tgt_staleb. intros H (l & ord & A & _). rewrite A in H. discriminate. Qed.

(** ** Traces against the code *)

(** C08: built with -O1, killed while building with -O2, -O1 again. *)
Definition trace08 : list event :=
  full_run cA ordA ["/p/a.cpp"; "/p/b.cpp"] ++
  [EvStart cB ordA; EvObjCheck; EvCompile "/p/a.cpp" XOk; EvCrash] ++
  idle_run cA ordA.
Lemma trace08_stale : exists st, exec e0 (init disk0) trace08 = Some st /\ s_ok st = true /\ s_cfg st = cA /\
  ~ obj_current e0 cA (d_mt (s_disk st)) (s_disk st) "/p/a.cpp".
Proof.
  destruct (exec_case e0 (init disk0) trace08
    (fun st => s_ok st && cfg_eqb (s_cfg st) cA && obj_staleb e0 cA (s_disk st) "/p/a.cpp")) as (st & X & P).
  { vm_compute. reflexivity. }
  apply andb_true_iff in P as [P P3]. apply andb_true_iff in P as [P1 P2].
  exists st. split; [exact X|]. split; [exact P1|]. split; [apply cfg_eqb_sound; exact P2|apply obj_staleb_sound; exact P3].
Qed.

(** C11: with a PCH, then without. *)
Definition trace11 : list event := full_run cP ordA ["/p/a.cpp"; "/p/b.cpp"] ++ idle_run cA ordA.
Lemma trace11_stale : exists st, exec e0 (init disk0) trace11 = Some st /\ s_ok st = true /\ s_cfg st = cA /\
  forall s, In s (sources cA) -> ~ obj_current e0 cA (d_mt (s_disk st)) (s_disk st) s.
Proof.
  destruct (exec_case e0 (init disk0) trace11
    (fun st => s_ok st && cfg_eqb (s_cfg st) cA && forallb (obj_staleb e0 cA (s_disk st)) (sources cA))) as (st & X & P).
  { vm_compute. reflexivity. }
  apply andb_true_iff in P as [P P3]. apply andb_true_iff in P as [P1 P2].
  exists st. split; [exact X|]. split; [exact P1|]. split; [apply cfg_eqb_sound; exact P2|].
  intros s Hs. rewrite forallb_forall in P3. apply obj_staleb_sound. exact (P3 s Hs).
Qed.

(** C12: a C target with a PCH gets a C++ source. *)
Definition cP1 : cfg := conf ["/p/c.c"] ["-O1"] ["/p/pch.h"].
Definition cP2 : cfg := conf ["/p/c.c"; "/p/a.cpp"] ["-O1"] ["/p/pch.h"].
Definition trace12 : list event :=
  full_run cP1 ["/p/c.c"] ["/p/c.c"] ++
  [EvStart cP2 ["/p/c.c"; "/p/a.cpp"]; EvPchCheck; EvObjCheck; EvCompile "/p/a.cpp" XOk; EvLinkCheck; EvLinkExec XOk; EvEnd WOk].
Lemma trace12_stale : exists st, exec e0 (init disk0) trace12 = Some st /\ s_ok st = true /\ s_cfg st = cP2 /\
  ~ pch_current e0 cP2 (d_mt (s_disk st)) (s_disk st).
Proof.
  destruct (exec_case e0 (init disk0) trace12
    (fun st => s_ok st && cfg_eqb (s_cfg st) cP2 && pch_staleb e0 cP2 (s_disk st))) as (st & X & P).
  { vm_compute. reflexivity. }
  apply andb_true_iff in P as [P P3]. apply andb_true_iff in P as [P1 P2].
  exists st. split; [exact X|]. split; [exact P1|]. split; [apply cfg_eqb_sound; exact P2|apply pch_staleb_sound; exact P3].
Qed.

(** C13: another C++ compiler; another compile template; a compile template that
    uses the link flags. *)
Definition e0_clang : tenv :=
  TE (te_root e0) (te_build e0) (te_name e0) (te_ext e0) (te_tc e0) (te_asm e0) (te_cc e0) "clang++" (te_ar e0) (te_ld e0)
     (te_pch_command e0) (te_compile_command e0) (te_link_command e0).
Definition e0_verbose : tenv :=
  TE (te_root e0) (te_build e0) (te_name e0) (te_ext e0) (te_tc e0) (te_asm e0) (te_cc e0) (te_cxx e0) (te_ar e0) (te_ld e0)
     (te_pch_command e0) ("{compiler} -v {preprocessor_flags} {include_dirs} {common_compile_flags} {pch_object_flags} {compile_flags} -o {output} -c {input}")
     (te_link_command e0).
Lemma trace13_stale (e1 : tenv) : e1 = e0_clang \/ e1 = e0_verbose -> templates_ok e1 /\
  exists st1 st2, exec e0 (init disk0) (full_run cA ordA ["/p/a.cpp"; "/p/b.cpp"]) = Some st1 /\
  exec e1 st1 (idle_run cA ordA) = Some st2 /\ s_ok st2 = true /\ s_log st2 = s_log st1 /\
  forall s, In s (sources cA) -> ~ obj_current e1 cA (d_mt (s_disk st2)) (s_disk st2) s.
Proof.
  intros E.
  destruct (exec_case e0 (init disk0) (full_run cA ordA ["/p/a.cpp"; "/p/b.cpp"])
    (fun st1 => match exec e1 st1 (idle_run cA ordA) with
      | Some st2 => s_ok st2 && Nat.eqb (length (s_log st2)) (length (s_log st1)) && forallb (obj_staleb e1 cA (s_disk st2)) (sources cA)
      | None => false end)) as (st1 & X & P).
  { destruct E as [-> | ->]; vm_compute; reflexivity. }
  split. { destruct E as [-> | ->]; apply templates_okb; vm_compute; reflexivity. }
  exists st1. destruct (exec e1 st1 (idle_run cA ordA)) as [st2|] eqn:X2; [|discriminate]. exists st2.
  apply andb_true_iff in P as [P P3]. apply andb_true_iff in P as [P1 P2].
  split; [exact X|]. split; [reflexivity|]. split; [exact P1|]. split.
  - assert (M : forall evs sa sb, exec e1 sa evs = Some sb ->
        Forall (fun ev => match ev with EvPchExec _ | EvCompile _ _ | EvLinkExec _ => False | _ => True end) evs -> s_log sb = s_log sa).
    { clear. induction evs as [|ev evs IH]; intros sa sb X F; cbn [exec] in X; [injection X as <-; reflexivity|].
      inversion F as [|? ? F1 F2]; subst. destruct (step e1 sa ev) as [sc|] eqn:S; [|discriminate].
      rewrite (IH _ _ X F2). clear IH X. destruct ev; try destruct F1; cbn [step] in S.
      - injection S as <-. reflexivity.
      - injection S as <-. reflexivity.
      - destruct (s_pc sa); try discriminate; injection S as <-; reflexivity.
      - injection S as <-. reflexivity.
      - injection S as <-. reflexivity.
      - injection S as <-. reflexivity.
      - injection S as <-. reflexivity.
      - destruct (s_pc sa); try discriminate. unfold start in S. destruct (_ || _); [discriminate|].
        destruct (forallb _ _); injection S as <-; reflexivity.
      - destruct (s_pc sa); try discriminate. injection S as <-. unfold pch_check.
        destruct (negb (s_ok sa)); [reflexivity|]. destruct (pch_pre _ _). destruct (negb b); [reflexivity|].
        destruct (_ || _); reflexivity.
      - destruct (s_pc sa); try discriminate. injection S as <-.
        unfold obj_check. destruct (negb (s_ok sa)); [reflexivity|]. destruct (obj_pre _ _). destruct (negb b); [reflexivity|].
        destruct (if _ : bool then _ else _) as [[x y] z]. reflexivity.
      - destruct (s_pc sa) as [| | | |[|? ?]| |]; try discriminate. injection S as <-.
        unfold link_check. destruct (negb (s_ok sa)); [reflexivity|]. destruct (link_pre _ _). destruct (negb b); reflexivity.
      - destruct (step_end e1 sa sc w S) as (_ & _ & _ & _ & _ & L & _). exact L.
      - destruct (s_pc sa); try discriminate. destruct (s_dirty sa); [|discriminate].
        destruct (bind _ _); [|discriminate]. injection S as <-. reflexivity. }
    apply (M _ _ _ X2). repeat constructor.
  - intros s Hs. rewrite forallb_forall in P3. apply obj_staleb_sound. exact (P3 s Hs).
Qed.
Definition e0_linkflags : tenv :=
  TE (te_root e0) (te_build e0) (te_name e0) (te_ext e0) (te_tc e0) (te_asm e0) (te_cc e0) (te_cxx e0) (te_ar e0) (te_ld e0)
     (te_pch_command e0) "{compiler} {link_flags} -o {output} -c {input}" (te_link_command e0).
Definition cL (l : list string) : cfg :=
  CFG ["/p/a.cpp"] [] [] [] [] [] [] [] [] [] [] [] [] [] l [] [].
Definition trace13b : list event :=
  full_run (cL ["-s"]) ["/p/a.cpp"] ["/p/a.cpp"] ++
  [EvStart (cL ["-g"]) ["/p/a.cpp"]; EvObjCheck; EvLinkCheck; EvLinkExec XOk; EvEnd WOk].
Lemma trace13b_stale : exists st, exec e0_linkflags (init disk0) trace13b = Some st /\ s_ok st = true /\
  s_cfg st = cL ["-g"] /\ ~ obj_current e0_linkflags (s_cfg st) (d_mt (s_disk st)) (s_disk st) "/p/a.cpp".
Proof.
  destruct (exec_case e0_linkflags (init disk0) trace13b
    (fun st => s_ok st && cfg_eqb (s_cfg st) (cL ["-g"]) && obj_staleb e0_linkflags (s_cfg st) (s_disk st) "/p/a.cpp")) as (st & X & P).
  { vm_compute. reflexivity. }
  apply andb_true_iff in P as [P P3]. apply andb_true_iff in P as [P1 P2].
  exists st. split; [exact X|]. split; [exact P1|]. split; [apply cfg_eqb_sound; exact P2|apply obj_staleb_sound; exact P3].
Qed.

(** C14: one output deleted between two runs. *)
Definition trace14 (del : event) : list event :=
  full_run cP ordA ["/p/a.cpp"; "/p/b.cpp"] ++ del :: idle_run cP ordA.
Lemma trace14_stale : 
  (exists st, exec e0 (init disk0) (trace14 (EvDelObj (obj_of e0 "/p/a.cpp"))) = Some st /\ s_ok st = true /\ s_cfg st = cP /\
     ~ obj_current e0 cP (d_mt (s_disk st)) (s_disk st) "/p/a.cpp") /\
  (exists st, exec e0 (init disk0) (trace14 EvDelPch) = Some st /\ s_ok st = true /\ s_cfg st = cP /\
     ~ pch_current e0 cP (d_mt (s_disk st)) (s_disk st)) /\
  (exists st, exec e0 (init disk0) (trace14 EvDelTgt) = Some st /\ s_ok st = true /\ s_cfg st = cP /\
     ~ tgt_current e0 cP (d_mt (s_disk st)) (s_disk st)).
Proof.
  split; [|split].
  - destruct (exec_case e0 (init disk0) (trace14 (EvDelObj (obj_of e0 "/p/a.cpp")))
      (fun st => s_ok st && cfg_eqb (s_cfg st) cP && obj_staleb e0 cP (s_disk st) "/p/a.cpp")) as (st & X & P).
    { vm_compute. reflexivity. }
    apply andb_true_iff in P as [P P3]. apply andb_true_iff in P as [P1 P2].
    exists st. split; [exact X|]. split; [exact P1|]. split; [apply cfg_eqb_sound; exact P2|apply obj_staleb_sound; exact P3].
  - destruct (exec_case e0 (init disk0) (trace14 EvDelPch)
      (fun st => s_ok st && cfg_eqb (s_cfg st) cP && pch_staleb e0 cP (s_disk st))) as (st & X & P).
    { vm_compute. reflexivity. }
    apply andb_true_iff in P as [P P3]. apply andb_true_iff in P as [P1 P2].
    exists st. split; [exact X|]. split; [exact P1|]. split; [apply cfg_eqb_sound; exact P2|apply pch_staleb_sound; exact P3].
  - destruct (exec_case e0 (init disk0) (trace14 EvDelTgt)
      (fun st => s_ok st && cfg_eqb (s_cfg st) cP && tgt_staleb (s_disk st))) as (st & X & P).
    { vm_compute. reflexivity. }
    apply andb_true_iff in P as [P P3]. apply andb_true_iff in P as [P1 P2].
    exists st. split; [exact X|]. split; [exact P1|]. split; [apply cfg_eqb_sound; exact P2|apply tgt_staleb_sound; exact P3].
Qed.

(** C09: a header is changed after the PCH stage looked at it and before the
    object stage does; the next run, with nothing changed, is content. *)
Definition trace09 : list event :=
  [EvStart cP ordA; EvPchCheck; EvPchExec XOk; EvEdit "/p/h.h" (Some 5%N); EvObjCheck;
   EvCompile "/p/a.cpp" XOk; EvCompile "/p/b.cpp" XOk; EvLinkCheck; EvLinkExec XOk; EvEnd WOk] ++
  idle_run cP ordA.
Lemma trace09_stale : exists st, exec e0 (init disk0) trace09 = Some st /\ s_ok st = true /\ s_cfg st = cP /\
  ~ pch_current e0 cP (d_mt (s_disk st)) (s_disk st).
Proof.
  destruct (exec_case e0 (init disk0) trace09
    (fun st => s_ok st && cfg_eqb (s_cfg st) cP && pch_staleb e0 cP (s_disk st))) as (st & X & P).
  { vm_compute. reflexivity. }
  apply andb_true_iff in P as [P P3]. apply andb_true_iff in P as [P1 P2].
  exists st. split; [exact X|]. split; [exact P1|]. split; [apply cfg_eqb_sound; exact P2|apply pch_staleb_sound; exact P3].
Qed.

(** C04: a source given twice. *)
Definition cD : cfg := conf ["/p/a.cpp"; "/p/a.cpp"] ["-O1"] [].
Definition trace04 : list event :=
  full_run cD ["/p/a.cpp"] ["/p/a.cpp"; "/p/a.cpp"].
Lemma trace04_rebuilds : exists st, exec e0 (init disk0) trace04 = Some st /\ s_ok st = true /\
  exists st2, exec e0 st [EvStart cD ["/p/a.cpp"]; EvObjCheck; EvCompile "/p/a.cpp" XOk; EvLinkCheck; EvLinkExec XOk; EvEnd WOk] = Some st2 /\
    s_ok st2 = true /\ length (s_log st2) = length (s_log st) + 2.
Proof.
  destruct (exec_case e0 (init disk0) trace04
    (fun st => s_ok st && match exec e0 st [EvStart cD ["/p/a.cpp"]; EvObjCheck; EvCompile "/p/a.cpp" XOk; EvLinkCheck; EvLinkExec XOk; EvEnd WOk] with
       | Some st2 => s_ok st2 && Nat.eqb (length (s_log st2)) (length (s_log st) + 2) | None => false end)) as (st & X & P).
  { vm_compute. reflexivity. }
  apply andb_true_iff in P as [P1 P]. exists st. split; [exact X|]. split; [exact P1|].
  match goal with H : match ?x with _ => _ end = true |- _ => destruct x as [st2|] eqn:X2; [|discriminate] end.
  apply andb_true_iff in P as [P2 P3]. exists st2. split; [reflexivity|]. split; [exact P2|apply Nat.eqb_eq; exact P3].
Qed.
