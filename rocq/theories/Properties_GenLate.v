(** C137: calls on a generator after its Build(). *)
From Verif Require Import Prelude Model_Path Model_Json Model_Schema Model_Command Model_Target Spec_Target
  Model_Gen Spec_Gen Model_FileGen Spec_FileGen Proof_FileGen Proof_FileGen2 Proof_GenCase Model_GenLate Spec_GenLate Proof_GenLate Proof_GenLate2 Proof_GenLateCase.

(** A custom generator: late calls count.  The process does exactly what it would do
    if they had been made before Build() ... *)
Theorem C137_custom_late_counts (u8 : string -> N) (st : gstate) (b0 b : gbuilder) (cs : list bcall) (b1 : gbuilder) (run : list gevent) (k : kstate) :
  gb_kind b = KCustom -> bdo_all b cs = AOk b1 -> (forall o, ~ In (GStart o) run) ->
  kexec u8 (KS st b0) (late_process b cs run) = Some k -> exists o1, bbuild b1 = AOk o1 /\ gexec u8 st (GStart o1 :: run) = Some (k_st k).
Proof. exact (custom_counts u8 st b0 b cs b1 run k). Qed.
Print Assumptions C137_custom_late_counts.
(** ... so a successful run leaves every id current, also those given late. *)
Theorem C137_custom_late_current_partial (rg : regime) (bd : discipline) (u8 : string -> N) (m0 : times) (evs : list gevent) (h : ghist) (st : gstate)
  (b0 b : gbuilder) (cs : list bcall) (b1 : gbuilder) (o1 : gobj) (run : list gevent) (w : wres) (h' : ghist) (st' : gstate) (k : kstate) :
  lawful bd -> gb_kind b = KCustom -> bdo_all b cs = AOk b1 -> bbuild b1 = AOk o1 -> (forall o, ~ In (GStart o) run) ->
  ghistory rg bd u8 m0 evs h st -> ghistory rg bd u8 m0 (evs ++ GStart o1 :: run ++ [GFinish w]) h' st' ->
  kexec u8 (KS st b0) (late_process b cs (run ++ [GFinish w])) = Some k -> g_ok (k_st k) = true ->
  forall id g, In (id, g) (go_ids o1) -> id_current bd (gd_mt (g_disk (k_st k))) (g_disk (k_st k)) id g.
Proof. exact (custom_current rg bd u8 m0 evs h st b0 b cs b1 o1 run w h' st' k). Qed.
Print Assumptions C137_custom_late_current_partial.

(** A refused call (a duplicate id, a pattern that cannot be expanded) ends the
    process before any callback; nothing is written. *)
Theorem C137_refused_ends (u8 : string -> N) (st : gstate) (b0 b : gbuilder) (cs : list bcall) (o : gobj) (k0 : kstate) :
  bbuild b = AOk o -> bdo_all (with_base b o) cs = AFatal -> kexec u8 (KS st b0) [KBuild b] = Some k0 ->
  exists k, kexec u8 (KS st b0) [KBuild b; KCalls cs] = Some k /\
  g_pc (k_st k) = GIdle /\ g_ok (k_st k) = false /\ g_disk (k_st k) = g_disk st /\ g_log (k_st k) = g_log st.
Proof. exact (refused_ends u8 st b0 b cs o k0). Qed.
Print Assumptions C137_refused_ends.
(** So does a refused Build() in a process that is about to start. *)
Theorem C137_refused_build (u8 : string -> N) (st : gstate) (b0 b : gbuilder) :
  bbuild b = AFatal ->
  (g_pc st = GIdle -> exists k, kexec u8 (KS st b0) [KBuild b] = Some k /\
    g_pc (k_st k) = GIdle /\ g_ok (k_st k) = false /\ g_disk (k_st k) = g_disk st /\ g_log (k_st k) = g_log st) /\
  (g_pc st <> GIdle -> kexec u8 (KS st b0) [KBuild b] = None).
Proof. exact (refused_build u8 st b0 b). Qed.
Print Assumptions C137_refused_build.

(** False for the two derived classes: inputs, outputs, commands and templates given
    late are accepted and have no effect whatever. *)
Theorem C137_derived_late_lost_refuted (u8 : string -> N) (st : gstate) (b0 b : gbuilder) (cs : list bcall) (o : gobj) (b1 : gbuilder) (run : list gevent) (k : kstate) :
  derived (gb_kind b) -> bbuild b = AOk o -> bdo_all (with_base b o) cs = AOk b1 -> no_pattern cs -> (forall o, ~ In (GStart o) run) ->
  kexec u8 (KS st b0) (late_process b cs run) = Some k -> gexec u8 st (GStart o :: run) = Some (k_st k).
Proof. exact (derived_lost u8 st b0 b cs o b1 run k). Qed.
Print Assumptions C137_derived_late_lost_refuted.
(** A late pattern reaches the callbacks (a template expands its text with it) but
    no path, no command and no id. *)
Theorem C137_derived_late_pattern (u8 : string -> N) (st : gstate) (b0 b : gbuilder) (cs : list bcall) (o : gobj) (b1 : gbuilder) (run : list gevent) (k : kstate) :
  derived (gb_kind b) -> bbuild b = AOk o -> bdo_all (with_base b o) cs = AOk b1 -> (forall o, ~ In (GStart o) run) ->
  kexec u8 (KS st b0) (late_process b cs run) = Some k ->
  gexec u8 st (GStart (GO (go_args (gb_base b1)) (go_ids o)) :: run) = Some (k_st k).
Proof. exact (derived_pattern u8 st b0 b cs o b1 run k). Qed.
Print Assumptions C137_derived_late_pattern.

(** Concretely: a command given late is not executed, a template given late is not
    written; both runs report success. *)
Theorem C137_late_command_refuted :
  exists u8 m0 b0 b cs b1 o1 run k g, gb_kind b = KFile /\ bdo_all b cs = AOk b1 /\ bbuild b1 = AOk o1 /\
    kexec u8 (KS (ginit m0) b0) (late_process b cs run) = Some k /\ g_ok (k_st k) = true /\ In ("Generate", g) (go_ids o1) /\
    ~ id_current file_blobs (gd_mt (g_disk (k_st k))) (g_disk (k_st k)) "Generate" g.
Proof.
  destruct kf_command_case as (k & A & B & C).
  exists u80, files1, (builder_new KCustom base0), kf_b, only_command, kf_b2, (ok_o (bbuild kf_b2)), (kf_run ++ [GFinish WOk]), k, (the_id "Generate" (ok_o (bbuild kf_b2))).
  split; [reflexivity|]. split; [exact kf2_done|]. split; [exact kf2_built|]. split; [exact A|]. split; [exact B|].
  split; [exact kf2_in|exact C].
Qed.
Print Assumptions C137_late_command_refuted.
Theorem C137_late_template_refuted :
  exists u8 m0 b0 root b cs b1 o1 run k id g, gb_kind b = KTemplate root /\ bdo_all b cs = AOk b1 /\ bbuild b1 = AOk o1 /\
    kexec u8 (KS (ginit m0) b0) (late_process b cs run) = Some k /\ g_ok (k_st k) = true /\ In (id, g) (go_ids o1) /\
    ~ id_current no_blobs (gd_mt (g_disk (k_st k))) (g_disk (k_st k)) id g.
Proof.
  destruct kt_case as (k & A & B & C).
  exists u80, files1, (builder_new KCustom base0), "/p", kt_b, kt_calls, kt_b1, (ok_o (bbuild kt_b1)), (kt_run ++ [GFinish WOk]), k, "x.txt", (the_id "x.txt" (ok_o (bbuild kt_b1))).
  split; [reflexivity|]. split; [exact kt1_done|]. split; [exact kt1_built|]. split; [exact A|]. split; [exact B|].
  split; [exact kt1_in|exact C].
Qed.
Print Assumptions C137_late_template_refuted.

(** Unlike with a target the loss is not recorded: a later process that gives the
    commands before Build() and succeeds has run its callback. *)
Theorem C137_lost_command_noticed (rg : regime) (u8 : string -> N) (m0 : times) (evs : list gevent) (h : ghist) (st : gstate)
  (b0 b : gbuilder) (cs : list bcall) (b1 b2 : gbuilder) (o o2 : gobj) (run : list gevent) (w : wres) (k : kstate)
  (evs2 : list gevent) (w2 : wres) (h1 h2 : ghist) (st1 st2 : gstate) :
  gb_kind b = KFile -> bbuild b = AOk o -> bdo_all (with_base b o) cs = AOk b1 -> no_pattern cs -> (forall o, ~ In (GStart o) run) ->
  ghistory rg file_blobs u8 m0 evs h st -> ghistory rg file_blobs u8 m0 ((evs ++ GStart o :: run) ++ [GFinish w]) h1 st1 ->
  kexec u8 (KS st b0) (late_process b cs (run ++ [GFinish w])) = Some k -> g_ok (k_st k) = true ->
  bdo_all b cs = AOk b2 -> bbuild b2 = AOk o2 ->
  ghistory rg file_blobs u8 m0 (((evs ++ GStart o :: run) ++ [GFinish w]) ++ evs2 ++ [GFinish w2]) h2 st2 -> g_ok st2 = true -> g_cfg st2 = o2 ->
  encodable (fg_commands (gb_file b)) -> encodable (fg_commands (gb_file b2)) -> fg_commands (gb_file b) <> fg_commands (gb_file b2) ->
  exists wr, In (GCall "Generate" true wr) evs2.
Proof. exact (lost_noticed rg u8 m0 evs h st b0 b cs b1 b2 o o2 run w k evs2 w2 h1 h2 st1 st2). Qed.
Print Assumptions C137_lost_command_noticed.

(** What the calls made before Build() amount to. A file generator has one id, with
    the inputs, outputs and commands of its calls; each command is the one put
    together with the patterns that exist at the time of its call. *)
Theorem C137_file_calls :
  (forall base cs b o, go_ids base = [] -> bdo_all (builder_new KFile base) cs = AOk b -> bbuild b = AOk o ->
     exists g, go_ids o = [("Generate", g)] /\
       (forall x, In x (gi_in g) <-> exists p, In (BInput p) cs /\ construct (go_args o) p [] = FOk x) /\
       (forall x, In x (gi_out g) <-> exists p, In (BOutput p) cs /\ construct (go_args o) p [] = FOk x) /\
       gi_handler g = Some (strings_handler (fg_commands (gb_file b)))) /\
  (forall base pre p a post b, bdo_all (builder_new KFile base) (pre ++ BCommand p a :: post) = AOk b ->
     exists b0 v more, bdo_all (builder_new KFile base) pre = AOk b0 /\ construct (go_args (gb_base b0)) p a = FOk v /\
       fg_commands (gb_file b) = fg_commands (gb_file b0) ++ v :: more /\ length more = commands_in post) /\
  (forall base cs b, bdo_all (builder_new KFile base) cs = AOk b -> length (fg_commands (gb_file b)) = commands_in cs).
Proof. exact file_calls_before. Qed.
Print Assumptions C137_file_calls.
(** A template generator has the templates of its calls, in order. *)
Theorem C137_template_calls :
  forall k base cs b, bdo_all (builder_new k base) cs = AOk b ->
  gb_templates b = flat_map (fun c => match c with BTemplate i o => [(i, o)] | _ => [] end) cs.
Proof. exact template_calls_before. Qed.
Print Assumptions C137_template_calls.
(** A custom generator has the ids of its calls, in order, each with the inputs,
    outputs and handler of its call. *)
Theorem C137_custom_calls :
  (forall base cs b o, go_ids base = [] -> bdo_all (builder_new KCustom base) cs = AOk b -> bbuild b = AOk o ->
     map fst (go_ids o) = flat_map (fun c => match c with BAddId id _ _ _ => [id] | _ => [] end) cs) /\
  (forall base pre id i u h post b o, bdo_all (builder_new KCustom base) (pre ++ BAddId id i u h :: post) = AOk b -> bbuild b = AOk o ->
     exists b0 g, bdo_all (builder_new KCustom base) pre = AOk b0 /\ In (id, g) (go_ids o) /\ gi_handler g = h /\
       (forall x, In x (gi_in g) <-> exists p, In p i /\ construct (go_args (gb_base b0)) p [] = FOk x) /\
       (forall x, In x (gi_out g) <-> exists p, In p u /\ construct (go_args (gb_base b0)) p [] = FOk x)).
Proof. exact custom_calls_before. Qed.
Print Assumptions C137_custom_calls.

(** Build() itself can be called once only. *)
Theorem C137_build_twice_refused (b : gbuilder) (o : gobj) :
  derived (gb_kind b) -> (gb_kind b <> KFile -> gb_templates b <> []) -> bbuild b = AOk o -> bbuild (with_base b o) = AFatal.
Proof. exact (build_twice b o). Qed.
Print Assumptions C137_build_twice_refused.

(** The hypotheses are met. *)
Example C137_custom_case : gb_kind kc_b = KCustom /\ bdo_all kc_b kc_calls = AOk kc_b1 /\ bbuild kc_b1 = AOk kc_o1 /\
  (exists h st, ghistory Quiet no_blobs u80 files1 ([] ++ GStart kc_o1 :: kc_run ++ [GFinish WOk]) h st /\ g_ok st = true) /\
  exists k, kexec u80 ks0 (late_process kc_b kc_calls (kc_run ++ [GFinish WOk])) = Some k /\
    g_ok (k_st k) && Nat.eqb (length (g_log (k_st k))) 2 && Nat.eqb (length (go_ids kc_o1)) 2 = true.
Proof.
  destruct kc_ok as (A & B & C). split; [exact A|]. split; [exact B|]. split; [exact C|]. split; [exact kc_history|].
  apply (kexec_case u80 ks0 _ (fun k => g_ok (k_st k) && Nat.eqb (length (g_log (k_st k))) 2 && Nat.eqb (length (go_ids kc_o1)) 2)). vm_compute. reflexivity.
Qed.
Example C137_calls_case : is_aok (bdo_all (builder_new KFile base0) [BInput "{current_root_dir}/a.txt"; BOutput "/p/b.txt"; BCommand "x" []]) = true /\
  is_aok (bdo_all (builder_new (KTemplate "/p") base0) kt_calls) = true /\ is_aok (bdo_all (builder_new KCustom base0) [BAddId "A" ["/p/a.txt"] [] None]) = true.
Proof. split; [|split]; vm_compute; reflexivity. Qed.
Example C137_refused_case : bdo_all (with_base kc_b (gb_base kc_b)) [BAddId "A" [] [] None] = AFatal /\
  bdo_all (with_base kf_b (ok_o (bbuild kf_b))) [BCommand "{unknown}" []] = AFatal /\
  bbuild (with_base kf_b (ok_o (bbuild kf_b))) = AFatal /\
  match kexec u80 ks0 [KBuild kf_b] with Some k => match g_pc (k_st k) with GBuilt => true | _ => false end | None => false end = true.
Proof. split; [|split; [|split]]; vm_compute; reflexivity. Qed.
Example C137_derived_case : derived (gb_kind kf_b) /\ derived (gb_kind kt_b) /\ no_pattern kf_calls /\ no_pattern kt_calls /\
  bbuild kf_b = AOk (ok_o (bbuild kf_b)) /\ bbuild kt_b = AOk (ok_o (bbuild kt_b)) /\ gb_templates kt_b <> [] /\
  (exists k, kexec u80 ks0 (late_process kf_b kf_calls (kf_run ++ [GFinish WOk])) = Some k /\ g_ok (k_st k) = true) /\
  exists k, kexec u80 ks0 (late_process kt_b0 (BPattern "v" "2" :: kt_calls) (kt_run ++ [GFinish WOk])) = Some k /\
    g_ok (k_st k) && match g_log (k_st k) with [c] => opt_str_eqb (template_text text0 (gc_art c)) (Some "version 2") | _ => false end = true.
Proof.
  split; [discriminate|]. split; [discriminate|]. split; [intros k p I; cbn in I; intuition discriminate|]. split; [intros k p I; cbn in I; intuition discriminate|].
  split; [exact kf_built|]. split; [exact kt_built|]. split; [vm_compute; discriminate|].
  split; [destruct kf_case as (k & A & B & _); exists k; split; [exact A|exact B]|].
  apply (kexec_case u80 ks0 _ (fun k => g_ok (k_st k) && match g_log (k_st k) with [c] => opt_str_eqb (template_text text0 (gc_art c)) (Some "version 2") | _ => false end)).
  vm_compute. reflexivity.
Qed.
Example C137_noticed_case : bdo_all kf_b only_command = AOk kf_b2 /\ bbuild kf_b2 = AOk (ok_o (bbuild kf_b2)) /\
  fg_commands (gb_file kf_b) <> fg_commands (gb_file kf_b2) /\
  exists h st, ghistory Quiet file_blobs u80 files1 ((([] ++ GStart (ok_o (bbuild kf_b)) :: kf_run) ++ [GFinish WOk]) ++
     (GStart (ok_o (bbuild kf_b2)) :: kf_run) ++ [GFinish WOk]) h st /\ g_ok st = true.
Proof.
  split; [exact kf2_done|]. split; [exact kf2_built|]. split; [vm_compute; discriminate|].
  apply (gfollow_case Quiet file_blobs u80 files1 _ (fun _ st => g_ok st)); [exact kf_starts|vm_compute; reflexivity].
Qed.
