(** Properties of CustomGenerator, FileGenerator and TemplateGenerator. *)
From Verif Require Import Prelude Model_Path Model_Json Model_Schema Model_Command Model_Target Spec_Target
  Model_Gen Spec_Gen Model_FileGen Spec_FileGen Proof_GenMain Proof_GenRuns Proof_GenSel Proof_GenBlob Proof_FileGen Proof_FileGen2 Proof_GenCase.

(** C39: when a run succeeds, the last callback of every id succeeded and was given
    the present inputs in their present versions, outputs and blob. *)
Theorem C39_generator_current : forall rg bd u8 m0 evs w h st,
  lawful bd -> ghistory rg bd u8 m0 (evs ++ [GFinish w]) h st -> g_ok st = true ->
  forall id g, In (id, g) (go_ids (g_cfg st)) -> id_current bd (gd_mt (g_disk st)) (g_disk st) id g.
Proof. exact run_current. Qed.
Print Assumptions C39_generator_current.

Example C39_case_quiet : exists h st, ghistory Quiet no_blobs u80 files1 ((gbusy ++ gbusy_end) ++ [GFinish WOk]) h st /\
  g_ok st && Nat.eqb (length (go_ids (g_cfg st))) 2 && Nat.eqb (length (g_log st)) 6 = true.
Proof. apply gfollow_case; [apply gbusy_starts|]; vm_compute; reflexivity. Qed.
Example C39_case_forward : exists h st, ghistory Forward no_blobs u80 files1 (gkill ++ [GFinish WOk]) h st /\
  g_ok st && Nat.eqb (length (go_ids (g_cfg st))) 2 && Nat.eqb (length (g_log st)) 7 = true.
Proof. apply gfollow_case; [apply gbusy_starts|]; vm_compute; reflexivity. Qed.
Example C39_case_blobs : exists h st, ghistory Quiet file_blobs u80 files1 ((gfile1 ++ [GFinish WOk]) ++ gfile2 ++ [GFinish WOk]) h st /\ g_ok st = true.
Proof.
  apply gfollow_case; [|vm_compute; reflexivity].
  apply files_start. right. reflexivity.
Qed.

(** C40: with an id that reads what another one writes, a run can succeed and leave
    the reader's output made from the old contents, and all later runs leave it so. *)
Theorem C40_chained_refuted :
  exists st, gexec u80 (ginit files1) gchain = Some st /\ g_ok st = true /\ In ("B", oC_B) (go_ids (g_cfg st)) /\
  ~ id_current no_blobs (gd_mt (g_disk st)) (g_disk st) "B" oC_B /\
  forall evs st2, Forall (gundisturbed oC) evs -> gexec u80 st evs = Some st2 ->
    g_log st2 = g_log st /\ ~ id_current no_blobs (gd_mt (g_disk st)) (g_disk st2) "B" oC_B.
Proof. exact chain_stale. Qed.
Print Assumptions C40_chained_refuted.

(** It holds if whatever writes an input does so before the id looks at it; missing:
    any other schedule. *)
Theorem C40_producers_first_partial : forall rg bd u8 m0 evs w h st,
  lawful bd -> ghistory rg bd u8 m0 (evs ++ [GFinish w]) h st -> g_ok st = true ->
  forall id g, In (id, g) (go_ids (g_cfg st)) -> id_current bd (gd_mt (g_disk st)) (g_disk st) id g.
Proof. exact run_current. Qed.
Print Assumptions C40_producers_first_partial.
Example C40_case : exists h st, ghistory Quiet no_blobs u80 files1
  ((grun oC (act "A" true "/p/b.txt" 1 ++ act "B" true "/p/c.txt" 1) ++ [GEdit "/p/a.txt" (Some 2%N)] ++
    GStart oC :: GSetup :: act "A" true "/p/b.txt" 2 ++ act "B" true "/p/c.txt" 2) ++ [GFinish WOk]) h st /\ g_ok st = true.
Proof. apply gfollow_case; [apply gbusy_starts|]; vm_compute; reflexivity. Qed.

(** C41: after a successful run, as long as no input changes and the same program is
    run, no callback is invoked and the state file stays, whatever else happens ... *)
Theorem C41_nothing_to_do : forall rg bd u8 m0 evs h st evs2 st2,
  lawful bd -> ghistory rg bd u8 m0 (evs ++ [GFinish WOk]) h st -> g_ok st = true -> sane_handlers (g_cfg st) ->
  Forall (gundisturbed (g_cfg st)) evs2 -> gexec u8 st evs2 = Some st2 ->
  g_log st2 = g_log st /\ gd_store (g_disk st2) = gd_store (g_disk st) /\ gd_made (g_disk st2) = gd_made (g_disk st).
Proof. exact generator_rests. Qed.
Print Assumptions C41_nothing_to_do.

(** ... and the next run succeeds, in whatever order the ids are looked at. *)
Theorem C41_next_run_succeeds : forall rg bd u8 m0 evs h st ids,
  lawful bd -> ghistory rg bd u8 m0 (evs ++ [GFinish WOk]) h st -> g_ok st = true -> sane_handlers (g_cfg st) ->
  Permutation ids (map fst (go_ids (g_cfg st))) ->
  exists st2, gexec u8 st (gidle_run (g_cfg st) ids) = Some st2 /\ g_ok st2 = true /\ g_pc st2 = GIdle /\
    g_log st2 = g_log st /\ g_disk st2 = g_disk st.
Proof. exact generator_idle_run. Qed.
Print Assumptions C41_next_run_succeeds.

Example C41_case : exists h st, ghistory Quiet no_blobs u80 files1 ((gbusy ++ gbusy_end) ++ [GFinish WOk]) h st /\
  g_ok st && handlerless (g_cfg st) && gobj_eqb (g_cfg st) o1 &&
  match gexec u80 st ([GEdit "/p/b.txt" None] ++ GStart o1 :: GSetup :: GEnter "B" :: GCrash :: gidle_run o1 ["B"; "A"]) with
  | Some st2 => g_ok st2 && Nat.eqb (length (g_log st2)) 6
  | None => false end = true.
Proof. apply gfollow_case; [apply gbusy_starts|]; vm_compute; reflexivity. Qed.
Example C41_case_handlers : sane_handlers (oB (Some hx)).
Proof. intros id g h [K|[]]. injection K as <- <-. intros [= <-]. split; vm_compute; reflexivity. Qed.

(** C42: in a successful run exactly the ids that are not recorded the way they are
    now have their callback invoked, once, with the present arguments ... *)
Theorem C42_exactly_outdated : forall u8 st o evs w st2,
  g_pc st = GIdle -> Forall (subtask o) evs ->
  gexec u8 st (GStart o :: GSetup :: evs ++ [GFinish w]) = Some st2 -> g_ok st2 = true ->
  NoDup (called evs) /\
  (forall id, In id (called evs) <-> exists g, In (id, g) (go_ids o) /\ ~ up_to_date u8 (g_disk st) id g) /\
  exists l, g_log st2 = g_log st ++ l /\ map gc_id l = called evs /\ Forall (given o) l.
Proof. exact ids_exact. Qed.
Print Assumptions C42_exactly_outdated.

(** ... and the state file has exactly the program's ids. *)
Theorem C42_removed_forgotten : forall u8 st o evs st2,
  g_pc st = GIdle -> Forall (subtask o) evs ->
  gexec u8 st (GStart o :: GSetup :: evs ++ [GFinish WOk]) = Some st2 -> g_ok st2 = true ->
  exists s, gstored u8 (g_disk st2) = Some s /\ forall id, In id (map fst (gs_ids s)) <-> In id (map fst (go_ids o)).
Proof. exact ids_forgotten. Qed.
Print Assumptions C42_removed_forgotten.

(** "B" is removed, "D" is new, "A" is up to date. *)
Example C42_case : Forall (subtask o2) (GEnter "A" :: act "D" true "/p/d.txt" 1) /\
  exists st, gexec u80 (ginit files1) (gbusy ++ gbusy_end ++ [GFinish WOk]) = Some st /\
  match g_pc st with GIdle => true | _ => false end &&
  match gexec u80 st (GStart o2 :: GSetup :: (GEnter "A" :: act "D" true "/p/d.txt" 1) ++ [GFinish WOk]) with
  | Some st2 => g_ok st2 | None => false end = true.
Proof.
  split; [|apply gexec_case; vm_compute; reflexivity].
  repeat constructor. intros f t id g [K|[]] J. injection K as <- <-.
  destruct J as [J|[J|[]]]; injection J as <- <-; intros [L|L]; try discriminate; destruct L; discriminate.
Qed.

(** C43: what is recorded as generated was: the last callback of the id succeeded
    with these inputs, times, outputs and blob (at any moment when no callback ran
    since the state file was written). *)
Theorem C43_recorded_means_generated : forall rg bd u8 m0 evs h st s id i,
  lawful bd -> ghistory rg bd u8 m0 evs h st -> gh_taint h = None ->
  gstored u8 (g_disk st) = Some s -> assoc id (gs_ids s) = Some i -> id_recorded bd (g_disk st) id i.
Proof. exact recorded_is_generated. Qed.
Print Assumptions C43_recorded_means_generated.

(** After a failed callback no run succeeds before the callback succeeded again. *)
Theorem C43_failed_runs_again : forall rg bd u8 m0 evs1 id x evs2 w h st,
  lawful bd -> ghistory rg bd u8 m0 (evs1 ++ GCall id false x :: evs2 ++ [GFinish w]) h st -> g_ok st = true ->
  In id (map fst (go_ids (g_cfg st))) -> exists y, In (GCall id true y) evs2.
Proof. exact failed_runs_again. Qed.
Print Assumptions C43_failed_runs_again.

(** An outdated id whose callback failed or was skipped in a run is still outdated
    after it, so that C42 applies to it again. *)
Theorem C43_still_outdated : forall u8 st o evs st2 id g,
  g_pc st = GIdle -> Forall (subtask o) evs -> gexec u8 st (GStart o :: GSetup :: evs ++ [GFinish WOk]) = Some st2 ->
  In (id, g) (go_ids o) -> ~ up_to_date u8 (g_disk st) id g -> (forall x, ~ In (GCall id true x) evs) ->
  ~ up_to_date u8 (g_disk st2) id g.
Proof. exact still_outdated. Qed.
Print Assumptions C43_still_outdated.

(** In [gbusy] "B" fails and "A" is skipped, then both run. *)
Example C43_case : exists h st, ghistory Quiet no_blobs u80 files1
    ((grun o1 (act "A" true "/p/b.txt" 1 ++ act "B" true "/p/c.txt" 1) ++ [GEdit "/p/a.txt" (Some 2%N)] ++ [GStart o1; GSetup; GEnter "B"]) ++
     GCall "B" false [("/p/c.txt", Some 2%N)] :: ([GEnter "A"; GFinish WOk] ++
     GStart o1 :: GSetup :: act "A" true "/p/b.txt" 3 ++ act "B" true "/p/c.txt" 3) ++ [GFinish WOk]) h st /\
  g_ok st && match gh_taint h, gstored u80 (g_disk st) with None, Some s => Nat.eqb (length (gs_ids s)) 2 | _, _ => false end = true.
Proof. apply gfollow_case; [apply gbusy_starts|]; vm_compute; reflexivity. Qed.
Example C43_case_skipped : Forall (subtask o1) (act "B" false "/p/c.txt" 2 ++ [GEnter "A"]) /\
  exists st, gexec u80 (ginit files1) (firstn 8 gbusy) = Some st /\
  match g_pc st with GIdle => true | _ => false end &&
  match gexec u80 st (GStart o1 :: GSetup :: (act "B" false "/p/c.txt" 2 ++ [GEnter "A"]) ++ [GFinish WOk]) with
  | Some st2 => negb (g_ok st2) | None => false end = true.
Proof.
  split; [|apply gexec_case; vm_compute; reflexivity].
  repeat constructor. intros f t id g [K|[]] J. injection K as <- <-.
  destruct J as [J|[J|[]]]; injection J as <- <-; intros L; repeat (destruct L as [L|L]; [discriminate|]); exact L.
Qed.

(** C44: a template's output is not remade when only a pattern value changed. *)
Theorem C44_pattern_value_refuted :
  exists h st a, ghistory Quiet no_blobs u80 files1 gtemplate h st /\ g_ok st = true /\
  g_cfg st = tprog "2" /\ gd_made (g_disk st) tid = Some a /\
  template_text text0 a = Some "version 1" /\
  construct (go_args (g_cfg st)) (text0 "/p/a.txt" 1%N) [] = FOk "version 2".
Proof. exact template_stale. Qed.
Print Assumptions C44_pattern_value_refuted.

(** With the same pattern values in all runs: each template's last written text is
    its present contents with the values substituted. Missing: changed values. *)
Theorem C44_same_values_partial : forall rg bd u8 m0 args text evs w h st root t i out,
  lawful bd -> ghistory rg bd u8 m0 (evs ++ [GFinish w]) h st -> g_ok st = true -> Forall (same_args args) evs ->
  Forall (template_call text) (g_log st) -> tbuild root (tg_base t) (tg_infos t) = AOk (g_cfg st) -> go_args (tg_base t) = args ->
  In (i, out) (tg_infos t) ->
  exists p q id a time s, construct args i [] = FOk p /\ construct args out [] = FOk q /\
    gd_made (g_disk st) id = Some a /\ ga_outputs a = [to_path_string q] /\
    gd_mt (g_disk st) (to_path_string p) = Some time /\
    template_text text a = Some s /\ construct args (text (to_path_string p) time) [] = FOk s.
Proof. exact templates_current. Qed.
Print Assumptions C44_same_values_partial.

Example C44_case : tbuild "/p" (tg_base (tgen_of "1")) (tg_infos (tgen_of "1")) = AOk (tprog "1") /\
  In ("{current_root_dir}/a.txt", "{current_build_dir}/b.txt") (tg_infos (tgen_of "1")) /\
  exists h st, ghistory Quiet no_blobs u80 files1
    ((grun (tprog "1") (act tid true "/p/_b/g/b.txt" 1) ++ [GEdit "/p/a.txt" (Some 2%N)] ++
      GStart (tprog "1") :: GSetup :: act tid true "/p/_b/g/b.txt" 2) ++ [GFinish WOk]) h st /\
    g_ok st && gobj_eqb (g_cfg st) (tprog "1") &&
    forallb (fun c => match template_text text0 (gc_art c) with Some _ => true | None => false end) (g_log st) = true.
Proof.
  split; [exact (proj2 (tprog_ok "1" (or_introl eq_refl)))|]. split; [vm_compute; left; reflexivity|].
  apply gfollow_case; [apply gbusy_starts|]; vm_compute; reflexivity.
Qed.

(** The templates are those of the AddTemplate calls, in order. *)
Theorem C44_templates_in_call_order : forall base calls t, tdo_all (TG base []) calls = AOk t ->
  tg_infos t = flat_map (fun c => match c with TTemplate i o => [(i, o)] | TPattern _ _ => [] end) calls.
Proof. exact (fun base calls t => template_infos calls (TG base []) t). Qed.
Print Assumptions C44_templates_in_call_order.

(** C45: the commands are the expansions of the AddCommand calls, in order ... *)
Theorem C45_commands_in_call_order : forall base calls f,
  fdo_all (fgen_new base) calls = AOk f ->
  fg_commands f = expansions (fgen_new base) calls /\
  length (fg_commands f) = length (filter (fun c => match c with FCommand _ _ => true | _ => false end) calls).
Proof.
  exact (fun base calls f H => conj (commands_in_call_order calls _ _ H)
    (eq_trans (f_equal (@length string) (commands_in_call_order calls _ _ H)) (expansions_count calls _ _ H))).
Qed.
Print Assumptions C45_commands_in_call_order.

(** ... the callback executes them up to the first failing one ... *)
Theorem C45_callback_in_order : forall r cs, encodable cs -> Forall (fun c => c <> "") cs ->
  in_order r cs (fst (file_callback r (to_msgpack cs))) (snd (file_callback r (to_msgpack cs))).
Proof. exact callback_in_order. Qed.
Print Assumptions C45_callback_in_order.
(** ... success is reported only for a blob that can be read, when all of its
    commands were executed and succeeded ... *)
Theorem C45_success_means_all : forall r blob, snd (file_callback r blob) = true ->
  exists cs, deserialize blob = Some cs /\ fst (file_callback r blob) = cs /\ forall k, k < length cs -> r k = true.
Proof. exact callback_success. Qed.
Print Assumptions C45_success_means_all.

(** ... after a successful run the last callback executed exactly the present commands ... *)
Theorem C45_present_commands_executed : forall rg u8 m0 evs w h st f,
  ghistory rg file_blobs u8 m0 (evs ++ [GFinish w]) h st -> g_ok st = true ->
  fbuild f = AOk (g_cfg st) -> encodable (fg_commands f) -> Forall file_call (g_log st) ->
  exists l1 c l2 r, g_log st = l1 ++ c :: l2 /\ Forall (fun c => gc_id c <> "Generate") l2 /\ gc_id c = "Generate" /\
    file_callback r (ga_blob (gc_art c)) = (fg_commands f, true).
Proof. exact file_executed. Qed.
Print Assumptions C45_present_commands_executed.

(** ... and any difference to the commands of the previous successful run makes it run. *)
Theorem C45_changed_commands_run : forall rg u8 m0 evs1 w1 h1 st1 f1 evs2 w2 h2 st2 f2,
  ghistory rg file_blobs u8 m0 (evs1 ++ [GFinish w1]) h1 st1 -> g_ok st1 = true ->
  fbuild f1 = AOk (g_cfg st1) -> encodable (fg_commands f1) ->
  ghistory rg file_blobs u8 m0 ((evs1 ++ [GFinish w1]) ++ evs2 ++ [GFinish w2]) h2 st2 -> g_ok st2 = true ->
  fbuild f2 = AOk (g_cfg st2) -> encodable (fg_commands f2) ->
  fg_commands f1 <> fg_commands f2 -> exists w, In (GCall "Generate" true w) evs2.
Proof. exact file_changed. Qed.
Print Assumptions C45_changed_commands_run.

(** Every program with one file generator is in these histories. *)
Theorem C45_every_program : forall base calls f o,
  go_ids base = [] -> fdo_all (fgen_new base) calls = AOk f -> fbuild f = AOk o -> follows file_blobs o.
Proof. exact fdo_follows. Qed.
Print Assumptions C45_every_program.

(** The one id of the generator object has exactly the inputs and outputs of the
    AddInput and AddOutput calls, expanded with the patterns present at Build. *)
Theorem C45_inputs_and_outputs : forall base calls f o,
  go_ids base = [] -> fdo_all (fgen_new base) calls = AOk f -> fbuild f = AOk o ->
  exists g, go_ids o = [("Generate", g)] /\
    (forall x, In x (gi_in g) <-> exists p, In (FInput p) calls /\ construct (go_args o) p [] = FOk x) /\
    (forall x, In x (gi_out g) <-> exists p, In (FOutput p) calls /\ construct (go_args o) p [] = FOk x).
Proof. exact file_inputs. Qed.
Print Assumptions C45_inputs_and_outputs.

(** Two commands, then the same two in another order. *)
Example C45_case :
  (fdo_all (fgen_new base0) (fcalls cmds1) = AOk (fgen_of cmds1) /\ fbuild (fgen_of cmds1) = AOk (fprog cmds1) /\
   encodable (fg_commands (fgen_of cmds1)) /\ fbuild (fgen_of cmds2) = AOk (fprog cmds2) /\ encodable (fg_commands (fgen_of cmds2)) /\
   fg_commands (fgen_of cmds1) <> fg_commands (fgen_of cmds2)) /\
  (exists h st, ghistory Quiet file_blobs u80 files1 (gfile1 ++ [GFinish WOk]) h st /\
    g_ok st && forallb (fun c => snd (file_callback (fun _ => true) (ga_blob (gc_art c)))) (g_log st) && Nat.eqb (length (g_log st)) 1 = true) /\
  (exists h st, ghistory Quiet file_blobs u80 files1 ((gfile1 ++ [GFinish WOk]) ++ gfile2 ++ [GFinish WOk]) h st /\ g_ok st = true).
Proof.
  destruct (fprog_ok cmds1 (or_introl eq_refl)) as (A1 & A2 & _ & A4). destruct (fprog_ok cmds2 (or_intror eq_refl)) as (_ & B2 & _ & B4).
  split; [repeat (split; try assumption); vm_compute; discriminate|]. split; (apply gfollow_case; [|vm_compute; reflexivity]);
    apply files_start; [left|right]; reflexivity.
Qed.

(** C46: an id that loses its blob handler does not run again ... *)
Theorem C46_removed_refuted : exists st st2, gexec u80 (ginit files1) lost = Some st /\ g_ok st = true /\
  gexec u80 st (grun (oB None) [GEnter "A"]) = Some st2 /\ g_ok st2 = true /\ g_log st2 = g_log st.
Proof. exact lost_unnoticed. Qed.
Print Assumptions C46_removed_refuted.
Theorem C46_removed_never_noticed : forall u8 st o evs w st2 s id g i,
  g_pc st = GIdle -> Forall (subtask o) evs ->
  gexec u8 st (GStart o :: GSetup :: evs ++ [GFinish w]) = Some st2 -> g_ok st2 = true ->
  gstored u8 (g_disk st) = Some s -> assoc id (gs_ids s) = Some i -> In (id, g) (go_ids o) -> gi_handler g = None ->
  recorded_now (gd_mt (g_disk st)) (inputs_of g) (ii_inputs i) -> ii_outputs i = outputs_of g ->
  ~ In id (called evs).
Proof. exact unhandled_not_called. Qed.
Print Assumptions C46_removed_never_noticed.

(** ... and one that gains a handler which does not accept the empty blob fails in
    every later run as long as its inputs stay the same. *)
Theorem C46_added_refuted : forall h : handler, bh_verify h [] = false ->
  exists st, gexec u80 (ginit files1) gained = Some st /\ g_ok st = true /\
  forall evs st2, Forall (gundisturbed (oB (Some h))) evs -> gexec u80 st evs = Some st2 ->
    g_log st2 = g_log st /\ gd_store (g_disk st2) = gd_store (g_disk st) /\
    (forall w st3, gstep u80 st2 (GFinish w) = Some st3 -> g_ok st3 = false).
Proof. exact gained_jams. Qed.
Print Assumptions C46_added_refuted.
Theorem C46_rejected_blob_fails : forall u8 st o evs w st2 s id g i,
  g_pc st = GIdle -> Forall (subtask o) evs ->
  gexec u8 st (GStart o :: GSetup :: evs ++ [GFinish w]) = Some st2 ->
  gstored u8 (g_disk st) = Some s -> assoc id (gs_ids s) = Some i -> In (id, g) (go_ids o) ->
  id_rejected (gd_mt (g_disk st)) i g ->
  g_ok st2 = false /\ ~ In id (called evs).
Proof. exact rejected_run. Qed.
Print Assumptions C46_rejected_blob_fails.

Example C46_case : bh_verify hx [] = false /\
  exists st, gexec u80 (ginit files1) gained = Some st /\
  match g_pc st with GIdle => true | _ => false end &&
  match gstored u80 (g_disk st) with
  | Some s => match assoc "A" (gs_ids s) with Some i => rejectedb (gd_mt (g_disk st)) i (GI ["/p/a.txt"] ["/p/b.txt"] (Some hx)) | None => false end
  | None => false end &&
  match gexec u80 st (GStart (oB (Some hx)) :: GSetup :: [GEnter "A"] ++ [GFinish WOk]) with Some _ => true | None => false end = true.
Proof. split; [vm_compute; reflexivity|]. apply gexec_case. vm_compute. reflexivity. Qed.

(** C57: a deleted output is not generated again while inputs and program stay the same. *)
Theorem C57_deleted_output_refuted : forall rg bd u8 m0 evs h st f evs2 st2,
  lawful bd -> ghistory rg bd u8 m0 (evs ++ [GFinish WOk]) h st -> g_ok st = true -> sane_handlers (g_cfg st) ->
  (forall id g, In (id, g) (go_ids (g_cfg st)) -> ~ In f (inputs_of g)) ->
  Forall (gundisturbed (g_cfg st)) evs2 -> (forall t, ~ In (GEdit f t) evs2) ->
  gexec u8 st (GEdit f None :: evs2) = Some st2 ->
  g_log st2 = g_log st /\ gd_mt (g_disk st2) f = None.
Proof. exact output_deletion_unnoticed. Qed.
Print Assumptions C57_deleted_output_refuted.
Example C57_case : exists h st, ghistory Quiet no_blobs u80 files1 ((gbusy ++ gbusy_end) ++ [GFinish WOk]) h st /\
  g_ok st && handlerless (g_cfg st) && gobj_eqb (g_cfg st) o1 &&
  forallb (fun x => negb (mem_str "/p/b.txt" (inputs_of (snd x)))) (go_ids o1) && mem_str "/p/b.txt" (outputs_of (snd (hd ("", oC_B) (go_ids o1)))) &&
  match gexec u80 st (GEdit "/p/b.txt" None :: gidle_run o1 ["A"; "B"]) with Some st2 => g_ok st2 | None => false end = true.
Proof. apply gfollow_case; [apply gbusy_starts|]; vm_compute; reflexivity. Qed.

(** C58: killed after a callback and before the state file is written, then the
    previous program again: it succeeds, the output is the other program's. *)
Theorem C58_killed_refuted : exists st g, gexec u80 (ginit files1) gkilled_other = Some st /\ g_ok st = true /\
  go_ids (g_cfg st) = [("A", g)] /\ gi_handler g = Some hx /\
  exists a, gd_made (g_disk st) "A" = Some a /\ deserialize (ga_blob a) = Some ["y"].
Proof. exact killed_stale. Qed.
Print Assumptions C58_killed_refuted.
(** It holds if the killed program is run again until the state file is written.
    Missing: another program in between. *)
Theorem C58_killed_partial : forall bd u8 m0 evs w h st,
  lawful bd -> ghistory Forward bd u8 m0 (evs ++ [GFinish w]) h st -> g_ok st = true ->
  forall id g, In (id, g) (go_ids (g_cfg st)) -> id_current bd (gd_mt (g_disk st)) (g_disk st) id g.
Proof. exact (run_current Forward). Qed.
Print Assumptions C58_killed_partial.
Example C58_case : In GCrash gkill /\ exists h st, ghistory Forward no_blobs u80 files1 (gkill ++ [GFinish WOk]) h st /\ g_ok st = true.
Proof. split; [cbn; tauto|]. apply gfollow_case; [apply gbusy_starts|]; vm_compute; reflexivity. Qed.

(** C59: a template cannot be used for two outputs: Build() does not succeed. *)
Theorem C59_template_twice_refuted : forall root l o o',
  tbuild root o l = AOk o' -> NoDup (map fst l).
Proof. exact tbuild_nodup. Qed.
Print Assumptions C59_template_twice_refuted.
Example C59_case :
  tbuild "/p" base0 [("/p/a.in", "/p/a1.out"); ("/p/a.in", "/p/a2.out")] = AFatal /\
  tbuild "/p" base0 [("a.in", "/p/a1.out"); ("b.in", "/p/b.out")] = AFatal /\
  exists o, tbuild "/p" base0 [("/p/a.in", "/p/a1.out"); ("/p/b.in", "/p/b.out")] = AOk o.
Proof. split; [vm_compute; reflexivity|]. split; [vm_compute; reflexivity|]. eexists. vm_compute. reflexivity. Qed.

(** C60: what a callback deserializes is what the handler was given. *)
Theorem C60_blob_round_trip : forall cs, encodable cs ->
  deserialize (to_msgpack cs) = Some cs /\ sane_handler (strings_handler cs) /\ Forall (fun b => (b < 256)%N) (to_msgpack cs).
Proof. exact (fun cs E => conj (deserialize_msgpack cs E) (conj (strings_handler_sane cs E) (to_msgpack_bytes cs))). Qed.
Print Assumptions C60_blob_round_trip.
Example C60_case : deserialize (to_msgpack ["a b"; ""; "{}"]) = Some ["a b"; ""; "{}"] /\
  deserialize [] = None /\ deserialize [145; 192]%N = None /\ deserialize (to_msgpack ["x"] ++ [0%N]) = None.
Proof. repeat split; vm_compute; reflexivity. Qed.
