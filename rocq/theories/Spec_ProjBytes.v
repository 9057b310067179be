(** Contents of files in whole programs: Spec_Bytes.v for the programs of
    Model_Project.v. *)
From Verif Require Import Prelude Model_Path Model_Schema Model_Command Model_ToolchainConfig Model_Target Spec_Target
  Model_Reg Spec_Reg Model_Project Spec_Project Spec_Bytes.

(** The files all targets see; by target: PCH, objects, output. *)
Record pbytes := PB { pb_files : contents; pb_pch : string -> option string; pb_obj : string -> contents; pb_tgt : string -> option string }.
Definition of_target (b : pbytes) (id : string) : bytes := BY (pb_files b) (pb_pch b id) (pb_obj b id) (pb_tgt b id).

(** A step of a target writes what [written] says. A link that gives the output
    a new time shows its new contents to all targets. *)
Definition pwritten (t : tools) (p : project) (b : pbytes) (ev : pevent) (n : note) : pbytes :=
  match ev with
  | PEdit f m | PWrite _ f m =>
      PB (upd (pb_files b) f (match m, n with Some _, Contents x => Some x | _, _ => None end)) (pb_pch b) (pb_obj b) (pb_tgt b)
  | PStep i x m =>
      match assoc i (p_targets p) with
      | Some (e, st) =>
          let b' := written t e st (of_target b i) x n in
          PB (match m with Some _ => upd (pb_files b) (out_file e) (b_tgt b') | None => pb_files b end)
             (upd (pb_pch b) i (b_pch b')) (upd (pb_obj b) i (b_obj b')) (upd (pb_tgt b) i (b_tgt b'))
      | None => b
      end
  | _ => b
  end.

(** The notes fit the events; an output with a new time exists. *)
Definition pnoted (t : tools) (p : project) (b : pbytes) (ev : pevent) (n : note) : Prop :=
  match ev with
  | PEdit _ (Some _) | PWrite _ _ (Some _) => exists x, n = Contents x
  | PStep i x m =>
      forall e st, In (i, (e, st)) (p_targets p) -> noted e st x n /\
        match m with Some (Some _) => pb_tgt (pwritten t p b ev n) i <> None | _ => True end
  | _ => n = Nothing
  end.

Inductive bphistory (t : tools) (rg : regime) (l : list (string * (tenv * disk))) (gens : list (string * list string)) (b0 : pbytes)
  : list (pevent * note) -> phist -> project -> pbytes -> Prop :=
| bph_nil : bphistory t rg l gens b0 [] (fun id => match assoc id l with Some (_, d) => hist0 d | None => HS (fun _ => 0%N) None None false end)
    (pinit l gens) b0
| bph_snoc evs h p b ev n p' :
    bphistory t rg l gens b0 evs h p b -> padmissible rg p h ev -> pnoted t p b ev n -> pstep p ev = Some p' ->
    bphistory t rg l gens b0 (evs ++ [(ev, n)]) (ptrack p h ev) p' (pwritten t p b ev n).

(** At first: any files; the build directories are empty or hold junk. *)
Definition pfresh_start (mt0 : times) (l : list (string * (tenv * disk))) (b0 : pbytes) : Prop :=
  (forall f, pb_files b0 f = None <-> mt0 f = None) /\
  forall id e d, In (id, (e, d)) l -> fresh_start d (of_target b0 id).

(** Times tell apart the contents of what users and generators write. (Nothing
    is said about what links write.) *)
Definition ptimes_tell (V : string -> N -> string) (mt0 : times) (b0 : pbytes) (evs : list (pevent * note)) : Prop :=
  (forall f v, mt0 f = Some v -> pb_files b0 f = Some (V f v)) /\
  (forall f v n, In (PEdit f (Some v), n) evs -> n = Contents (V f v)) /\
  (forall i f v n, In (PWrite i f (Some v), n) evs -> n = Contents (V f v)).

(** The targets of a program, with their options. *)
Definition program := list (string * (tenv * cfg)).
(** What a successful run of a program with these targets can leave, whatever
    else the program, the users and the executor did before and meanwhile. *)
Definition pleaves (t : tools) (prog : program) (b : pbytes) : Prop :=
  exists V rg mt0 l gens b0 pre w r run h p x n api,
    fresh_project mt0 l /\ pfresh_start mt0 l b0 /\ ptimes_tell V mt0 b0 (pre ++ (PRun w r, Nothing) :: run) /\
    bphistory t rg l gens b0 (pre ++ (PRun w r, Nothing) :: run) h p b /\ Forall undisturbed_run (map fst run) /\
    registers n api r /\ (forall i, ~ In (i, i) (rg_edges r)) /\ 0 < w /\
    p_run p = Some (w, r, x) /\ x_over w (rg_built r) (rg_edges r) x /\ p_ok p = true /\
    forall id e c, In (id, (e, c)) prog <->
      In (id, c) (p_built p) /\ In id (rg_built r) /\ exists st, In (id, (e, st)) (p_targets p).

(** The tools behave for every target of the program. *)
Definition well_behaved (t : tools) (prog : program) : Prop :=
  forall id e c, In (id, (e, c)) prog -> reads_declared t e c /\ commands_nonempty e c /\ order_free t e c.

(** Both have the same contents of everything the targets read and do not make
    themselves. *)
Definition same_inputs (prog : program) (b1 b2 : pbytes) : Prop :=
  forall id e c f, In (id, (e, c)) prog -> In f (tracked c) ->
    (forall j ej cj, In (j, (ej, cj)) prog -> f <> out_file ej) -> pb_files b1 f = pb_files b2 f.
