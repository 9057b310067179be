(** Histories in which files are edited while checks and commands read them. *)
From Verif Require Import Prelude Model_Json Model_Schema Model_Command Spec_Command Model_ToolchainConfig Model_Target
  Spec_Target Model_Torn.

(** Events that look at files. *)
Definition looks (ev : event) : bool :=
  match ev with
  | EvPchCheck | EvObjCheck | EvLinkCheck | EvPchExec _ | EvCompile _ _ | EvLinkExec _ => true
  | _ => false
  end.

(** The histories of the regime [Forward]: files may be edited at any moment, each
    edit gives a later time; any crashes and failures.  With a PCH the headers are
    left alone from the start of the PCH's check to the end of the objects' check,
    because they are looked at twice. *)
Definition tadmissible (e : tenv) (h : hist) (st : tstate) (ev : event) : Prop :=
  admissible Forward e h st ev /\
  match ev with
  | EvEdit f _ => ~ (contains_pch (s_cfg st) = true /\ s_pc st = PcPch /\ In f (headers (s_cfg st)))
  | _ => True
  end.

(** [h_edited]: a tracked file was edited since the run began. *)
Definition ttrack (e : tenv) (h : hist) (st : tstate) (ev : event) : hist :=
  let h' := track e h st ev in
  match ev with
  | EvEdit f _ =>
      HS (h_next h') (h_taint h') (h_lang h')
         (h_edited h' || match s_pc st with Idle => false | _ => mem_str f (tracked (s_cfg st)) end)
  | _ => h'
  end.

(** Of every file, a check or a command finds some version that the file had since
    the check before it. *)
Inductive thistory (e : tenv) (d0 : disk) : list (event * times) -> hist -> wstate -> Prop :=
| thistory_nil : thistory e d0 [] (hist0 d0) (WS (init d0) (fun f => [d_mt d0 f]))
| thistory_snoc evs h w ev saw w' :
    thistory e d0 evs h w -> tadmissible e h (w_st w) ev ->
    (looks ev = true -> forall f, In (saw f) (w_seen w f)) ->
    wstep e w ev saw = Some w' ->
    thistory e d0 (evs ++ [(ev, saw)]) (ttrack e h (w_st w) ev) w'.
