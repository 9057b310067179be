(** Calls on a generator after its Build() and before the run.

    Nothing refuses them (custom_generator.cpp:189-233, file_generator.cpp:47-60,
    template_generator.cpp:47-53).  The generate task looks at [user_.ids] and
    [command_] when it runs (custom_generator.cpp:261-317); the inputs, outputs and
    commands of a FileGenerator and the templates of a TemplateGenerator are only
    looked at by Build() (file_generator.cpp:62-69, template_generator.cpp:64-74).
    Files are under lib/target/src/custom_generator and lib/target/src/generator. *)
From Verif Require Import Prelude Model_Path Model_Json Model_Schema Model_Command Model_Target Model_Gen Model_FileGen.

(** The class; [root] is the project root. *)
Inductive gkind := KCustom | KFile | KTemplate (root : string).
(** An object of the class: custom_generator.h:120-130, file_generator.h:74-77,
    template_generator.h:52-58. *)
Record gbuilder := GB { gb_kind : gkind; gb_file : fgen; gb_templates : list (string * string) }.
Definition gb_base (b : gbuilder) : gobj := fg_base (gb_file b).
Definition with_file (b : gbuilder) (f : fgen) : gbuilder := GB (gb_kind b) f (gb_templates b).
Definition with_base (b : gbuilder) (o : gobj) : gbuilder :=
  with_file b (FG o (fg_in (gb_file b)) (fg_out (gb_file b)) (fg_commands (gb_file b))).
Definition builder_new (k : gkind) (o : gobj) : gbuilder := GB k (fgen_new o) [].

Inductive bcall :=
| BPattern (k pattern : string)                                                     (* AddPattern *)
| BAddId (id : string) (inputs outputs : list string) (h : option handler)          (* AddIdInfo *)
| BInput (pattern : string) | BOutput (pattern : string)                            (* AddInput, AddOutput *)
| BCommand (pattern : string) (args : list (string * string))                       (* AddCommand *)
| BTemplate (input output : string).                                                (* AddTemplate *)

Definition on_file (b : gbuilder) (c : fcall) : ares gbuilder :=
  match fdo (gb_file b) c with AOk f => AOk (with_file b f) | AFatal => AFatal | AOther => AOther end.
(** One call; [AOther]: the class does not have it (AddIdInfo is private in the two
    derived classes: file_generator.h:69-72, template_generator.h:46-49). *)
Definition bdo (b : gbuilder) (c : bcall) : ares gbuilder :=
  match c, gb_kind b with
  | BPattern k p, _ => on_file b (FPattern k p)
  | BAddId id i o h, KCustom =>
      match add_id_info (gb_base b) id i o h with AOk x => AOk (with_base b x) | AFatal => AFatal | AOther => AOther end
  | BInput p, KFile => on_file b (FInput p)
  | BOutput p, KFile => on_file b (FOutput p)
  | BCommand p a, KFile => on_file b (FCommand p a)
  | BTemplate i o, KTemplate _ => AOk (GB (gb_kind b) (gb_file b) (gb_templates b ++ [(i, o)]))
  | _, _ => AOther
  end.
Fixpoint bdo_all (b : gbuilder) (l : list bcall) : ares gbuilder :=
  match l with
  | [] => AOk b
  | c :: r => match bdo b c with AOk b' => bdo_all b' r | x => x end
  end.
(** custom_generator.cpp:235-238, file_generator.cpp:62-69, template_generator.cpp:64-74
    [Build]: what the generate task is created with. *)
Definition bbuild (b : gbuilder) : ares gobj :=
  match gb_kind b with
  | KCustom => AOk (gb_base b)
  | KFile => fbuild (gb_file b)
  | KTemplate root => tbuild root (gb_base b) (gb_templates b)
  end.

Record kstate := KS { k_st : gstate; k_obj : gbuilder }.
Inductive kevent :=
| KBuild (b : gbuilder)       (* a new process up to Build() of a configured generator *)
| KCalls (cs : list bcall)    (* calls after Build() *)
| KEv (ev : gevent).          (* anything of Model_Gen but the start of a process *)

Definition gwith_cfg (st : gstate) (o : gobj) : gstate :=
  GST (g_disk st) (g_pc st) o (g_load st) (g_dirty st) (g_tasks st) (g_ok st) (g_log st).
(** A refused call, also one made by Build(), is an uncaught exception: the process
    ends. *)
Definition kstep (u8 : string -> N) (k : kstate) (ev : kevent) : option kstate :=
  let st := k_st k in
  match ev with
  | KBuild b =>
      match g_pc st, bbuild b with
      | GIdle, AOk o => match gstart u8 st o with Some st' => Some (KS st' (with_base b o)) | None => None end
      | GIdle, AFatal => Some (KS (gkilled st) b)
      | _, _ => None
      end
  | KCalls cs =>
      match g_pc st, bdo_all (k_obj k) cs with
      | GBuilt, AOk b => if gobj_ok (gb_base b) then Some (KS (gwith_cfg st (gb_base b)) b) else None
      | GBuilt, AFatal => Some (KS (gkilled st) (k_obj k))
      | _, _ => None
      end
  | KEv (GStart _) => None
  | KEv x => match gstep u8 st x with Some st' => Some (KS st' (k_obj k)) | None => None end
  end.
Fixpoint kexec (u8 : string -> N) (k : kstate) (evs : list kevent) : option kstate :=
  match evs with
  | [] => Some k
  | ev :: r => match kstep u8 k ev with Some k' => kexec u8 k' r | None => None end
  end.
