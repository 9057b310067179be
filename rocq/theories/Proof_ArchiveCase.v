(** The contents of static libraries: concrete histories. *)
From Coq Require Import Permutation Lia.
From Verif Require Import Prelude Proof_Prelude Model_Path Model_Json Model_Schema Model_Command Spec_Command Model_ToolchainConfig
  Model_Target Spec_Target Proof_TargetStep Proof_TargetMain Proof_TargetCase Model_Archive Spec_Archive Proof_Archive.

(** ** Checking a history by computation *)

Definition keeps_sourcesb (st : tstate) (ev : event) : bool :=
  match ev with EvStart c _ => forallb (fun s => mem_str s (sources c)) (sources (s_cfg st)) | _ => true end.
Definition leaves_nothing (lo : option archive) : bool := match lo with None => true | Some _ => false end.
Fixpoint lfollow (rg : regime) (e : tenv) (h : hist) (st : tstate) (lib : option archive) (evs : list (event * option archive))
  : option (hist * tstate * option archive) :=
  match evs with
  | [] => Some (h, st, lib)
  | (ev, lo) :: r =>
      if admissibleb rg e h st ev && keeps_sourcesb st ev && leaves_nothing lo then
        match lstep e st lib ev lo with Some (st', lib') => lfollow rg e (track e h st ev) st' lib' r | None => None end
      else None
  end.
Lemma lfollow_lhistory rg e d0 evs : forall pre h st lib h' st' lib',
  lhistory rg e d0 pre h st lib -> lfollow rg e h st lib evs = Some (h', st', lib') -> lhistory rg e d0 (pre ++ evs) h' st' lib'.
Proof.
  induction evs as [|[ev lo] evs IH]; intros pre h st lib h' st' lib' H F; cbn [lfollow] in F.
  - injection F as <- <- <-. rewrite app_nil_r. exact H.
  - destruct (admissibleb rg e h st ev && keeps_sourcesb st ev && leaves_nothing lo) eqn:C; [|discriminate].
    destruct (lstep e st lib ev lo) as [[s1 l1]|] eqn:S; [|discriminate].
    apply andb_true_iff in C as [C C3]. apply andb_true_iff in C as [C1 C2]. apply admissibleb_sound in C1.
    assert (K : keeps_sources st ev).
    { destruct ev; try exact Logic.I. cbn [keeps_sourcesb keeps_sources] in *. intros s Hs. rewrite forallb_forall in C2. apply mem_str_In. exact (C2 s Hs). }
    assert (O : leaves_own e st ev lo) by (destruct lo; [discriminate|]; destruct ev; exact Logic.I).
    specialize (IH _ _ _ _ _ _ _ (lhistory_snoc rg e d0 pre h st lib ev lo s1 l1 H C1 K O S) F). rewrite <- app_assoc in IH. exact IH.
Qed.
Lemma lfollow_case rg e d0 evs (P : tstate -> option archive -> bool) :
  match lfollow rg e (hist0 d0) (init d0) None evs with Some (_, st, lib) => P st lib | None => false end = true ->
  exists h st lib, lhistory rg e d0 evs h st lib /\ P st lib = true.
Proof.
  intros H. destruct (lfollow rg e (hist0 d0) (init d0) None evs) as [[[h st] lib]|] eqn:F; [|discriminate].
  exists h, st, lib. split; [|exact H]. exact (lfollow_lhistory rg e d0 evs [] _ _ _ h st lib (lhistory_nil rg e d0) F).
Qed.

(** ** A library *)

(** A static library of the gcc toolchain. *)
Definition eA : tenv :=
  TE "/p" "/p/_b/t" "t" ".a" tconfig_default "as" "gcc" "g++" "ar" "ld" (te_pch_command e0) (te_compile_command e0)
     "{archiver} rcs {output} {compiled_sources}".
Lemma eA_templates : templates_ok eA.
Proof. apply templates_okb. vm_compute. reflexivity. Qed.
Lemma eA_static : gcc_static eA.
Proof. reflexivity. Qed.

Definition lib_files : times := fun f => if mem_str f ["/p/a.cpp"; "/p/b.cpp"; "/p/x/a.cpp"; "/p/h.h"; "/p/l.a"; "/p/dep"] then Some 1%N else None.
Definition lib_disk : disk := DK lib_files None (fun _ => None) None None false (fun _ => false) false.
Definition quietly (evs : list event) : list (event * option archive) := map (fun ev => (ev, None)) evs.

(** Two sources of the same file name; then a third source; then an edit. *)
Definition lib2 : cfg := conf ["/p/a.cpp"; "/p/x/a.cpp"] ["-O1"] [].
Definition lib3 : cfg := conf ["/p/a.cpp"; "/p/b.cpp"; "/p/x/a.cpp"] ["-O1"] [].
Definition growing : list event :=
  full_run lib2 ["/p/x/a.cpp"; "/p/a.cpp"] ["/p/a.cpp"; "/p/x/a.cpp"] ++
  [EvStart lib3 ["/p/a.cpp"; "/p/x/a.cpp"; "/p/b.cpp"]; EvObjCheck; EvCompile "/p/b.cpp" XOk; EvLinkCheck; EvLinkExec XOk; EvEnd WOk;
   EvEdit "/p/x/a.cpp" (Some 2%N);
   EvStart lib3 ["/p/b.cpp"; "/p/a.cpp"; "/p/x/a.cpp"]; EvObjCheck; EvCompile "/p/x/a.cpp" XOk; EvLinkCheck; EvLinkExec XOk].
Lemma growing_case rg : exists h st lib, lhistory rg eA lib_disk (quietly growing ++ [(EvEnd WOk, None)]) h st lib /\
  s_ok st && cfg_eqb (s_cfg st) lib3 && match lib with Some m => Nat.eqb (length m) 3 | None => false end = true.
Proof. apply lfollow_case. destruct rg; vm_compute; reflexivity. Qed.

(** A source less. *)
Definition shrinking : list event :=
  full_run cA ordA ["/p/a.cpp"; "/p/b.cpp"] ++
  [EvStart (conf ["/p/a.cpp"] ["-O1"] []) ["/p/a.cpp"]; EvObjCheck; EvLinkCheck; EvLinkExec XOk; EvEnd WOk].
Definition stale_memberb (e : tenv) (c : cfg) (lib : option archive) : bool :=
  match lib with
  | Some m => existsb (fun x => negb (mem_str (fst x) (map (member_name e) (sources c)))) m
  | None => false
  end.
Lemma lexec_exec e evs : forall st lib st' lib', lexec e st lib evs = Some (st', lib') -> exec e st (map fst evs) = Some st'.
Proof.
  induction evs as [|[ev lo] evs IH]; intros st lib st' lib' H; cbn [lexec] in H; [injection H as <- _; reflexivity|].
  destruct (lstep e st lib ev lo) as [[s1 l1]|] eqn:S; [|discriminate]. cbn [map fst exec]. rewrite (lstep_step _ _ _ _ _ _ _ S). exact (IH _ _ _ _ H).
Qed.
Lemma from_history rg e d0 evs h st : history rg e d0 evs h st -> exec e (init d0) evs = Some st.
Proof.
  intros H. induction H as [|evs h st ev st' H IH A S]; [reflexivity|].
  rewrite exec_app, IH. cbn [exec]. rewrite S. reflexivity.
Qed.
Lemma lexec_case e st lib evs (P : tstate -> option archive -> bool) :
  match lexec e st lib evs with Some (st', lib') => P st' lib' | None => false end = true ->
  exists st' lib', lexec e st lib evs = Some (st', lib') /\ P st' lib' = true.
Proof. destruct (lexec e st lib evs) as [[st' lib']|]; [|discriminate]. intros H. exists st', lib'. auto. Qed.
Lemma quietly_fst evs : map fst (quietly evs) = evs.
Proof. unfold quietly. rewrite map_map. apply map_id. Qed.
Lemma member_named (a : string * obj_art) m names arts : In a m -> Permutation m (combine names arts) -> In (fst a) names.
Proof. intros H P. apply (Permutation_in _ P) in H. destruct a as [n o]. exact (in_combine_l _ _ _ _ H). Qed.
Lemma shrinking_stale : exists h st lib x, history Quiet eA lib_disk shrinking h st /\
  lexec eA (init lib_disk) None (quietly shrinking) = Some (st, lib) /\ s_ok st = true /\
  sources (s_cfg st) = ["/p/a.cpp"] /\ lib = Some x /\ In "b.cpp.o" (map fst x) /\ ~ library_exact eA (s_cfg st) (s_disk st) lib.
Proof.
  destruct (follow_case Quiet eA lib_disk shrinking (fun _ st => s_ok st && str_list_eqb (sources (s_cfg st)) ["/p/a.cpp"])) as (h & st & H & P).
  { vm_compute. reflexivity. }
  destruct (lexec_case eA (init lib_disk) None (quietly shrinking) (fun _ lib => match lib with Some m => mem_str "b.cpp.o" (map fst m) | None => false end))
    as (st' & lib & X & L).
  { vm_compute. reflexivity. }
  destruct lib as [m|]; [|discriminate].
  apply andb_true_iff in P as [P1 P2]. apply str_list_eqb_eq in P2. apply mem_str_In in L.
  pose proof (lexec_exec _ _ _ _ _ _ X) as Y. rewrite quietly_fst, (from_history _ _ _ _ _ _ H) in Y. injection Y as <-.
  exists h, st, (Some m), m. split; [exact H|]. split; [exact X|]. split; [exact P1|]. split; [exact P2|]. split; [reflexivity|]. split; [exact L|].
  intros (m' & [= <-] & arts & _ & Pm). apply in_map_iff in L as (x & E & Hx). pose proof (member_named _ _ _ _ Hx Pm) as K. rewrite E, P2 in K.
  vm_compute in K. destruct K as [K|[]]. discriminate.
Qed.
