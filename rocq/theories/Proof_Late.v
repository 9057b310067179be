(** Runs of a process that went on describing the target after Build(). *)
From Verif Require Import Prelude Proof_Prelude Model_Path Model_Json Model_Schema Model_Command Model_ToolchainConfig Model_Target Model_Sync Spec_Sync
  Model_Api Spec_Api Spec_Target Proof_TargetBase Proof_TargetStep Proof_TargetMain Proof_Shell Proof_Api Proof_Database Model_Late Spec_Late.

(** ** The options after the calls *)
Lemma proper_files u x : user_of (cfg_of u) = u -> is_file_option x = true -> forall e, In e (entries x u) -> exists p, e = file_entry p.
Proof.
  intros P Hx e He. rewrite <- P in He.
  assert (Q : forall l, In e (infos_of (infos l)) -> exists p, e = file_entry p).
  { intros l I. rewrite infos_map in I. unfold infos_of in I. rewrite map_map in I. apply in_map_iff in I as (p & <- & _). exists p. reflexivity. }
  destruct x; try discriminate Hx; cbn in He; apply Q in He; exact He.
Qed.
Lemma proper_dirs u x : user_of (cfg_of u) = u -> is_dir_option x = true -> forall e, In e (entries x u) -> exists p, e = dir_entry p.
Proof.
  intros P Hx e He. rewrite <- P in He.
  assert (Q : forall l, In e (strings_of (dirs l)) -> exists p, e = dir_entry p).
  { intros l I. rewrite dirs_eq in I. unfold strings_of in I. rewrite map_map in I. apply in_map_iff in I as (p & <- & _). exists p. reflexivity. }
  destruct x; try discriminate Hx; cbn in He; apply Q in He; exact He.
Qed.
Lemma proper_run a u cs u1 : user_of (cfg_of u) = u -> api_run a u cs = Ok u1 -> user_of (cfg_of u1) = u1.
Proof.
  intros P H. apply run_adds in H as [H Hd]. rewrite <- P in H.
  assert (Hf : forall x, is_file_option x = true -> forall e, In e (entries x u1) -> exists p, e = file_entry p).
  { intros x Hx e He. rewrite Hd in He. apply in_app_or in He as [He|He].
    - exact (proper_files u x P Hx e He).
    - apply in_added in He as (c & _ & He). apply adds_kind in He as [He _]. exact (He Hx). }
  assert (Hg : forall x, is_dir_option x = true -> forall e, In e (entries x u1) -> exists p, e = dir_entry p).
  { intros x Hx e He. rewrite Hd in He. apply in_app_or in He as [He|He].
    - exact (proper_dirs u x P Hx e He).
    - apply in_added in He as (c & _ & He). apply adds_kind in He as [_ He]. exact (He Hx). }
  unfold user_of at 1, cfg_of. cbn [c_sources c_headers c_pchs c_libs c_external_libs c_include_dirs c_lib_dirs
    c_preprocessor c_common c_pch_compile c_pch_object c_asm_flags c_c_flags c_cpp_flags c_link c_compile_deps c_link_deps].
  rewrite (infos_back _ (Hf SourceFiles eq_refl)), (infos_back _ (Hf HeaderFiles eq_refl)),
    (infos_back _ (Hf PchFiles eq_refl)), (infos_back _ (Hf LibDeps eq_refl)),
    (infos_back _ (Hf CompileDependencies eq_refl)), (infos_back _ (Hf LinkDependencies eq_refl)),
    (dirs_back _ (Hg IncludeDirs eq_refl)), (dirs_back _ (Hg LibDirs eq_refl)).
  destruct u1. unfold rest in H. cbn in *. injection H as -> -> -> ->. reflexivity.
Qed.
Lemma infos_of_inj a : forall b, infos_of a = infos_of b -> a = b.
Proof.
  induction a as [|[p h] a IH]; intros [|[q k] b] H; try discriminate H; [reflexivity|].
  cbn in H. injection H as -> -> H. f_equal. exact (IH b H).
Qed.
Lemma strings_of_inj a : forall b, strings_of a = strings_of b -> a = b.
Proof.
  induction a as [|p a IH]; intros [|q b] H; try discriminate H; [reflexivity|].
  cbn in H. injection H as -> H. f_equal. exact (IH b H).
Qed.

(** ** The sources to be compiled are the user's *)
Definition closed (c : cfg) (st : tstate) : Prop :=
  like c (s_user st) /\ forall p s, s_pc st = PcCompile p -> In s (il_paths p) -> In s (sources c).
Lemma take_pending_In s p i r : take_pending s p = Some (i, r) -> In s (il_paths p) /\ incl (il_paths r) (il_paths p).
Proof.
  intros H. apply take_pending_spec in H as [E Q].
  assert (Q2 : Permutation (il_paths p) (s :: il_paths r)) by (rewrite <- E; exact (Permutation_map pi_path Q)).
  split; [apply (Permutation_in _ (Permutation_sym Q2)); left; reflexivity|].
  intros x Hx. apply (Permutation_in _ (Permutation_sym Q2)). right. exact Hx.
Qed.
Lemma closed_step e c st ev st' : (forall c r, ev <> EvStart c r) -> closed c st -> step e st ev = Some st' -> closed c st'.
Proof.
  intros NS [L K] H. destruct ev; cbn [step] in H.
  - injection H as <-. split; [exact L|exact K].
  - injection H as <-. split; [exact L|exact K].
  - destruct (s_pc st); try discriminate H; injection H as <-; (split; [exact L|intros p0 s0 X; discriminate X]).
  - injection H as <-. split; [exact L|exact K].
  - injection H as <-. split; [exact L|exact K].
  - injection H as <-. split; [exact L|exact K].
  - injection H as <-. split; [exact L|exact K].
  - exfalso. exact (NS _ _ eq_refl).
  - destruct (s_pc st); try discriminate H. injection H as <-. unfold pch_check. destruct (negb (s_ok st)); [split; [exact L|intros p0 s0 X; discriminate X]|].
    destruct (pch_pre (d_mt (s_disk st)) (s_user st)) as [u b] eqn:E. destruct (pch_pre_like _ _ _ _ _ L E) as [L' _]. stp.
    destruct b; cbn [negb]; stp; [|split; [exact L'|intros p0 s0 X; discriminate X]].
    match goal with |- context [if ?X then _ else _] => destruct X end; (split; [exact L'|intros p0 s0 X; discriminate X]).
  - destruct (s_pc st); try discriminate H. unfold pch_exec in H. destruct (pch_command e (s_cfg st)) as [cmd| |]; try discriminate H. injection H as <-.
    destruct (run_res cmd r); (split; [exact L|intros p0 s0 X; discriminate X]).
  - destruct (s_pc st); try discriminate H. injection H as <-. unfold obj_check.
    destruct (negb (s_ok st)); [split; [exact L|intros p0 s0 X; injection X as <-; intros []]|].
    destruct (obj_pre (d_mt (s_disk st)) (s_user st)) as [u b] eqn:E. destruct (obj_pre_like _ _ _ _ _ L E) as [L' _]. stp.
    destruct b; cbn [negb]; stp; [|split; [exact L'|intros p0 s0 X; injection X as <-; intros []]].
    pose proof (like_sources _ _ L') as LS.
    match goal with |- context [let '(_, _) := ?X in _] => destruct X as [[sel dum] dy2] eqn:Y end. stp.
    split; [exact L'|]. intros p0 s0 X Hs. stp. injection X as <-. rewrite <- LS. 
    match type of Y with (if ?X then _ else _) = _ => destruct X end; [injection Y as <- _ _; exact Hs|].
    destruct (s_load st) as [ld|]; [|injection Y as <- _ _; destruct Hs].
    apply in_map_iff in Hs as (i & <- & Hi). apply in_map. apply (recompile_cover _ _ _ _ _ Y). apply in_or_app. left. exact Hi.
  - destruct (s_pc st) as [| | | |pend| |] eqn:PC; try discriminate H. unfold compile_one in H.
    destruct (take_pending s pend) as [[i rest]|] eqn:T; [|discriminate H].
    destruct (compile_command e (s_cfg st) s) as [cmd| |]; try discriminate H. injection H as <-. apply take_pending_In in T as [_ T].
    destruct (run_res cmd r); (split; [exact L|stp; intros p s0 X Hs; injection X as <-; exact (K pend s0 eq_refl (T _ Hs))]).
  - destruct (s_pc st) as [| | | |[|]| |]; try discriminate H. injection H as <-. unfold link_check.
    destruct (negb (s_ok st)); [split; [exact L|intros p0 s0 X; discriminate X]|].
    destruct (link_pre (d_mt (s_disk st)) (s_user st)) as [u b] eqn:E. destruct (link_pre_like _ _ _ _ _ L E) as [L' _]. stp.
    destruct b; cbn [negb]; stp; [|split; [exact L'|intros p0 s0 X; discriminate X]].
    split; [exact L'|]. stp. intros p0 s0 X. match type of X with (if ?Y then _ else _) = _ => destruct Y end; discriminate X.
  - destruct (s_pc st); try discriminate H. unfold link_exec in H. destruct (link_command e (s_cfg st) (s_ord st)) as [cmd| |]; try discriminate H. injection H as <-.
    destruct (run_res cmd r); (split; [exact L|intros p0 s0 X; discriminate X]).
  - destruct (s_pc st); try discriminate H. unfold end_task in H. destruct (s_dirty st).
    + destruct (store_text _) as [tx|].
      * destruct w; [injection H as <-|injection H as <-|destruct (short n tx); [|discriminate H]; injection H as <-; destruct reported_ok];
          (split; [exact L|intros p0 s0 X; discriminate X]).
      * destruct w; try discriminate H. injection H as <-. split; [exact L|intros p0 s0 X; discriminate X].
    + destruct w; try discriminate H. injection H as <-. split; [exact L|intros p0 s0 X; discriminate X].
  - destruct (s_pc st); try discriminate H. destruct (s_dirty st); [|discriminate H].
    destruct (bind _ (short n)); [|discriminate H]. injection H as <-. split; [exact L|intros p0 s0 X; discriminate X].
Qed.

(** ** One step *)
Section Course.
Variables (e : tenv) (c0 c1 : cfg) (ord : list string).
Hypothesis S : sources c1 = sources c0.
Hypothesis P : contains_pch c1 = contains_pch c0.
Hypothesis O : ord_ok ord (sources c0) = true.
Hypothesis F0 : commands_fine e c0 ord.
Hypothesis F1 : commands_fine e c1 ord.

Record course (a b : tstate) : Prop := {
  co_same : same_course a b;
  co_c0 : s_cfg a = c0; co_c1 : s_cfg b = c1; co_o0 : s_ord a = ord; co_o1 : s_ord b = ord;
  co_pch : s_pc a = PcPch \/ s_pc a = PcPchExec -> contains_pch c0 = true }.

Lemma fine_pch c : commands_fine e c ord -> contains_pch c = true -> exists cmd, pch_command e c = FOk cmd /\ cmd <> "".
Proof. intros F H. apply F. unfold all_commands. rewrite H. left. reflexivity. Qed.
Lemma fine_link c : commands_fine e c ord -> exists cmd, link_command e c ord = FOk cmd /\ cmd <> "".
Proof. intros F. apply F. unfold all_commands. apply in_or_app. right. apply in_or_app. right. left. reflexivity. Qed.
Lemma fine_obj c s : commands_fine e c ord -> In s (sources c0) -> exists cmd, compile_command e c s = FOk cmd /\ cmd <> "".
Proof.
  intros F H. apply F. unfold all_commands. apply in_or_app. right. apply in_or_app. left. apply in_map.
  unfold ord_ok in O. apply andb_true_iff in O as [_ O2]. rewrite forallb_forall in O2. apply mem_str_In. exact (O2 s H).
Qed.
Lemma run_res_fine {A} cmd (r : xres A) : cmd <> "" -> run_res cmd r = r.
Proof. intros H. unfold run_res. destruct (String.eqb_spec cmd ""); [contradiction|reflexivity]. Qed.

Lemma course_step a b ev a' o o' : (forall c r, ev <> EvStart c r) -> course a b -> lstep e (LS a o) (LEv ev) = Some (LS a' o') ->
  (forall s r, ev = EvCompile s r -> In s (sources c0)) ->
  exists b', step e b ev = Some b' /\ course a' b'.
Proof using S P O F0 F1.
  intros NS [[Hpc Hok Hu Hl Hb Hd Hm Hs Hg] C0 C1 O0 O1 HP] H NC.
  destruct a as [[mt p ob t st pb obb tb] pc c r u l bf dy ok lg], b as [[mt' p' ob' t' st' pb' obb' tb'] pc' c' r' u' l' bf' dy' ok' lg']. stp. subst.
  destruct ev; cbn [lstep l_st l_open step] in H |- *; stp.
  - injection H as <- <-. eexists. split; [reflexivity|]. constructor; stp; try reflexivity; [constructor; stp; try reflexivity; exact Hg|exact HP].
  - injection H as <- <-. eexists. split; [reflexivity|]. constructor; stp; try reflexivity; [constructor; stp; try reflexivity; exact Hg|exact HP].
  - destruct pc'; try discriminate H; injection H as <- <-; (eexists; split; [reflexivity|]; constructor; stp; try reflexivity; [constructor; stp; try reflexivity; exact Hg|intros [K|K]; discriminate K]).
  - injection H as <- <-. eexists. split; [reflexivity|]. constructor; stp; try reflexivity; [constructor; stp; try reflexivity; exact Hg|exact HP].
  - injection H as <- <-. eexists. split; [reflexivity|]. constructor; stp; try reflexivity; [constructor; stp; try reflexivity; exact Hg|exact HP].
  - injection H as <- <-. eexists. split; [reflexivity|]. constructor; stp; try reflexivity; [constructor; stp; try reflexivity; exact Hg|exact HP].
  - injection H as <- <-. eexists. split; [reflexivity|]. constructor; stp; try reflexivity; [constructor; stp; try reflexivity; exact Hg|exact HP].
  - exfalso. exact (NS _ _ eq_refl).
  - destruct pc'; try discriminate H. injection H as <- <-. eexists. split; [reflexivity|]. unfold pch_check. stp.
    destruct ok'; cbn [negb]; stp; [|constructor; stp; try reflexivity; [constructor; stp; try reflexivity; exact Hg|intros [K|K]; discriminate K]].
    destruct (pch_pre mt' u') as [u2 g]. stp. destruct g; cbn [negb]; stp; [|constructor; stp; try reflexivity; [constructor; stp; try reflexivity; exact Hg|intros [K|K]; discriminate K]].
    destruct (dy' || match l' with Some l0 => negb (pch_same l0 u2) | None => true end); stp;
      (constructor; stp; try reflexivity; [constructor; stp; try reflexivity; exact Hg|intros K; first [apply HP; left; reflexivity|destruct K as [K|K]; discriminate K]]).
  - destruct pc'; try discriminate H. unfold pch_exec in *. stp. specialize (HP (or_intror eq_refl)).
    destruct (fine_pch _ F0 HP) as (k0 & E0 & N0). destruct (fine_pch _ F1 (eq_trans P HP)) as (k1 & E1 & N1).
    rewrite E0 in H. rewrite E1. rewrite (run_res_fine _ _ N0) in H. rewrite (run_res_fine _ _ N1).
    injection H as <- <-. eexists. split; [reflexivity|].
    destruct r; stp; (constructor; stp; try reflexivity; [constructor; stp; try reflexivity; rewrite ?map_app, ?Hg; reflexivity|intros [K|K]; discriminate K]).
  - destruct pc'; try discriminate H. injection H as <- <-. eexists. split; [reflexivity|]. unfold obj_check. stp.
    destruct ok'; cbn [negb]; stp; [|constructor; stp; try reflexivity; [constructor; stp; try reflexivity; exact Hg|intros [K|K]; discriminate K]].
    destruct (obj_pre mt' u') as [u2 g]. stp. destruct g; cbn [negb]; stp; [|constructor; stp; try reflexivity; [constructor; stp; try reflexivity; exact Hg|intros [K|K]; discriminate K]].
    match goal with |- context [let '(_, _) := ?X in _] => destruct X as [[sel dum] dy2] end. stp.
    constructor; stp; try reflexivity; [constructor; stp; try reflexivity; exact Hg|intros [K|K]; discriminate K].
  - specialize (NC _ _ eq_refl). rewrite (proj2 (mem_str_In _ _) NC) in H. cbn [step] in H. stp. destruct pc'; try discriminate H.
    unfold compile_one in *. stp. destruct (take_pending s pending) as [[i rest]|]; [|discriminate H].
    destruct (fine_obj c0 s F0 NC) as (k0 & E0 & N0). destruct (fine_obj c1 s F1 NC) as (k1 & E1 & N1).
    rewrite E0 in H. rewrite E1. rewrite (run_res_fine _ _ N0) in H. rewrite (run_res_fine _ _ N1).
    injection H as <- <-. eexists. split; [reflexivity|].
    destruct r; stp; (constructor; stp; try reflexivity; [constructor; stp; try reflexivity; rewrite ?map_app, ?Hg; reflexivity|intros [K|K]; discriminate K]).
  - destruct pc' as [| | | |[|]| |]; try discriminate H. injection H as <- <-. eexists. split; [reflexivity|]. unfold link_check. stp.
    destruct ok'; cbn [negb]; stp; [|constructor; stp; try reflexivity; [constructor; stp; try reflexivity; exact Hg|intros [K|K]; discriminate K]].
    destruct (link_pre mt' u') as [u2 g]. stp. destruct g; cbn [negb]; stp; [|constructor; stp; try reflexivity; [constructor; stp; try reflexivity; exact Hg|intros [K|K]; discriminate K]].
    match goal with |- context [if ?X then PcLinkExec else _] => destruct X end; stp;
    (constructor; stp; try reflexivity; [constructor; stp; try reflexivity; exact Hg|intros [K|K]; discriminate K]).
  - destruct pc'; try discriminate H. unfold link_exec in *. stp.
    destruct (fine_link _ F0) as (k0 & E0 & N0). destruct (fine_link _ F1) as (k1 & E1 & N1).
    rewrite E0 in H. rewrite E1. rewrite (run_res_fine _ _ N0) in H. rewrite (run_res_fine _ _ N1).
    injection H as <- <-. eexists. split; [reflexivity|].
    destruct r; stp; (constructor; stp; try reflexivity; [constructor; stp; try reflexivity; rewrite ?map_app, ?Hg; reflexivity|intros [K|K]; discriminate K]).
  - destruct pc'; try discriminate H. unfold end_task in *. stp. destruct dy'.
    + destruct (store_text (update_store bf' u')) as [tx|].
      * destruct w; stp.
        -- injection H as <- <-. eexists. split; [reflexivity|]. constructor; stp; try reflexivity; [constructor; stp; try reflexivity; exact Hg|intros [K|K]; discriminate K].
        -- injection H as <- <-. eexists. split; [reflexivity|]. constructor; stp; try reflexivity; [constructor; stp; try reflexivity; exact Hg|intros [K|K]; discriminate K].
        -- destruct (short n tx); [|discriminate H]. injection H as <- <-. eexists. split; [reflexivity|].
           destruct reported_ok; stp; (constructor; stp; try reflexivity; [constructor; stp; try reflexivity; exact Hg|intros [K|K]; discriminate K]).
      * destruct w; try discriminate H. injection H as <- <-. eexists. split; [reflexivity|]. constructor; stp; try reflexivity; [constructor; stp; try reflexivity; exact Hg|intros [K|K]; discriminate K].
    + destruct w; try discriminate H. injection H as <- <-. eexists. split; [reflexivity|]. constructor; stp; try reflexivity; [constructor; stp; try reflexivity; exact Hg|intros [K|K]; discriminate K].
  - destruct pc'; try discriminate H. stp. destruct dy'; [|discriminate H].
    destruct (bind (store_text (update_store bf' u')) (short n)); [|discriminate H]. injection H as <- <-. eexists. split; [reflexivity|].
    constructor; stp; try reflexivity; [constructor; stp; try reflexivity; exact Hg|intros [K|K]; discriminate K].
Qed.

Lemma course_run run : one_process run -> forall a b o l', course a b -> closed c1 b -> lexec e (LS a o) (map LEv run) = Some l' ->
  exists b', exec e b run = Some b' /\ course (l_st l') b'.
Proof using S P O F0 F1.
  induction run as [|ev run IH]; intros NS a b o l' C K H; cbn [map lexec] in H.
  - injection H as <-. exists b. split; [reflexivity|exact C].
  - destruct (lstep e (LS a o) (LEv ev)) as [[a1 o1]|] eqn:E; [|discriminate H].
    assert (N1 : forall c r, ev <> EvStart c r) by (intros c r ->; exact (NS c r (or_introl eq_refl))).
    destruct (course_step a b ev a1 o o1 N1 C E) as (b1 & E1 & C1).
    { intros s r ->. destruct (mem_str s (sources c0)) eqn:M; [apply mem_str_In; exact M|]. cbn [lstep l_st] in E. rewrite (co_c0 _ _ C), M in E.
      unfold late_compile in E. destruct (s_pc a) as [| | | |pend| |] eqn:PC; try discriminate E. destruct (take_pending s pend) as [[i rest]|] eqn:T; [|discriminate E].
      apply take_pending_In in T as [T _]. rewrite <- S. destruct K as [_ K]. apply (K pend s); [|exact T]. rewrite <- (sc_pc _ _ (co_same _ _ C)). exact PC. }
    destruct (IH (fun c r I => NS c r (or_intror I)) a1 b1 o1 l' C1 (closed_step e c1 b ev b1 N1 K E1) H) as (b2 & E2 & C2).
    exists b2. split; [|exact C2]. cbn [exec]. rewrite E1. exact E2.
Qed.
End Course.

(** ** The whole process *)
Lemma commands_ok e c ord : commands_fine e c ord -> forallb is_fok (all_commands e c ord) = true /\ existsb is_fother (all_commands e c ord) = false.
Proof.
  intros F. split.
  - apply forallb_forall. intros r H. destruct (F r H) as (k & -> & _). reflexivity.
  - destruct (existsb is_fother (all_commands e c ord)) eqn:X; [|reflexivity]. apply existsb_exists in X as (r & H & Y).
    destruct (F r H) as (k & -> & _). discriminate Y.
Qed.
Lemma start_fine e st c ord st' : commands_fine e c ord -> start e st c ord = Some st' ->
  ord_ok ord (sources c) = true /\
  st' = ST (s_disk st) (if contains_pch c then PcPch else PcObj) c ord (user_of c) (stored (s_disk st)) ts_default false true (s_log st).
Proof.
  intros F H. destruct (commands_ok e c ord F) as [A B]. unfold start in H. rewrite A, B in H.
  destruct (ord_ok ord (sources c)); cbn [negb orb] in H; [|discriminate H]. injection H as <-. split; reflexivity.
Qed.

Section Process.
Variables (e : tenv) (t : tcflags) (ls0 ls : listing) (cs0 cs : list call) (u0 u1 : tschema) (ord : list string).
Let a0 := AE (te_tc e) (te_root e) ls0.
Let a1 := AE (te_tc e) (te_root e) ls.
Hypothesis D0 : api_run a0 (new_target t) cs0 = Ok u0.
Hypothesis D1 : api_run a1 u0 cs = Ok u1.
Hypothesis NO : no_new_outputs a1 u0 cs.
Hypothesis F0 : commands_fine e (cfg_of u0) ord.
Hypothesis F1 : commands_fine e (cfg_of u1) ord.

Lemma proper0 : user_of (cfg_of u0) = u0. Proof using D0. exact (described_cfg _ _ _ _ D0). Qed.
Lemma proper1 : user_of (cfg_of u1) = u1. Proof using D0 D1. exact (proper_run _ _ _ _ proper0 D1). Qed.
Lemma late_sources : ts_sources u1 = ts_sources u0.
Proof using D1 NO. destruct NO as [N _]. pose proof (proj2 (run_adds _ _ _ _ D1) SourceFiles) as E. rewrite N, app_nil_r in E. apply infos_of_inj. exact E. Qed.
Lemma late_pch : contains_pch (cfg_of u1) = contains_pch (cfg_of u0).
Proof using D0 D1 NO.
  unfold contains_pch. rewrite proper1, proper0. destruct NO as [_ N]. pose proof (proj2 (run_adds _ _ _ _ D1) PchFiles) as E. cbn [entries] in E. destruct N as [N|N].
  - rewrite N, app_nil_r in E. rewrite (infos_of_inj _ _ E). reflexivity.
  - destruct (ts_pchs u0) as [|i l]; [contradiction|]. destruct (ts_pchs u1); [discriminate E|reflexivity].
Qed.
Theorem late_same_course st run l : one_process run -> lexec e (LS st false) (late_run e u0 ord ls cs run) = Some l ->
  exists st', exec e st (EvStart (cfg_of u1) ord :: run) = Some st' /\ same_course (l_st l) st' /\ s_cfg st' = cfg_of u1.
Proof using D0 D1 NO F0 F1.
  intros NS H. unfold late_run in H. cbn [lexec lstep l_st step exec] in *.
  destruct (s_pc st) eqn:PC; try discriminate H.
  destruct (start e st (cfg_of u0) ord) as [sa|] eqn:E; [|discriminate H].
  destruct (start_fine _ _ _ _ _ F0 E) as [O ->]. stp. cbn [l_open l_st] in H. stp.
  assert (PO : (match (if contains_pch (cfg_of u0) then PcPch else PcObj) with Idle => false | _ => true end) = true) by (destruct (contains_pch (cfg_of u0)); reflexivity).
  rewrite PO in H. rewrite proper0 in H. unfold a1 in D1. rewrite D1 in H. stp.
  assert (SR : sources (cfg_of u1) = sources (cfg_of u0)) by (unfold sources; rewrite proper1, proper0, late_sources; reflexivity).
  unfold start. destruct (commands_ok e _ _ F1) as [A1 B1]. rewrite SR, O, A1, B1. cbn [negb orb].
  match type of H with lexec e (LS ?X true) _ = _ => set (a := X) in H end.
  match goal with |- context [exec e ?X run] => set (b := X) end.
  assert (C : course (cfg_of u0) (cfg_of u1) ord a b).
  { unfold a, b. constructor; stp; try reflexivity.
    - constructor; stp; try reflexivity; [rewrite late_pch; reflexivity|symmetry; exact proper1].
    - destruct (contains_pch (cfg_of u0)); [reflexivity|]. intros [K|K]; discriminate K. }
  assert (K : closed (cfg_of u1) b).
  { split; [unfold b; stp; apply like_user|]. unfold b. stp. intros p s X. destruct (contains_pch (cfg_of u1)); discriminate X. }
  destruct (course_run e _ _ _ SR late_pch O F0 F1 run NS a b true l C K H) as (b' & X & Y).
  exists b'. split; [exact X|]. split; [exact (co_same _ _ _ _ _ Y)|exact (co_c1 _ _ _ _ _ Y)].
Qed.
End Process.
