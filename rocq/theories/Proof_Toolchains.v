(** Proofs about toolchains created by id. *)
From Verif Require Import Prelude Model_Path Model_Util Model_Command Model_ToolchainConfig Model_Find Model_Storage Model_Api
  Model_Toolchains Spec_Toolchains Spec_Find Spec_Shell Spec_Command Proof_Prelude Proof_Command Proof_Find Proof_Shell.

Lemma usual_config_eq (id : toolchain_id) : fst (metadata id) = usual_config id.
Proof. destruct id; reflexivity. Qed.

Definition asked (id : toolchain_id) (name : string) (op_e : option exes) : toolchain :=
  TCH id name (tools id op_e) (usual_config id) (Some (snd (metadata id))) no_flags.

Lemma generic_new_eq s id name op_e op_c :
  (creatable id op_e /\ s_contains (o_storage s) name = false /\
   generic_new s id name op_e op_c =
     (TST (fst (s_add (o_storage s) name (class_name (class_of_id id))))
          (o_toolchains s ++ [(st_next (o_storage s), asked id name op_e)]), Ok (st_next (o_storage s)))) \/
  (~ (creatable id op_e /\ s_contains (o_storage s) name = false) /\ generic_new s id name op_e op_c = (s, Fatal)).
Proof.
  unfold generic_new, add_if. destruct (s_contains (o_storage s) name) eqn:C.
  - right. split; [intros [_ H]; discriminate|]. destruct id, op_e; reflexivity.
  - destruct id; try (left; split; [exact Logic.I|split; [reflexivity|destruct op_e; reflexivity]]).
    + destruct op_e as [e|]; [left|right].
      * split; [discriminate|split; reflexivity].
      * split; [intros [H _]; exact (H eq_refl)|reflexivity].
    + destruct op_e as [e|]; [left|right].
      * split; [discriminate|split; reflexivity].
      * split; [intros [H _]; exact (H eq_refl)|reflexivity].
    + right. split; [intros [[] _]|reflexivity].
Qed.

Lemma created_iff s id name op_e op_c :
  (exists obj, snd (generic_new s id name op_e op_c) = Ok obj) <-> creatable id op_e /\ s_contains (o_storage s) name = false.
Proof.
  destruct (generic_new_eq s id name op_e op_c) as [(A & B & ->)|(N & ->)]; cbn [snd]; split.
  - auto.
  - intros _. eexists. reflexivity.
  - intros [obj H]. discriminate.
  - intros H. destruct (N H).
Qed.

(** Invariant of the store. *)
Definition keys (s : tstore) : list nat := map fst (o_toolchains s).
Definition store_ok (s : tstore) : Prop := NoDup (keys s) /\ forall k, In k (keys s) -> k < st_next (o_storage s).

Lemma store_ok_step s o s' : store_ok s -> store_step s o = Some s' -> store_ok s'.
Proof.
  intros [N L] H. destruct o as [id name op_e op_c|name ty|]; cbn [store_step] in H.
  - destruct (generic_new_eq s id name op_e op_c) as [(A & B & E)|(A & E)]; rewrite E in H; [|discriminate].
    injection H as <-. unfold store_ok, keys. cbn [o_toolchains o_storage s_add fst st_next]. rewrite map_app. cbn [map fst].
    fold (keys s). split.
    + apply NoDup_Add with (a := st_next (o_storage s)) (l := keys s).
      * rewrite <- (app_nil_r (keys s)) at 1. apply Add_app.
      * split; [exact N|]. intros I. specialize (L _ I). lia.
    + intros k I. apply in_app_iff in I as [I|[<-|[]]]; [specialize (L _ I)|]; lia.
  - injection H as <-. unfold store_ok, keys. cbn [o_toolchains o_storage s_add fst st_next]. fold (keys s). split; [exact N|].
    intros k I. specialize (L _ I). lia.
  - injection H as <-. split; [exact N|exact L].
Qed.
Lemma store_ok_run : forall l s s', store_ok s -> store_run s l = Some s' -> store_ok s'.
Proof.
  induction l as [|o l IH]; intros s s' O H; cbn [store_run] in H; [injection H as <-; exact O|].
  destruct (store_step s o) as [s1|] eqn:E; [|discriminate]. exact (IH _ _ (store_ok_step _ _ _ O E) H).
Qed.
Lemma store_ok_empty : store_ok store_empty.
Proof. split; [constructor|intros k []]. Qed.

Lemma store_run_app l1 l2 s : store_run s (l1 ++ l2) = match store_run s l1 with Some s1 => store_run s1 l2 | None => None end.
Proof.
  revert s. induction l1 as [|o l1 IH]; intros s; [reflexivity|]. cbn [app store_run]. destruct (store_step s o); [apply IH|reflexivity].
Qed.

(** What is found stays found, and toolchains stay. *)
Lemma kept_step s o s' name p t : is_clear o = false -> store_step s o = Some s' ->
  find_ptr (o_storage s) name = Some p -> In t (o_toolchains s) ->
  find_ptr (o_storage s') name = Some p /\ In t (o_toolchains s').
Proof.
  intros C H F I. destruct o as [id n op_e op_c|n ty|]; cbn [store_step] in H; [| |discriminate].
  - destruct (generic_new_eq s id n op_e op_c) as [(A & B & E)|(A & E)]; rewrite E in H; [|discriminate].
    injection H as <-. cbn [o_storage o_toolchains]. split; [|apply in_app_iff; left; exact I].
    unfold find_ptr in *. cbn [s_add fst st_ptrs]. unfold s_contains, find_ptr in B. unfold find_ptr.
    destruct (assoc n (st_ptrs (o_storage s))); [discriminate|]. rewrite assoc_app, F. reflexivity.
  - injection H as <-. cbn [o_storage o_toolchains]. split; [|exact I]. unfold find_ptr in *. cbn [s_add fst st_ptrs].
    unfold find_ptr. destruct (assoc n (st_ptrs (o_storage s))); [exact F|]. rewrite assoc_app, F. reflexivity.
Qed.
Lemma kept_run name p t : forall l s s', existsb is_clear l = false -> store_run s l = Some s' ->
  find_ptr (o_storage s) name = Some p -> In t (o_toolchains s) ->
  find_ptr (o_storage s') name = Some p /\ In t (o_toolchains s').
Proof.
  induction l as [|o l IH]; intros s s' C H F I; cbn [store_run existsb] in *; [injection H as <-; auto|].
  apply orb_false_iff in C as [C1 C2]. destruct (store_step s o) as [s1|] eqn:E; [|discriminate].
  destruct (kept_step _ _ _ _ _ _ C1 E F I) as [F1 I1]. exact (IH _ _ C2 H F1 I1).
Qed.

Lemma nodup_keys_object s obj t : store_ok s -> In (obj, t) (o_toolchains s) -> object s obj t.
Proof.
  intros [N _] I. split; [exact I|]. intros t' I'. unfold keys in N. revert N I I'. induction (o_toolchains s) as [|[k x] l IH]; [intros _ []|].
  cbn [map fst]. intros N [E|I] [E'|I'].
  - congruence.
  - injection E as -> ->. inversion N as [|? ? N1 N2]; subst. destruct N1. apply in_map_iff. exists (obj, t'). auto.
  - injection E' as -> ->. inversion N as [|? ? N1 N2]; subst. destruct N1. apply in_map_iff. exists (obj, t). auto.
  - inversion N as [|? ? N1 N2]; subst. exact (IH N2 I I').
Qed.

Theorem created_as_asked before id name op_e op_c after s :
  store_run store_empty (before ++ ONew id name op_e op_c :: after) = Some s -> existsb is_clear after = false ->
  exists obj t, s_ref (o_storage s) name (class_name (class_of_id id)) = Ok obj /\ object s obj t /\
    k_id t = id /\ k_name t = name /\ k_exes t = tools id op_e /\ k_config t = usual_config id.
Proof.
  intros H C. rewrite store_run_app in H. destruct (store_run store_empty before) as [s0|] eqn:E0; [|discriminate].
  pose proof (store_ok_run _ _ _ store_ok_empty E0) as O0. cbn [store_run] in H.
  destruct (store_step s0 (ONew id name op_e op_c)) as [s1|] eqn:E1; [|discriminate].
  pose proof (store_ok_step _ _ _ O0 E1) as O1. pose proof (store_ok_run _ _ _ O1 H) as O2. cbn [store_step] in E1.
  destruct (generic_new_eq s0 id name op_e op_c) as [(A & B & E)|(A & E)]; rewrite E in E1; [|discriminate]. injection E1 as E1.
  exists (st_next (o_storage s0)), (asked id name op_e).
  destruct (kept_run name (st_next (o_storage s0), class_name (class_of_id id)) (st_next (o_storage s0), asked id name op_e)
              after s1 s C H) as [F I].
  - subst s1. unfold find_ptr. cbn [o_storage s_add fst st_ptrs]. unfold s_contains, find_ptr in B. unfold find_ptr.
    destruct (assoc name (st_ptrs (o_storage s0))) eqn:N; [discriminate|]. rewrite assoc_app, N. cbn [assoc]. now rewrite String.eqb_refl.
  - subst s1. cbn [o_toolchains]. apply in_app_iff. right. left. reflexivity.
  - split; [|split; [exact (nodup_keys_object _ _ _ O2 I)|repeat split]].
    unfold s_ref. rewrite F, String.eqb_refl. reflexivity.
Qed.

(** A reference to a stored toolchain under another class is refused. *)
Theorem created_other_class before id name op_e op_c after s c :
  store_run store_empty (before ++ ONew id name op_e op_c :: after) = Some s -> existsb is_clear after = false ->
  c <> class_name (class_of_id id) -> s_ref (o_storage s) name c = Fatal.
Proof.
  intros H C N. destruct (created_as_asked _ _ _ _ _ _ _ H C) as (obj & t & R & _). unfold s_ref in *.
  destruct (find_ptr (o_storage s) name) as [[o ty]|]; [|reflexivity].
  destruct (String.eqb (class_name (class_of_id id)) ty) eqn:E; [|discriminate]. apply String.eqb_eq in E. subst ty.
  destruct (String.eqb c (class_name (class_of_id id))) eqn:E2; [|reflexivity]. apply String.eqb_eq in E2. congruence.
Qed.

Theorem name_taken before id name op_e op_c after id2 op_e2 op_c2 : existsb is_clear after = false ->
  store_run store_empty (before ++ ONew id name op_e op_c :: after ++ [ONew id2 name op_e2 op_c2]) = None.
Proof.
  intros C. replace (before ++ ONew id name op_e op_c :: after ++ [ONew id2 name op_e2 op_c2])
    with ((before ++ ONew id name op_e op_c :: after) ++ [ONew id2 name op_e2 op_c2]) by now rewrite <- app_assoc.
  rewrite store_run_app. destruct (store_run store_empty (before ++ ONew id name op_e op_c :: after)) as [s|] eqn:E; [|reflexivity].
  destruct (created_as_asked _ _ _ _ _ _ _ E C) as (obj & t & R & _). cbn [store_run store_step].
  destruct (generic_new_eq s id2 name op_e2 op_c2) as [(_ & B & _)|(_ & ->)]; [|reflexivity].
  unfold s_ref in R. unfold s_contains in B. destruct (find_ptr (o_storage s) name) as [[]|]; discriminate.
Qed.

(** ** Information about the compiler *)

Lemma dump_version cpp : dump_command cpp "-dumpversion" = FOk (cpp +++ " -dumpversion").
Proof. reflexivity. Qed.
Lemma dump_machine cpp : dump_command cpp "-dumpmachine" = FOk (cpp +++ " -dumpmachine").
Proof. reflexivity. Qed.

Theorem gcc_info_iff h e i : gcc_info h e = Some i <->
  exists v vr a ar, h_run h (x_cpp e +++ " -dumpversion") = Some (v :: vr) /\ h_run h (x_cpp e +++ " -dumpmachine") = Some (a :: ar) /\
    i = INFO "" v a.
Proof.
  unfold gcc_info, gcc_query. rewrite dump_version, dump_machine. split.
  - destruct (h_run h (x_cpp e +++ " -dumpversion")) as [[|v vr]|]; try discriminate.
    destruct (h_run h (x_cpp e +++ " -dumpmachine")) as [[|a ar]|]; try discriminate.
    intros E. injection E as <-. exists v, vr, a, ar. auto.
  - intros (v & vr & a & ar & -> & -> & ->). reflexivity.
Qed.

(** Only the two commands matter, and they are the compiler with one argument. *)
Lemma query_words cpp flag : plain_word cpp -> plain_word flag -> shell_words (cpp +++ " " +++ flag) = Some [cpp; flag].
Proof. intros A B. exact (words_app _ _ _ _ (plain_one _ A) (plain_one _ B)). Qed.
Lemma flags_plain : plain_word "-dumpversion" /\ plain_word "-dumpmachine".
Proof. repeat split; discriminate. Qed.

Lemma answered h e i : plain_word (x_cpp e) -> gcc_info h e = Some i ->
  exists c1 c2 v vr a ar,
    shell_words c1 = Some [x_cpp e; "-dumpversion"] /\ shell_words c2 = Some [x_cpp e; "-dumpmachine"] /\
    h_run h c1 = Some (v :: vr) /\ h_run h c2 = Some (a :: ar) /\ i_version i = v /\ i_arch i = a.
Proof.
  intros P H. apply gcc_info_iff in H. destruct H as (v & vr & a & ar & A & B & ->). destruct flags_plain as [F1 F2].
  exists (x_cpp e +++ " -dumpversion"), (x_cpp e +++ " -dumpmachine"), v, vr, a, ar.
  split; [exact (query_words _ _ P F1)|]. split; [exact (query_words _ _ P F2)|]. auto.
Qed.

Lemma asked_eq id name op_e op_c : construct_toolchain id name (tools id op_e) op_c = asked id name op_e.
Proof. unfold construct_toolchain, initialize, asked. cbn [k_id k_name k_exes k_flags]. now rewrite usual_config_eq. Qed.
Lemma gnu_like_info id : gnu_like id -> snd (metadata id) = gcc_info.
Proof. intros [->|[->| ->]]; reflexivity. Qed.

Theorem verify_asks_compiler w h id name op_e op_c c t' i : gnu_like id -> posix w ->
  verify_toolchain w h (construct_toolchain id name (tools id op_e) op_c) c = (t', Ok i) ->
  exists dirs l, dirs_to_search w c = Some dirs /\ those (complete w (tools id op_e)) (i_path i :: l) dirs /\
    k_exes t' = create_executables (i_path i) (tools id op_e) /\
    (plain_word (x_cpp (k_exes t')) ->
     exists c1 c2 v vr a ar,
       shell_words c1 = Some [x_cpp (k_exes t'); "-dumpversion"] /\ shell_words c2 = Some [x_cpp (k_exes t'); "-dumpmachine"] /\
       h_run h c1 = Some (v :: vr) /\ h_run h c2 = Some (a :: ar) /\ i_version i = v /\ i_arch i = a).
Proof.
  intros G P H. rewrite asked_eq in H. unfold verify_toolchain, asked in H. cbn [k_info k_exes k_id k_name k_config k_flags option_map] in H.
  rewrite (gnu_like_info _ G) in H.
  pose proof (verify_exact w (Some (gcc_info h)) (tools id op_e) c) as V.
  destruct (verify w (Some (gcc_info h)) (tools id op_e) c) as [e' [i'|]]; [|discriminate]. injection H as <- <-.
  destruct V as (p & l & f & i0 & F & E & R & E' & ->). injection E as <-. cbn [k_exes i_path i_version i_arch].
  destruct (find_exact w (tools id op_e) c P) as [F1 F2]. destruct (dirs_to_search w c) as [dirs|]; [|rewrite F1 in F by reflexivity; discriminate].
  exists dirs, l. split; [reflexivity|]. split; [exact (proj1 (F2 dirs eq_refl _) F)|]. split; [exact E'|].
  intros PW. destruct (answered _ _ _ PW R) as (c1 & c2 & v & vr & a & ar & K). exists c1, c2, v, vr, a, ar. exact K.
Qed.

(** A toolchain without executable names is never verified. *)
Lemma not_called f : f <> "" -> ~ called f "".
Proof. intros N [[E _]|[E _]]; [exact (N E)|exact (E eq_refl)]. Qed.
Theorem empty_never_verified w h t c : posix w -> x_cpp (k_exes t) = "" -> snd (verify_toolchain w h t c) = Fatal.
Proof.
  intros P E. unfold verify_toolchain. pose proof (verify_exact w (option_map (fun f => f h) (k_info t)) (k_exes t) c) as V.
  destruct (verify w (option_map (fun f => f h) (k_info t)) (k_exes t) c) as [e' [i|]]; [|reflexivity].
  destruct V as (p & l & f & i0 & F & _). destruct (find_exact w (k_exes t) c P) as [F1 F2].
  destruct (dirs_to_search w c) as [dirs|]; [|rewrite F1 in F by reflexivity; discriminate].
  apply (F2 dirs eq_refl) in F.
  assert (C : complete w (k_exes t) p).
  { clear - F. remember (p :: l) as pl eqn:EQ. revert EQ. induction F as [|x l0 all H T IH|x l0 all H T IH]; intros EQ.
    - discriminate. - injection EQ as -> ->. exact H. - exact (IH EQ). }
  destruct C as (entries & D & K). destruct (K "") as (g & I & CL). { unfold names. rewrite E. cbn. auto. }
  destruct P as [_ P]. destruct (P _ _ _ _ D I) as [N _]. destruct (not_called _ N CL).
Qed.

Theorem whole_output w h id name op_e op_c c t' i : gnu_like id -> posix w ->
  (forall cmd out, h_run h cmd = Some out -> List.length out <= 1) ->
  verify_toolchain w h (construct_toolchain id name (tools id op_e) op_c) c = (t', Ok i) -> plain_word (x_cpp (k_exes t')) ->
  exists c1 c2,
    shell_words c1 = Some [x_cpp (k_exes t'); "-dumpversion"] /\ shell_words c2 = Some [x_cpp (k_exes t'); "-dumpmachine"] /\
    option_map printed (h_run h c1) = Some (i_version i) /\ option_map printed (h_run h c2) = Some (i_arch i).
Proof.
  intros G P L H PW. destruct (verify_asks_compiler _ _ _ _ _ _ _ _ _ G P H) as (dirs & l & _ & _ & _ & K).
  destruct (K PW) as (c1 & c2 & v & vr & a & ar & W1 & W2 & R1 & R2 & -> & ->). exists c1, c2. split; [exact W1|]. split; [exact W2|].
  pose proof (L _ _ R1) as L1. pose proof (L _ _ R2) as L2. rewrite R1, R2.
  destruct vr; [|cbn in L1; lia]. destruct ar; [|cbn in L2; lia]. split; reflexivity.
Qed.

Theorem verify_msvc w h name op_e op_c c t' i : posix w ->
  verify_toolchain w h (construct_toolchain Msvc name (tools Msvc op_e) op_c) c = (t', Ok i) ->
  exists dirs l host target, dirs_to_search w c = Some dirs /\ those (complete w (tools Msvc op_e)) (i_path i :: l) dirs /\
    k_exes t' = create_executables (i_path i) (tools Msvc op_e) /\
    h_env h "VSCMD_VER" = Some (i_version i) /\ h_env h "VSCMD_ARG_HOST_ARCH" = Some host /\
    h_env h "VSCMD_ARG_TGT_ARCH" = Some target /\ i_arch i = host +++ "_" +++ target.
Proof.
  intros P H. rewrite asked_eq in H. unfold verify_toolchain, asked in H. cbn [k_info k_exes k_id k_name k_config k_flags option_map metadata snd] in H.
  pose proof (verify_exact w (Some (msvc_info h)) (tools Msvc op_e) c) as V.
  destruct (verify w (Some (msvc_info h)) (tools Msvc op_e) c) as [e' [i'|]]; [|discriminate]. injection H as <- <-.
  destruct V as (p & l & f & i0 & F & E & R & E' & ->). injection E as <-. cbn [k_exes i_path i_version i_arch].
  destruct (find_exact w (tools Msvc op_e) c P) as [F1 F2]. destruct (dirs_to_search w c) as [dirs|]; [|rewrite F1 in F by reflexivity; discriminate].
  unfold msvc_info in R. destruct (h_env h "VSCMD_VER") as [v|]; [|discriminate]. destruct (h_env h "VSCMD_ARG_HOST_ARCH") as [ho|]; [|discriminate].
  destruct (h_env h "VSCMD_ARG_TGT_ARCH") as [ta|]; [|discriminate]. injection R as <-.
  exists dirs, l, ho, ta. split; [reflexivity|]. split; [exact (proj1 (F2 dirs eq_refl _) F)|]. split; [exact E'|]. auto.
Qed.
