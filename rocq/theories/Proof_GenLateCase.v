(** Late calls of generators: concrete processes. *)
From Verif Require Import Prelude Proof_Prelude Model_Path Model_Json Model_Schema Model_Command Model_Target Spec_Target
  Model_Gen Spec_Gen Model_FileGen Spec_FileGen Proof_FileGen Proof_FileGen2 Proof_GenCase Model_GenLate Spec_GenLate Proof_GenLate.

Definition ok_b (r : ares gbuilder) : gbuilder := match r with AOk b => b | _ => builder_new KCustom base0 end.
Definition ok_o (r : ares gobj) : gobj := match r with AOk o => o | _ => base0 end.
Definition is_aok {A} (r : ares A) : bool := match r with AOk _ => true | _ => false end.
Lemma ok_b_ok r : is_aok r = true -> r = AOk (ok_b r). Proof. destruct r; [reflexivity|discriminate|discriminate]. Qed.
Lemma ok_o_ok r : is_aok r = true -> r = AOk (ok_o r). Proof. destruct r; [reflexivity|discriminate|discriminate]. Qed.
Ltac accepted := first [apply ok_o_ok | apply ok_b_ok]; vm_compute; reflexivity.
Lemma kexec_case u8 k evs (P : kstate -> bool) : match kexec u8 k evs with Some x => P x | None => false end = true -> exists x, kexec u8 k evs = Some x /\ P x = true.
Proof. destruct (kexec u8 k evs) as [x|]; [|discriminate]. intros H. exists x. split; [reflexivity|exact H]. Qed.
Definition ks0 : kstate := KS (ginit files1) (builder_new KCustom base0).

(** A custom generator that gets a pattern and an id late. *)
Definition kc_b : gbuilder := ok_b (bdo_all (builder_new KCustom base0) [BPattern "in" "{current_root_dir}/a.txt"; BAddId "A" ["{in}"] ["/p/b.txt"] None]).
Definition kc_calls : list bcall := [BPattern "out" "{current_build_dir}/c.txt"; BAddId "B" ["{in}"; "/p/x.txt"] ["{out}"] None].
Definition kc_b1 : gbuilder := ok_b (bdo_all kc_b kc_calls).
Definition kc_o1 : gobj := ok_o (bbuild kc_b1).
Definition kc_run : list gevent := GSetup :: act "B" true "/p/_b/g/c.txt" 2 ++ act "A" true "/p/b.txt" 2.
Lemma kc_ok : gb_kind kc_b = KCustom /\ bdo_all kc_b kc_calls = AOk kc_b1 /\ bbuild kc_b1 = AOk kc_o1.
Proof. split; [vm_compute; reflexivity|]. split; accepted. Qed.
Lemma kc_history : exists h st, ghistory Quiet no_blobs u80 files1 ([] ++ GStart kc_o1 :: kc_run ++ [GFinish WOk]) h st /\ g_ok st = true.
Proof.
  apply (gfollow_case Quiet no_blobs u80 files1 _ (fun _ st => g_ok st)); [|vm_compute; reflexivity].
  intros o I. apply gstarted_In in I. assert (G : gstarted ([] ++ GStart kc_o1 :: kc_run ++ [GFinish WOk]) = [kc_o1]) by reflexivity. rewrite G in I.
  destruct I as [<-|[]]. apply handlerless_follows. vm_compute. reflexivity.
Qed.

(** A file generator that gets a command late, a template generator that gets a
    template late. *)
Definition kf_b : gbuilder := GB KFile (fgen_of cmds1) [].
Definition kf_calls : list bcall := [BCommand "{tool} three" []; BInput "/p/x.txt"].
Definition kf_b1 : gbuilder := ok_b (bdo_all kf_b kf_calls).
Definition kf_run : list gevent := GSetup :: act "Generate" true "/p/_b/g/b.txt" 1.
Definition kt_b : gbuilder := GB (KTemplate "/p") (fgen_new (tg_base (tgen_of "1"))) (tg_infos (tgen_of "1")).
Definition kt_b0 : gbuilder := GB (KTemplate "/p") (fgen_new base0) (tg_infos (tgen_of "1")).
Definition kt_calls : list bcall := [BTemplate "/p/x.txt" "/p/y.txt"].
Definition kt_b1 : gbuilder := ok_b (bdo_all kt_b kt_calls).
Definition kt_run : list gevent := GSetup :: act "a.txt" true "/p/_b/g/b.txt" 2.
Definition the_id (id : string) (o : gobj) : gid := match assoc id (go_ids o) with Some g => g | None => GI [] [] None end.
Definition has_id (id : string) (o : gobj) : bool := match assoc id (go_ids o) with Some _ => true | None => false end.
Lemma the_id_In id o : has_id id o = true -> In (id, the_id id o) (go_ids o).
Proof.
  unfold has_id, the_id. induction (go_ids o) as [|[k g] l IH]; cbn [assoc]; [discriminate|].
  destruct (String.eqb_spec id k) as [->|_]; [intros _; left; reflexivity|intros H; right; exact (IH H)].
Qed.

Definition opt_strs_eqb (a b : option (list string)) : bool :=
  match a, b with Some x, Some y => str_list_eqb x y | None, None => true | _, _ => false end.
Lemma opt_strs_eqb_refl a : opt_strs_eqb a a = true.
Proof. destruct a as [l|]; [|reflexivity]. induction l as [|x l IH]; [reflexivity|]. cbn in *. rewrite String.eqb_refl. exact IH. Qed.
Lemma kf_case : exists k, kexec u80 ks0 (late_process kf_b kf_calls (kf_run ++ [GFinish WOk])) = Some k /\ g_ok (k_st k) = true /\
  ~ id_current file_blobs (gd_mt (g_disk (k_st k))) (g_disk (k_st k)) "Generate" (the_id "Generate" (ok_o (bbuild kf_b1))).
Proof.
  destruct (kexec_case u80 ks0 (late_process kf_b kf_calls (kf_run ++ [GFinish WOk]))
    (fun k => g_ok (k_st k) && match gd_made (g_disk (k_st k)) "Generate" with
       | Some a => negb (opt_strs_eqb (Some (ga_inputs a)) (Some (inputs_of (the_id "Generate" (ok_o (bbuild kf_b1)))))) | None => false end)) as (k & E & P).
  { vm_compute. reflexivity. }
  exists k. split; [exact E|]. apply andb_true_iff in P as [A B]. split; [exact A|]. intros (a & M & I & _). rewrite M, I, opt_strs_eqb_refl in B. discriminate B.
Qed.
Definition only_command : list bcall := [BCommand "{tool} three" []].
Definition kf_b2 : gbuilder := ok_b (bdo_all kf_b only_command).
Definition handled (g : gid) : bool := match gi_handler g with Some _ => true | None => false end.
Lemma file_blob_current g b : handled g = true -> blob_current file_blobs "Generate" g b -> deserialize b = deserialize (blob_of g).
Proof. unfold handled, blob_current, blob_of. destruct (gi_handler g) as [h|]; [|discriminate]. intros _ C. exact C. Qed.
Lemma kf_handled : handled (the_id "Generate" (ok_o (bbuild kf_b2))) = true.
Proof. vm_compute. reflexivity. Qed.
Lemma kf_command_case : exists k, kexec u80 ks0 (late_process kf_b only_command (kf_run ++ [GFinish WOk])) = Some k /\ g_ok (k_st k) = true /\
  ~ id_current file_blobs (gd_mt (g_disk (k_st k))) (g_disk (k_st k)) "Generate" (the_id "Generate" (ok_o (bbuild kf_b2))).
Proof.
  destruct (kexec_case u80 ks0 (late_process kf_b only_command (kf_run ++ [GFinish WOk]))
    (fun k => g_ok (k_st k) && match gd_made (g_disk (k_st k)) "Generate" with
       | Some a => negb (opt_strs_eqb (deserialize (ga_blob a)) (deserialize (blob_of (the_id "Generate" (ok_o (bbuild kf_b2)))))) | None => false end)) as (k & E & P).
  { vm_compute. reflexivity. }
  exists k. split; [exact E|]. apply andb_true_iff in P as [A B]. split; [exact A|]. intros (a & M & _ & _ & C & _). rewrite M in B.
  assert (D := file_blob_current _ _ kf_handled C).
  rewrite D, opt_strs_eqb_refl in B. discriminate B.
Qed.
Lemma kt_case : exists k, kexec u80 ks0 (late_process kt_b kt_calls (kt_run ++ [GFinish WOk])) = Some k /\ g_ok (k_st k) = true /\
  ~ id_current no_blobs (gd_mt (g_disk (k_st k))) (g_disk (k_st k)) "x.txt" (the_id "x.txt" (ok_o (bbuild kt_b1))).
Proof.
  destruct (kexec_case u80 ks0 (late_process kt_b kt_calls (kt_run ++ [GFinish WOk]))
    (fun k => g_ok (k_st k) && match gd_made (g_disk (k_st k)) "x.txt" with Some a => false | None => true end)) as (k & E & P).
  { vm_compute. reflexivity. }
  exists k. split; [exact E|]. apply andb_true_iff in P as [A B]. split; [exact A|]. intros (a & M & _). rewrite M in B. discriminate B.
Qed.
Lemma kf_built : bbuild kf_b = AOk (ok_o (bbuild kf_b)). Proof. accepted. Qed.
Lemma kf2_built : bbuild kf_b2 = AOk (ok_o (bbuild kf_b2)). Proof. accepted. Qed.
Lemma kf2_done : bdo_all kf_b only_command = AOk kf_b2. Proof. accepted. Qed.
Lemma kf2_in : In ("Generate", the_id "Generate" (ok_o (bbuild kf_b2))) (go_ids (ok_o (bbuild kf_b2))). Proof. apply the_id_In. vm_compute. reflexivity. Qed.
Lemma kt_built : bbuild kt_b = AOk (ok_o (bbuild kt_b)). Proof. accepted. Qed.
Lemma kt1_built : bbuild kt_b1 = AOk (ok_o (bbuild kt_b1)). Proof. accepted. Qed.
Lemma kt1_done : bdo_all kt_b kt_calls = AOk kt_b1. Proof. accepted. Qed.
Lemma kt1_in : In ("x.txt", the_id "x.txt" (ok_o (bbuild kt_b1))) (go_ids (ok_o (bbuild kt_b1))). Proof. apply the_id_In. vm_compute. reflexivity. Qed.
Lemma kf_starts o : In (GStart o) ((([] ++ GStart (ok_o (bbuild kf_b)) :: kf_run) ++ [GFinish WOk]) ++ (GStart (ok_o (bbuild kf_b2)) :: kf_run) ++ [GFinish WOk]) ->
  follows file_blobs o.
Proof.
  intros I. apply gstarted_In in I. unfold gstarted in I. rewrite !flat_map_app in I.
  assert (Q : o = ok_o (bbuild kf_b) \/ o = ok_o (bbuild kf_b2)).
  { unfold kf_run, act in I. cbn [flat_map app] in I. destruct I as [I|[I|[]]]; [left|right]; symmetry; exact I. }
  destruct Q as [->| ->]; [apply (file_follows (gb_file kf_b))|apply (file_follows (gb_file kf_b2))].
  - exact kf_built.
  - reflexivity.
  - exact kf2_built.
  - vm_compute. reflexivity.
Qed.
