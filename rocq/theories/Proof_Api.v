(** The API calls of a target. *)
From Verif Require Import Prelude Model_Path Model_Json Model_Schema Model_Command Model_ToolchainConfig Model_Target
  Model_Sync Spec_Sync Model_Api Spec_Api Spec_Path Proof_Prelude Proof_Path Proof_ObjectPath Proof_Schema Proof_TargetBase Proof_Shell.

(** ** Normalisation keeps the file name of a file *)

Lemma ends_slash_filename (s : string) : ends_slash s = true -> filename s = "".
Proof.
  intros H. apply ends_slash_iff in H as (p & ->). unfold filename.
  change (p +++ "/") with (p +++ String ch_slash ""). rewrite pieces_app_sep. simpl. apply last_last.
Qed.

Lemma filename_normal (s : string) :
  filename s <> "" -> is_dot (filename s) = false -> is_dotdot (filename s) = false ->
  filename (to_path_string s) = filename s.
Proof.
  intros Hf Hd Hdd. assert (Hs : s <> "") by (intros ->; apply Hf; reflexivity).
  assert (He : ends_slash s = false).
  { destruct (ends_slash s) eqn:E; [|reflexivity]. exfalso. apply Hf, ends_slash_filename, E. }
  rewrite to_path_string_nonempty by exact Hs.
  pose proof (normal_nf _ (parse_wf s)) as Hnf. pose proof (nf_wf _ Hnf) as Hwf.
  unfold filename at 1. rewrite (pieces_print _ Hwf).
  destruct (exists_last (pieces_nonnil ch_slash s)) as (ps & f & E).
  assert (Hff : filename s = f) by (unfold filename; rewrite E; apply last_last).
  rewrite Hff in *.
  assert (Hc : pp_comps (parse_path s) = filter nonempty_str ps ++ [f]).
  { unfold parse_path. cbn [pp_comps]. rewrite E, filter_app. cbn [filter].
    destruct f; [congruence|reflexivity]. }
  assert (Ht : pp_trail (parse_path s) = false) by (unfold parse_path; cbn [pp_trail]; rewrite He; reflexivity).
  unfold normal. rewrite Hc, Ht, fold_left_app. cbn [fold_left].
  destruct (fold_left (normal_step (pp_abs (parse_path s))) (filter nonempty_str ps) ([], false)) as [stk tr].
  unfold normal_step. rewrite Hd, Hdd. cbn [orb andb pp_abs pp_comps pp_trail].
  rewrite app_nil_r. cbn [rev].
  destruct (rev stk ++ [f]) as [|y l] eqn:El; [destruct (rev stk); discriminate|].
  rewrite <- El. rewrite app_assoc. apply last_last.
Qed.

Lemma extension_normal (p : string) :
  path_extension p <> "" -> path_extension (to_path_string p) = path_extension p.
Proof.
  unfold path_extension. intros H. rewrite filename_normal; [reflexivity| | |].
  - intros E. rewrite E in H. apply H. reflexivity.
  - destruct (is_dot (filename p)) eqn:E; [|reflexivity]. exfalso. apply H. unfold extension_of. rewrite E. reflexivity.
  - destruct (is_dotdot (filename p)) eqn:E; [|reflexivity]. exfalso. apply H. unfold extension_of. rewrite E, orb_true_r. reflexivity.
Qed.

Lemma valid_source_ext (t : tconfig) (p : string) : is_valid_source t p = true -> path_extension p <> "".
Proof. unfold is_valid_source. intros H E. rewrite E in H. discriminate. Qed.
Lemma valid_header_ext (t : tconfig) (p : string) : is_valid_header t p = true -> path_extension p <> "".
Proof. unfold is_valid_header. intros H E. rewrite E in H. discriminate. Qed.
Lemma valid_source_normal (t : tconfig) (p : string) :
  is_valid_source t p = true -> is_valid_source t (to_path_string p) = true /\
    get_file_ext t (to_path_string p) = get_file_ext t p.
Proof.
  intros H. pose proof (extension_normal p (valid_source_ext t p H)) as E.
  unfold is_valid_source, get_file_ext in *. rewrite E. auto.
Qed.
Lemma valid_header_normal (t : tconfig) (p : string) :
  is_valid_header t p = true -> is_valid_header t (to_path_string p) = true.
Proof.
  intros H. pose proof (extension_normal p (valid_header_ext t p H)) as E.
  unfold is_valid_header in *. rewrite E. auto.
Qed.
Lemma valid_source_compiled (t : tconfig) (p : string) :
  is_valid_source t p = true -> get_file_ext t p = ExtAsm \/ get_file_ext t p = ExtC \/ get_file_ext t p = ExtCpp.
Proof.
  unfold is_valid_source, get_file_ext. intros H. destruct (String.eqb (path_extension p) ""); [discriminate|].
  destruct (mem_str (path_extension p) (tc_c t)); [auto|].
  destruct (mem_str (path_extension p) (tc_cpp t)); [auto|].
  destruct (mem_str (path_extension p) (tc_asm t)); [auto|]. discriminate.
Qed.

(** ** One call *)

Definition blank (p : string) : pathinfo := PI (to_path_string p) "".

Lemma glob_sources_eq (a : apienv) (dir : string) : forall names u,
  glob_loop (is_valid_source (ae_tc a)) (add_source_absolute a) dir names u =
  Ok (put_sources u (ts_sources u ++ map blank (filter (is_valid_source (ae_tc a)) (map (path_div dir) names)))).
Proof.
  induction names as [|n r IH]; intros u; cbn [glob_loop map filter].
  - rewrite app_nil_r. destruct u; reflexivity.
  - destruct (is_valid_source (ae_tc a) (path_div dir n)) eqn:E.
    + unfold add_source_absolute at 1, expects_valid_source. rewrite E, IH. cbn [put_sources ts_sources map].
      unfold il_emplace. rewrite <- app_assoc. reflexivity.
    + apply IH.
Qed.
Lemma glob_headers_eq (a : apienv) (dir : string) : forall names u,
  glob_loop (is_valid_header (ae_tc a)) (add_header_absolute a) dir names u =
  Ok (put_headers u (ts_headers u ++ map blank (filter (is_valid_header (ae_tc a)) (map (path_div dir) names)))).
Proof.
  induction names as [|n r IH]; intros u; cbn [glob_loop map filter].
  - rewrite app_nil_r. destruct u; reflexivity.
  - destruct (is_valid_header (ae_tc a) (path_div dir n)) eqn:E.
    + unfold add_header_absolute at 1, expects_valid_header. rewrite E, IH. cbn [put_headers ts_headers map].
      unfold il_emplace. rewrite <- app_assoc. reflexivity.
    + apply IH.
Qed.

Lemma filter_same (x y : sync_option) (l : list (string * option string)) :
  map snd (filter (fun e => if option_eq_dec (fst e) x then true else false) (map (fun e => (y, e)) l)) =
  if option_eq_dec y x then l else [].
Proof.
  induction l as [|e l IH]; [destruct (option_eq_dec y x); reflexivity|].
  cbn [map filter fst]. destruct (option_eq_dec y x) as [->|H].
  - cbn [map snd]. rewrite IH. reflexivity.
  - exact IH.
Qed.
Lemma infos_of_blank (l : list string) : infos_of (map blank l) = map file_entry l.
Proof. unfold infos_of. rewrite map_map. reflexivity. Qed.
Lemma infos_of_app (a b : infolist) : infos_of (a ++ b) = infos_of a ++ infos_of b.
Proof. apply map_app. Qed.
Lemma strings_of_app (a b : list string) : strings_of (a ++ b) = strings_of a ++ strings_of b.
Proof. apply map_app. Qed.

Lemma added_cons (a : apienv) (x : sync_option) (c : call) (r : list call) :
  added a x (c :: r) = added a x [c] ++ added a x r.
Proof.
  unfold added. cbn [flat_map]. rewrite app_nil_r, filter_app, map_app. reflexivity.
Qed.

Ltac one_entry :=
  match goal with |- entries ?x _ = _ => destruct x end;
  cbn; rewrite ?app_nil_r; try reflexivity;
  unfold il_emplace, pl_emplace; rewrite ?infos_of_app, ?strings_of_app; reflexivity.

Lemma step_add (a : apienv) (u u' : tschema) (c : call) :
  api_step a u c = Ok u' -> rest u' = rest u /\ forall x, entries x u' = entries x u ++ added a x [c].
Proof.
  assert (Hs : forall v p v', add_source_absolute a v p = Ok v' -> v' = put_sources v (il_emplace (ts_sources v) p "")).
  { intros v p v'. unfold add_source_absolute. destruct (expects_valid_source _ _); [intros [= <-]; reflexivity|discriminate]. }
  assert (Hh : forall v p v', add_header_absolute a v p = Ok v' -> v' = put_headers v (il_emplace (ts_headers v) p "")).
  { intros v p v'. unfold add_header_absolute. destruct (expects_valid_header _ _); [intros [= <-]; reflexivity|discriminate]. }
  assert (Hp : forall v p v', add_pch_absolute a v p = Ok v' -> v' = put_pchs v (il_emplace (ts_pchs v) p "")).
  { intros v p v'. unfold add_pch_absolute. destruct (expects_valid_header _ _); [intros [= <-]; reflexivity|discriminate]. }
  assert (Hgs : forall dir v v', match ae_ls a dir with None => Fatal
      | Some names => glob_loop (is_valid_source (ae_tc a)) (add_source_absolute a) dir names v end = Ok v' ->
      v' = put_sources v (ts_sources v ++ map blank (sources_in a dir))).
  { intros dir v v'. unfold sources_in, names_in. destruct (ae_ls a dir); [|discriminate].
    rewrite glob_sources_eq. intros [= <-]. reflexivity. }
  assert (Hgh : forall dir v v', glob_headers_absolute a v dir = Ok v' ->
      v' = put_headers v (ts_headers v ++ map blank (headers_in a dir))).
  { intros dir v v'. unfold glob_headers_absolute, headers_in, names_in. destruct (ae_ls a dir); [|discriminate].
    rewrite glob_headers_eq. intros [= <-]. reflexivity. }
  assert (Hi : forall dir (g : bool) v v', add_include_dir_absolute a v dir g = Ok v' ->
      v' = put_headers (put_include_dirs v (pl_emplace (ts_include_dirs v) dir))
             (ts_headers v ++ if g then map blank (headers_in a dir) else [])).
  { intros dir g v v'. unfold add_include_dir_absolute. destruct g.
    - intros H. apply Hgh in H. exact H.
    - intros [= <-]. rewrite app_nil_r. destruct v; reflexivity. }
  assert (Gs : forall dir v x, entries x (put_sources v (ts_sources v ++ map blank (sources_in a dir))) =
     entries x v ++ (if option_eq_dec SourceFiles x then map file_entry (sources_in a dir) else [])).
  { intros dir v x. destruct x; cbn [entries option_eq_dec option_rect]; cbn; rewrite ?app_nil_r; try reflexivity.
    rewrite infos_of_app, infos_of_blank. reflexivity. }
  assert (Gh : forall dir v x, entries x (put_headers v (ts_headers v ++ map blank (headers_in a dir))) =
     entries x v ++ (if option_eq_dec HeaderFiles x then map file_entry (headers_in a dir) else [])).
  { intros dir v x. destruct x; cbn; rewrite ?app_nil_r; try reflexivity.
    rewrite infos_of_app, infos_of_blank. reflexivity. }
  assert (Gi : forall dir (g : bool) v x, entries x (put_headers (put_include_dirs v (pl_emplace (ts_include_dirs v) dir))
             (ts_headers v ++ if g then map blank (headers_in a dir) else [])) =
     entries x v ++ (if option_eq_dec IncludeDirs x then [dir_entry dir] else []) ++
       (if option_eq_dec HeaderFiles x then (if g then map file_entry (headers_in a dir) else []) else [])).
  { intros dir g v x. destruct x; cbn; rewrite ?app_nil_r; try reflexivity.
    - rewrite infos_of_app. destruct g; [rewrite infos_of_blank|]; reflexivity.
    - unfold pl_emplace. rewrite strings_of_app. reflexivity. }
  intros H. destruct c; cbn [api_step] in H;
    try (apply Hs in H; subst u'; split; [reflexivity|]; intros x; one_entry);
    try (apply Hh in H; subst u'; split; [reflexivity|]; intros x; one_entry);
    try (apply Hp in H; subst u'; split; [reflexivity|]; intros x; one_entry);
    try (injection H as <-; split; [reflexivity|]; intros x; one_entry).
  - apply Hgs in H. subst u'. split; [reflexivity|]. intros x. rewrite Gs. unfold added. cbn [flat_map adds].
    rewrite app_nil_r, filter_same. reflexivity.
  - apply Hgs in H. subst u'. split; [reflexivity|]. intros x. rewrite Gs. unfold added. cbn [flat_map adds].
    rewrite app_nil_r, filter_same. reflexivity.
  - apply Hgh in H. subst u'. split; [reflexivity|]. intros x. rewrite Gh. unfold added. cbn [flat_map adds].
    rewrite app_nil_r, filter_same. reflexivity.
  - apply Hi in H. subst u'. split; [reflexivity|]. intros x. rewrite Gi. f_equal. unfold added. cbn [flat_map adds].
    rewrite app_nil_r. cbn [filter fst].
    destruct glob; destruct (option_eq_dec IncludeDirs x); cbn [map snd filter app]; rewrite ?filter_same; try reflexivity;
      destruct (option_eq_dec HeaderFiles x); reflexivity.
  - apply Hgh in H. subst u'. split; [reflexivity|]. intros x. rewrite Gh. unfold added. cbn [flat_map adds].
    rewrite app_nil_r, filter_same. reflexivity.
  - apply Hi in H. subst u'. split; [reflexivity|]. intros x. rewrite Gi. f_equal. unfold added. cbn [flat_map adds].
    rewrite app_nil_r. cbn [filter fst].
    destruct glob; destruct (option_eq_dec IncludeDirs x); cbn [map snd filter app]; rewrite ?filter_same; try reflexivity;
      destruct (option_eq_dec HeaderFiles x); reflexivity.
  - injection H as <-. split; [destruct k; reflexivity|]. intros x.
    destruct k, x; cbn; rewrite ?app_nil_r; try reflexivity; rewrite ?strings_of_app; reflexivity.
Qed.

Lemma step_refused (a : apienv) (u : tschema) (c : call) : api_step a u c = Fatal <-> refused a c.
Proof.
  assert (Hs : forall v p, add_source_absolute a v p = Fatal <-> is_valid_source (ae_tc a) p = false).
  { intros v p. unfold add_source_absolute, expects_valid_source. destruct (is_valid_source _ _); split; congruence. }
  assert (Hh : forall v p, add_header_absolute a v p = Fatal <-> is_valid_header (ae_tc a) p = false).
  { intros v p. unfold add_header_absolute, expects_valid_header. destruct (is_valid_header _ _); split; congruence. }
  assert (Hp : forall v p, add_pch_absolute a v p = Fatal <-> is_valid_header (ae_tc a) p = false).
  { intros v p. unfold add_pch_absolute, expects_valid_header. destruct (is_valid_header _ _); split; congruence. }
  assert (Hgs : forall dir v, match ae_ls a dir with None => Fatal
      | Some names => glob_loop (is_valid_source (ae_tc a)) (add_source_absolute a) dir names v end = Fatal <-> ae_ls a dir = None).
  { intros dir v. destruct (ae_ls a dir); [rewrite glob_sources_eq|]; split; congruence. }
  assert (Hgh : forall dir v, glob_headers_absolute a v dir = Fatal <-> ae_ls a dir = None).
  { intros dir v. unfold glob_headers_absolute. destruct (ae_ls a dir); [rewrite glob_headers_eq|]; split; congruence. }
  destruct c; cbn [api_step refused]; try apply Hs; try apply Hh; try apply Hp; try apply Hgs; try apply Hgh;
    try (split; [discriminate|tauto]).
  - destruct glob; [apply Hgh|]. split; [discriminate|tauto].
  - destruct glob; [apply Hgh|]. split; [discriminate|tauto].
Qed.

(** ** Sequences *)

Lemma run_adds (a : apienv) : forall (cs : list call) (u u' : tschema),
  api_run a u cs = Ok u' -> rest u' = rest u /\ forall x, entries x u' = entries x u ++ added a x cs.
Proof.
  induction cs as [|c r IH]; intros u u' H; cbn [api_run] in H.
  - injection H as <-. split; [reflexivity|]. intros x. symmetry. apply app_nil_r.
  - destruct (api_step a u c) as [u1|] eqn:E; [|discriminate].
    apply step_add in E as [E1 E2]. apply IH in H as [H1 H2]. split; [congruence|].
    intros x. rewrite H2, E2, (added_cons a x c r), app_assoc. reflexivity.
Qed.

Lemma run_refused (a : apienv) : forall (cs : list call) (u : tschema),
  api_run a u cs = Fatal <-> exists c, In c cs /\ refused a c.
Proof.
  induction cs as [|c r IH]; intros u; cbn [api_run].
  - split; [discriminate|]. intros (c & [] & _).
  - destruct (api_step a u c) as [u1|] eqn:E.
    + rewrite IH. split.
      * intros (d & H1 & H2). exists d. split; [right; exact H1|exact H2].
      * intros (d & [<-|H1] & H2); [|exists d; auto]. apply (step_refused a u) in H2. congruence.
    + apply step_refused in E. split; [|reflexivity]. intros _. exists c. split; [left; reflexivity|exact E].
Qed.

Lemma add_flags_entries (k : flag_kind) (x : sync_option) : forall l u,
  entries x (fold_left (fun v f => add_flag v k f) l u) =
  entries x u ++ (if option_eq_dec (flag_option k) x then strings_of l else []).
Proof.
  induction l as [|f l IH]; intros u; cbn [fold_left].
  - destruct (option_eq_dec (flag_option k) x); symmetry; apply app_nil_r.
  - rewrite IH. destruct k, x; cbn; rewrite ?app_nil_r; try reflexivity; rewrite strings_of_app, <- app_assoc; reflexivity.
Qed.
Lemma add_flags_rest (k : flag_kind) : forall l u, rest (fold_left (fun v f => add_flag v k f) l u) = rest u.
Proof. induction l as [|f l IH]; intros u; cbn [fold_left]; [reflexivity|]. rewrite IH. destruct k; reflexivity. Qed.

Lemma new_target_entries (t : tcflags) (x : sync_option) :
  entries x (new_target t) = strings_of (toolchain_flags t x).
Proof.
  unfold new_target. rewrite !add_flags_entries. destruct x; cbn; rewrite ?app_nil_r; reflexivity.
Qed.
Lemma new_target_rest (t : tcflags) : rest (new_target t) = ("", TUndefined, false, false).
Proof. unfold new_target. rewrite !add_flags_rest. reflexivity. Qed.

(** The options of a target described by calls. *)
Lemma described (a : apienv) (t : tcflags) (cs : list call) (u : tschema) :
  api_run a (new_target t) cs = Ok u ->
  forall x, entries x u = map plain_entry (toolchain_flags t x) ++ added a x cs.
Proof. intros H x. apply run_adds in H as [_ H]. rewrite H, new_target_entries. reflexivity. Qed.

Lemma described_or_refused (a : apienv) (t : tcflags) (cs : list call) :
  api_run a (new_target t) cs = Fatal <-> exists c, In c cs /\ refused a c.
Proof. apply run_refused. Qed.

(** ** The target model covers every described target *)

Lemma in_added (a : apienv) (x : sync_option) (cs : list call) (e : string * option string) :
  In e (added a x cs) <-> exists c, In c cs /\ In (x, e) (adds a c).
Proof.
  unfold added. rewrite in_map_iff. split.
  - intros ((y & e') & <- & H). apply filter_In in H as [H1 H2]. cbn [fst snd] in *.
    destruct (option_eq_dec y x) as [->|]; [|discriminate]. apply in_flat_map in H1 as (c & Hc & H1). exists c. auto.
  - intros (c & Hc & H). exists (x, e). split; [reflexivity|]. apply filter_In. split.
    + apply in_flat_map. exists c. auto.
    + cbn [fst]. destruct (option_eq_dec x x); [reflexivity|congruence].
Qed.

Definition is_file_option (x : sync_option) : bool :=
  match x with SourceFiles | HeaderFiles | PchFiles | LibDeps | CompileDependencies | LinkDependencies => true | _ => false end.
Definition is_dir_option (x : sync_option) : bool :=
  match x with IncludeDirs | LibDirs => true | _ => false end.

Lemma adds_kind (a : apienv) (c : call) (x : sync_option) (e : string * option string) :
  In (x, e) (adds a c) ->
  (is_file_option x = true -> exists p, e = file_entry p) /\ (is_dir_option x = true -> exists p, e = dir_entry p).
Proof.
  destruct c; cbn [adds]; intros H; try (destruct k; cbn [flag_option In] in H);
    try (destruct H as [H|[]]; injection H as <- <-; split; intros K; try discriminate K; eexists; reflexivity).
  all: try (apply in_map_iff in H as (y & H & Hy); injection H as <- <-;
            apply in_map_iff in Hy as (p & <- & _); split; intros K; try discriminate K; eexists; reflexivity).
  all: destruct H as [H|H]; [injection H as <- <-; split; intros K; try discriminate K; eexists; reflexivity|];
    destruct glob; [|destruct H];
    apply in_map_iff in H as (y & H & Hy); injection H as <- <-;
    apply in_map_iff in Hy as (p & <- & _); split; intros K; try discriminate K; eexists; reflexivity.
Qed.

Lemma infos_back (l : infolist) :
  (forall e, In e (infos_of l) -> exists p, e = file_entry p) -> infos (il_paths l) = l.
Proof.
  rewrite infos_map. unfold il_paths. rewrite map_map. intros H. rewrite <- (map_id l) at 2. apply map_ext_in.
  intros i Hi. destruct (H (pi_path i, Some (pi_hash i))) as (p & E).
  { unfold infos_of. apply in_map_iff. exists i. auto. }
  injection E as E1 E2. destruct i as [q h]. cbn [pi_path pi_hash] in *. subst. rewrite to_path_string_idem. reflexivity.
Qed.
Lemma dirs_back (l : pathlist) :
  (forall e, In e (strings_of l) -> exists p, e = dir_entry p) -> dirs l = l.
Proof.
  intros H. rewrite dirs_eq. rewrite <- (map_id l) at 2. apply map_ext_in.
  intros q Hq. destruct (H (q, None)) as (p & E). { unfold strings_of. apply in_map_iff. exists q. auto. }
  injection E as ->. apply to_path_string_idem.
Qed.

Lemma described_cfg (a : apienv) (t : tcflags) (cs : list call) (u : tschema) :
  api_run a (new_target t) cs = Ok u -> user_of (cfg_of u) = u.
Proof.
  intros H. pose proof (described a t cs u H) as Hd. apply run_adds in H as [H _]. rewrite new_target_rest in H.
  assert (Hf : forall x, is_file_option x = true -> forall e, In e (entries x u) -> exists p, e = file_entry p).
  { intros x Hx e He. rewrite Hd in He. apply in_app_or in He as [He|He].
    - exfalso. destruct x; try discriminate Hx; destruct He.
    - apply in_added in He as (c & _ & He). apply adds_kind in He as [He _]. exact (He Hx). }
  assert (Hg : forall x, is_dir_option x = true -> forall e, In e (entries x u) -> exists p, e = dir_entry p).
  { intros x Hx e He. rewrite Hd in He. apply in_app_or in He as [He|He].
    - exfalso. destruct x; try discriminate Hx; destruct He.
    - apply in_added in He as (c & _ & He). apply adds_kind in He as [_ He]. exact (He Hx). }
  unfold user_of, cfg_of. cbn [c_sources c_headers c_pchs c_libs c_external_libs c_include_dirs c_lib_dirs
    c_preprocessor c_common c_pch_compile c_pch_object c_asm_flags c_c_flags c_cpp_flags c_link c_compile_deps c_link_deps].
  rewrite (infos_back _ (Hf SourceFiles eq_refl)), (infos_back _ (Hf HeaderFiles eq_refl)),
    (infos_back _ (Hf PchFiles eq_refl)), (infos_back _ (Hf LibDeps eq_refl)),
    (infos_back _ (Hf CompileDependencies eq_refl)), (infos_back _ (Hf LinkDependencies eq_refl)),
    (dirs_back _ (Hg IncludeDirs eq_refl)), (dirs_back _ (Hg LibDirs eq_refl)).
  destruct u. unfold rest in H. cbn in *. injection H as -> -> -> ->. reflexivity.
Qed.

(** ** Sources can be compiled, headers are headers *)

Lemma not_refused (a : apienv) (t : tcflags) (cs : list call) (u : tschema) (c : call) :
  api_run a (new_target t) cs = Ok u -> In c cs -> ~ refused a c.
Proof.
  intros H Hc Hr. assert (K : api_run a (new_target t) cs = Fatal) by (apply run_refused; exists c; auto). congruence.
Qed.

Lemma adds_source (a : apienv) (c : call) (e : string * option string) :
  In (SourceFiles, e) (adds a c) -> ~ refused a c -> exists p, e = file_entry p /\ is_valid_source (ae_tc a) p = true.
Proof.
  destruct c; cbn [adds refused]; intros H Hr; try (destruct k; cbn [flag_option In] in H);
    try (destruct H as [H|[]]; try discriminate H; injection H as <-; eexists; split; [reflexivity|];
         apply not_false_iff_true; exact Hr);
    try (destruct H as [H|[]]; discriminate H).
  all: try (apply in_map_iff in H as (y & H & Hy); try discriminate H; injection H as <-;
            apply in_map_iff in Hy as (p & <- & Hp); unfold sources_in in Hp; apply filter_In in Hp as [_ Hp];
            exists p; auto).
  all: destruct H as [H|H]; [discriminate H|]; destruct glob; [|destruct H];
    apply in_map_iff in H as (y & H & _); discriminate H.
Qed.
Lemma adds_header (a : apienv) (c : call) (x : sync_option) (e : string * option string) :
  x = HeaderFiles \/ x = PchFiles ->
  In (x, e) (adds a c) -> ~ refused a c -> exists p, e = file_entry p /\ is_valid_header (ae_tc a) p = true.
Proof.
  intros [->| ->]; destruct c; cbn [adds refused]; intros H Hr; try (destruct k; cbn [flag_option In] in H);
    try (destruct H as [H|[]]; try discriminate H; injection H as <-; eexists; split; [reflexivity|];
         apply not_false_iff_true; exact Hr);
    try (destruct H as [H|[]]; discriminate H).
  all: try (apply in_map_iff in H as (y & H & Hy); try discriminate H; injection H as <-;
            apply in_map_iff in Hy as (p & <- & Hp); unfold headers_in in Hp; apply filter_In in Hp as [_ Hp];
            exists p; auto).
  all: destruct H as [H|H]; [discriminate H|]; destruct glob; [|destruct H];
    apply in_map_iff in H as (y & H & Hy); try discriminate H; injection H as <-;
    apply in_map_iff in Hy as (p & <- & Hp); unfold headers_in in Hp; apply filter_In in Hp as [_ Hp]; exists p; auto.
Qed.

Lemma sources_compilable (a : apienv) (t : tcflags) (cs : list call) (u : tschema) (s : string) :
  api_run a (new_target t) cs = Ok u -> In s (il_paths (ts_sources u)) ->
  is_valid_source (ae_tc a) s = true /\
  (get_file_ext (ae_tc a) s = ExtAsm \/ get_file_ext (ae_tc a) s = ExtC \/ get_file_ext (ae_tc a) s = ExtCpp).
Proof.
  intros H Hs. pose proof (described a t cs u H SourceFiles) as Hd.
  unfold il_paths in Hs. apply in_map_iff in Hs as (i & <- & Hi).
  assert (He : In (pi_path i, Some (pi_hash i)) (entries SourceFiles u)).
  { cbn [entries]. unfold infos_of. apply in_map_iff. exists i. auto. }
  rewrite Hd in He. cbn [toolchain_flags map app] in He. apply in_added in He as (c & Hc & He).
  apply adds_source in He as (p & E & Hp); [|exact (not_refused a t cs u c H Hc)].
  injection E as -> _. apply valid_source_normal in Hp as [Hp _]. split; [exact Hp|]. apply valid_source_compiled, Hp.
Qed.
Lemma headers_valid (a : apienv) (t : tcflags) (cs : list call) (u : tschema) (h : string) :
  api_run a (new_target t) cs = Ok u -> In h (il_paths (ts_headers u) ++ il_paths (ts_pchs u)) ->
  is_valid_header (ae_tc a) h = true.
Proof.
  intros H Hs. pose proof (described a t cs u H) as Hd.
  assert (K : forall x l, x = HeaderFiles \/ x = PchFiles -> entries x u = infos_of l -> In h (il_paths l) ->
    is_valid_header (ae_tc a) h = true).
  { intros x l Hx El Hl. unfold il_paths in Hl. apply in_map_iff in Hl as (i & <- & Hi).
    assert (He : In (pi_path i, Some (pi_hash i)) (entries x u)).
    { rewrite El. unfold infos_of. apply in_map_iff. exists i. auto. }
    rewrite Hd in He. replace (toolchain_flags t x) with (@nil string) in He by (destruct Hx as [->| ->]; reflexivity).
    cbn [map app] in He. apply in_added in He as (c & Hc & He).
    apply adds_header in He as (p & E & Hp); [|exact Hx|exact (not_refused a t cs u c H Hc)].
    injection E as -> _. apply valid_header_normal, Hp. }
  apply in_app_or in Hs as [Hs|Hs].
  - exact (K HeaderFiles _ (or_introl eq_refl) eq_refl Hs).
  - exact (K PchFiles _ (or_intror eq_refl) eq_refl Hs).
Qed.

(** ** Repeated sources *)

Lemma described_sources (a : apienv) (t : tcflags) (cs : list call) (u : tschema) :
  api_run a (new_target t) cs = Ok u -> sources (cfg_of u) = map fst (added a SourceFiles cs).
Proof.
  intros H. unfold sources. rewrite (described_cfg a t cs u H).
  pose proof (described a t cs u H SourceFiles) as Hd. cbn [toolchain_flags map app entries] in Hd. rewrite <- Hd.
  unfold infos_of, il_paths. rewrite map_map. reflexivity.
Qed.

Lemma described_repeated (a : apienv) (t : tcflags) (cs : list call) (u : tschema) :
  api_run a (new_target t) cs = Ok u -> ~ NoDup (added a SourceFiles cs) -> ~ NoDup (sources (cfg_of u)).
Proof. intros H N K. apply N. rewrite (described_sources a t cs u H) in K. exact (NoDup_map_inv _ _ K). Qed.
