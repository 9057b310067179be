(** Proofs about the searches. *)
From Verif Require Import Prelude Proof_Prelude Model_Path Model_Util Model_Find Spec_Find.

(** ** stems *)

Lemma last_dot_none s : forall i, str_mem ch_dot s = false -> forall f, last_dot s i f = f.
Proof.
  induction s as [|a s IH]; intros i H f; cbn [last_dot]; [reflexivity|].
  cbn [str_mem] in H. apply orb_false_iff in H as [H1 H2]. rewrite H1. apply IH. exact H2.
Qed.
Lemma last_dot_app a x : forall i f, str_mem ch_dot x = false -> last_dot (a +++ "." +++ x) i f = Some (i + String.length a).
Proof.
  induction a as [|c a IH]; intros i f H; cbn [append last_dot String.length].
  - rewrite Ascii.eqb_refl. rewrite last_dot_none by exact H. rewrite Nat.add_0_r. reflexivity.
  - rewrite IH by exact H. f_equal. lia.
Qed.
Lemma substring_prefix a b : String.substring 0 (String.length a) (a +++ b) = a.
Proof. induction a as [|c a IH]; cbn; [destruct b; reflexivity|rewrite IH; reflexivity]. Qed.
Lemma last_dot_cases s : str_mem ch_dot s = false \/ exists a x, s = a +++ "." +++ x /\ str_mem ch_dot x = false.
Proof.
  induction s as [|c s IH]; [left; reflexivity|]. destruct IH as [IH|(a & x & -> & H)].
  - cbn [str_mem]. destruct (Ascii.eqb c ch_dot) eqn:E; [|left; exact IH].
    apply Ascii.eqb_eq in E. subst c. right. exists "", s. auto.
  - right. exists (String c a), x. auto.
Qed.

Lemma stem_called f e : f <> "." -> f <> ".." -> (stem_of f = e <-> called f e).
Proof.
  intros N1 N2. unfold stem_of. unfold is_dot, is_dotdot. rewrite (proj2 (String.eqb_neq _ _) N1), (proj2 (String.eqb_neq _ _) N2). cbn [orb].
  unfold called, no_dot. fold ch_dot. destruct (last_dot_cases f) as [H|(a & x & -> & H)].
  - rewrite last_dot_none by exact H. split.
    + intros <-. left. auto.
    + intros [[-> _]|(_ & x & -> & _)]; [reflexivity|]. rewrite !str_mem_app in H. cbn in H. rewrite orb_true_r in H. discriminate.
  - rewrite last_dot_app by exact H. cbn [Nat.add]. destruct a as [|c a]; cbn [String.length].
    + cbn [append] in *. split.
      * intros <-. left. split; [reflexivity|]. right. exists x. auto.
      * intros [[E _]|(Ne & y & E & Hy)]; [exact E|]. destruct e as [|c e]; [congruence|]. cbn in E. injection E as <- E. subst x.
        rewrite str_mem_app in H. cbn in H. rewrite orb_true_r in H. discriminate.
    + change (S (String.length a)) with (String.length (String c a)). rewrite substring_prefix. split.
      * intros <-. right. split; [discriminate|]. exists x. auto.
      * intros [[E K]|(Ne & y & E & Hy)].
        -- exfalso. destruct K as [K|(r & K & K2)].
           ++ rewrite !str_mem_app in K. cbn in K. rewrite orb_true_r in K. discriminate.
           ++ cbn in K. injection K as -> K. subst r. rewrite str_mem_app in K2. cbn in K2. rewrite orb_true_r in K2. discriminate.
        -- assert (L : last_dot (String c a +++ "." +++ x) 0 None = last_dot (e +++ "." +++ y) 0 None) by (rewrite E; reflexivity).
           rewrite !last_dot_app in L by assumption. injection L as L.
           rewrite <- (substring_prefix (String c a) ("." +++ x)), <- (substring_prefix e ("." +++ y)), E. cbn [Nat.add] in *. cbn [String.length] in L |- *. rewrite L. reflexivity.
Qed.

(** ** Find *)

Lemma erase_In x y s : In y (erase x s) <-> In y s /\ x <> y.
Proof.
  unfold erase. rewrite filter_In, negb_true_iff, String.eqb_neq. reflexivity.
Qed.
Lemma erase_found_In entries : forall s y, In y (erase_found entries s) <-> In y s /\ ~ exists f, In (f, true) entries /\ stem_of f = y.
Proof.
  induction entries as [|[n r] entries IH]; intros s y; cbn [erase_found].
  - split; [intros H; split; [exact H|intros (f & [] & _)]|tauto].
  - rewrite IH. destruct r.
    + rewrite erase_In. split.
      * intros [[A B] C]. split; [exact A|]. intros (f & [K|K] & E); [injection K as ->; congruence|]. apply C. exists f. auto.
      * intros [A B]. repeat split; [exact A| |].
        -- intros E. apply B. exists n. split; [left; reflexivity|exact E].
        -- intros (f & K & E). apply B. exists f. split; [right; exact K|exact E].
    + split; intros [A B]; (split; [exact A|]); intros (f & K & E); apply B; exists f.
      * destruct K as [K|K]; [discriminate|auto].
      * split; [right; exact K|exact E].
Qed.

Definition complete_b (w : world) (e : exes) (d : string) : bool :=
  match w_dir w d with DEntries l => contains_executables l e | _ => false end.

Lemma complete_spec w e d : posix w -> (complete_b w e d = true <-> complete w e d).
Proof.
  intros [_ P]. unfold complete_b, complete. destruct (w_dir w d) as [| |entries] eqn:E.
  1,2: split; [discriminate|intros (x & K & _); discriminate].
  specialize (P d entries). unfold contains_executables, names.
  set (l := [x_as e; x_c e; x_cpp e; x_ar e; x_link e]).
  assert (K : is_nil (erase_found entries l) = true <-> forall n, In n l -> exists f, In (f, true) entries /\ stem_of f = n).
  { split.
    - intros H n Hn. destruct (in_dec string_dec n (map (fun p => stem_of (fst p)) (filter snd entries))) as [I|I].
      + apply in_map_iff in I as ([f r] & E1 & E2). apply filter_In in E2 as [E2 E3]. cbn in E1, E3. subst r. exists f. auto.
      + exfalso. assert (Q : In n (erase_found entries l)).
        { apply erase_found_In. split; [exact Hn|]. intros (f & F & S). apply I. apply in_map_iff. exists (f, true).
          split; [exact S|]. apply filter_In. auto. }
        destruct (erase_found entries l); [destruct Q|discriminate].
    - intros H. destruct (erase_found entries l) as [|n r] eqn:Er; [reflexivity|]. exfalso.
      assert (Q : In n (erase_found entries l)) by (rewrite Er; left; reflexivity).
      apply erase_found_In in Q as [Q1 Q2]. apply Q2. exact (H n Q1). }
  rewrite K. split.
  - intros H. exists entries. split; [reflexivity|]. intros n Hn. destruct (H n Hn) as (f & F & S). exists f. split; [exact F|].
    destruct (P f true E F) as (_ & P1 & P2 & _). apply stem_called; assumption.
  - intros (en & Q & H) n Hn. injection Q as <-. destruct (H n Hn) as (f & F & S). exists f. split; [exact F|].
    destruct (P f true E F) as (_ & P1 & P2 & _). apply stem_called; assumption.
Qed.

Lemma search_dirs_filter w e paths : forall found, search_dirs w e paths found = found ++ filter (complete_b w e) paths.
Proof.
  induction paths as [|p paths IH]; intros found; cbn [search_dirs filter]; [rewrite app_nil_r; reflexivity|].
  rewrite IH. replace (complete_b w e p) with (match w_dir w p with DEntries l => contains_executables l e | _ => false end) by reflexivity.
  destruct (w_dir w p) as [| |en]; try reflexivity.
  destruct (contains_executables en e); [rewrite <- app_assoc; reflexivity|reflexivity].
Qed.
Lemma add_env_paths_spec w vars : forall paths, add_env_paths w vars paths =
  match env_dirs w vars with Some l => Ok (paths ++ l) | None => Fatal end.
Proof.
  induction vars as [|v vars IH]; intros paths; cbn [add_env_paths env_dirs]; [rewrite app_nil_r; reflexivity|].
  unfold parse_env_var, path_delim. destruct (w_env w v) as [s|]; [|reflexivity]. rewrite IH.
  destruct (env_dirs w vars); [rewrite app_assoc; reflexivity|reflexivity].
Qed.

Lemma filter_those {A} (b : A -> bool) (P : A -> Prop) all : (forall x, b x = true <-> P x) -> those P (filter b all) all.
Proof.
  intros H. induction all as [|x all IH]; cbn [filter]; [constructor|]. destruct (b x) eqn:E; constructor; auto.
  - apply H. exact E.
  - rewrite <- H, E. discriminate.
Qed.
Lemma those_unique {A} (P : A -> Prop) all : forall l1 l2, those P l1 all -> those P l2 all -> l1 = l2.
Proof.
  induction all as [|x all IH]; intros l1 l2 H1 H2; inversion H1; inversion H2; subst; try reflexivity; try contradiction.
  - f_equal. auto.
  - auto.
Qed.

Theorem find_exact w e c : posix w ->
  (dirs_to_search w c = None -> find w e c = Fatal) /\
  (forall dirs, dirs_to_search w c = Some dirs ->
     forall l, find w e c = Ok l <-> those (complete w e) l dirs).
Proof.
  intros P. unfold find, dirs_to_search. rewrite add_env_paths_spec. destruct (env_dirs w (fc_env_vars c)) as [ed|].
  - split; [discriminate|]. intros dirs E l. injection E as <-. rewrite search_dirs_filter. cbn [app].
    assert (T : those (complete w e) (filter (complete_b w e) (fc_paths c ++ ed)) (fc_paths c ++ ed))
      by (apply filter_those; intros x; apply complete_spec; exact P).
    split; [intros K; injection K as <-; exact T|]. intros K. f_equal. exact (those_unique _ _ _ _ T K).
  - split; [reflexivity|discriminate].
Qed.

(** ** Verify *)

Theorem verify_exact w cb e c : 
  match verify w cb e c with
  | (e', Ok i) => exists p l f i0, find w e c = Ok (p :: l) /\ cb = Some f /\ f e' = Some i0 /\
      e' = EXES (path_div p (x_as e)) (path_div p (x_c e)) (path_div p (x_cpp e)) (path_div p (x_ar e)) (path_div p (x_link e)) /\
      i = INFO p (i_version i0) (i_arch i0)
  | (e', Fatal) => e' = e /\
      forall p l f, find w e c = Ok (p :: l) -> cb = Some f ->
        f (EXES (path_div p (x_as e)) (path_div p (x_c e)) (path_div p (x_cpp e)) (path_div p (x_ar e)) (path_div p (x_link e))) = None
  end.
Proof.
  unfold verify. destruct (find w e c) as [[|p l]|] eqn:F.
  - split; [reflexivity|]. intros; discriminate.
  - destruct cb as [f|].
    + destruct (f (create_executables p e)) as [i0|] eqn:R.
      * exists p, l, f, i0. auto.
      * split; [reflexivity|]. intros p' l' f' K1 K2. injection K1 as <- <-. injection K2 as <-. exact R.
    + split; [reflexivity|]. intros; discriminate.
  - split; [reflexivity|]. intros; discriminate.
Qed.

Lemma ends_slash_mem s : ends_slash s = true -> str_mem ch_slash s = true.
Proof.
  induction s as [|a s IH]; [discriminate|]. cbn [ends_slash str_mem]. destruct s as [|b s].
  - intros ->. reflexivity.
  - intros H. rewrite (IH H), orb_true_r. reflexivity.
Qed.
Lemma path_div_slash p n : p <> "" -> str_mem ch_slash (path_div p n) = true.
Proof.
  intros N. unfold path_div. destruct n as [|a n]; cbn [starts_slash].
  - destruct (has_filename p) eqn:H; rewrite !str_mem_app; [cbn; rewrite orb_true_r; reflexivity|].
    unfold has_filename in H. destruct p as [|c p]; [congruence|]. cbn [nonempty_str andb] in H.
    rewrite (ends_slash_mem (String c p)); [reflexivity|]. apply negb_false_iff. exact H.
  - destruct (Ascii.eqb a ch_slash) eqn:E.
    + cbn [str_mem]. rewrite E. reflexivity.
    + destruct (has_filename p) eqn:H; rewrite !str_mem_app; [cbn; rewrite orb_true_r; reflexivity|].
      unfold has_filename in H. destruct p as [|c p]; [congruence|]. cbn [nonempty_str andb] in H.
      rewrite (ends_slash_mem (String c p)); [reflexivity|]. apply negb_false_iff. exact H.
Qed.
Lemma called_slash f e : called f e -> str_mem ch_slash f = false -> str_mem ch_slash e = false.
Proof.
  intros [[-> _]|(_ & x & -> & _)] H; [exact H|]. rewrite str_mem_app in H. apply orb_false_iff in H as [H _]. exact H.
Qed.

Theorem verify_twice w cb e c e' i w2 cb2 c2 : posix w -> posix w2 -> verify w cb e c = (e', Ok i) ->
  verify w2 cb2 e' c2 = (e', Fatal).
Proof.
  intros P P2 V. pose proof (verify_exact w cb e c) as X. rewrite V in X. destruct X as (p & l & f & i0 & F & _ & _ & E & _).
  assert (Np : p <> "").
  { intros ->. destruct (find_exact w e c P) as [_ G]. unfold find in F. rewrite add_env_paths_spec in F.
    destruct (env_dirs w (fc_env_vars c)) as [ed|]; [|discriminate]. rewrite search_dirs_filter in F. injection F as F. cbn [app] in F.
    assert (I : In "" (filter (complete_b w e) (fc_paths c ++ ed))) by (rewrite F; left; reflexivity).
    apply filter_In in I as [_ I]. unfold complete_b in I. destruct P as [P _]. rewrite P in I. discriminate. }
  unfold verify. destruct (find w2 e' c2) as [[|q r]|] eqn:F2; [reflexivity| |reflexivity]. exfalso.
  unfold find in F2. rewrite add_env_paths_spec in F2. destruct (env_dirs w2 (fc_env_vars c2)) as [ed|]; [|discriminate].
  rewrite search_dirs_filter in F2. injection F2 as F2. cbn [app] in F2.
  assert (I : In q (filter (complete_b w2 e') (fc_paths c2 ++ ed))) by (rewrite F2; left; reflexivity).
  apply filter_In in I as [_ I]. apply complete_spec in I; [|exact P2]. destruct I as (en & D & H).
  destruct (H (x_as e')) as (g & G & C); [left; reflexivity|]. destruct P2 as [_ P2]. destruct (P2 _ _ _ _ D G) as (_ & _ & _ & S).
  pose proof (called_slash _ _ C S) as K. rewrite E in K. cbn [x_as] in K. rewrite path_div_slash in K by exact Np. discriminate.
Qed.

(** ** BuildccFind *)

Lemma search_paths_spec w m paths : search_paths w m paths =
  map (fun p => path_div (fst p) (snd p)) (filter (fun p => m (snd p)) (flat_map (entries_of w) paths)).
Proof.
  induction paths as [|p paths IH]; cbn [search_paths flat_map]; [reflexivity|].
  rewrite filter_app, map_app, IH. f_equal. unfold entries_of. destruct (w_dir w p) as [| |l]; try reflexivity.
  clear. induction l as [|[n r] l IH]; [reflexivity|]. cbn [map filter fst snd]. destruct (m n); cbn [map fst snd]; rewrite IH; reflexivity.
Qed.
Lemma search_vars_spec w rx re vars : forall ms, search_vars w rx re vars ms = ms ++
  map (fun p => path_div (fst p) (snd p)) (filter (fun p => rx re (snd p)) (flat_map (entries_of w) (flat_map (var_dirs w) vars))).
Proof.
  induction vars as [|v vars IH]; intros ms; cbn [search_vars flat_map]; [rewrite app_nil_r; reflexivity|].
  rewrite IH, flat_map_app, filter_app, map_app, app_assoc. f_equal. f_equal. unfold search_env, var_dirs, path_delim.
  destruct (w_env w v); [apply search_paths_spec|reflexivity].
Qed.
Theorem search_exact w rx f : f_type f = HostExecutable ->
  f_matches (fst (search w rx f)) = f_matches f ++ found w rx f /\
  (snd (search w rx f) = true <-> f_matches f ++ found w rx f <> []) /\
  f_regex (fst (search w rx f)) = f_regex f /\ f_env_vars (fst (search w rx f)) = f_env_vars f /\ f_type (fst (search w rx f)) = HostExecutable.
Proof.
  intros T. unfold search. rewrite T. cbn [fst snd f_matches f_regex f_env_vars f_type]. rewrite search_vars_spec. fold (found w rx f).
  repeat split.
  - intros H K. rewrite K in H. discriminate.
  - intros H. destruct (f_matches f ++ found w rx f); [congruence|reflexivity].
Qed.

Lemma add_env_vars vs : forall f, fold_left add_env_var vs f = FINDER (f_regex f) (f_type f) (f_env_vars f ++ vs) (f_matches f).
Proof.
  induction vs as [|v vs IH]; intros f; cbn [fold_left].
  - rewrite app_nil_r. destruct f. reflexivity.
  - rewrite IH. unfold add_env_var. cbn [f_regex f_type f_env_vars f_matches]. rewrite <- app_assoc. reflexivity.
Qed.
Theorem added_variables w rx f vs : f_type f = HostExecutable ->
  f_matches (fst (search w rx (fold_left add_env_var vs f))) =
  f_matches f ++ found w rx f ++ found w rx (FINDER (f_regex f) HostExecutable vs []).
Proof.
  intros T. rewrite add_env_vars.
  destruct (search_exact w rx (FINDER (f_regex f) (f_type f) (f_env_vars f ++ vs) (f_matches f)) T) as (A & _). rewrite A.
  cbn [f_matches]. f_equal. unfold found. cbn [f_regex f_env_vars].
  rewrite !flat_map_app, filter_app, map_app. reflexivity.
Qed.

Theorem searches_append rx ws : forall f, f_type f = HostExecutable ->
  f_matches (searches rx f ws) = f_matches f ++ flat_map (fun w => found w rx f) ws.
Proof.
  induction ws as [|w ws IH]; intros f T; cbn [searches flat_map]; [rewrite app_nil_r; reflexivity|].
  destruct (search_exact w rx f T) as (A & _ & B & C & D). rewrite IH by exact D. rewrite A, <- app_assoc. f_equal. f_equal.
  apply flat_map_ext. intros x. unfold found. rewrite B, C. reflexivity.
Qed.

Lemma those_In {A} (P : A -> Prop) l all : those P l all -> forall x, In x all -> P x -> In x l.
Proof.
  intros T. induction T as [|y l all Py T IH|y l all Ny T IH]; intros x H Px; [destruct H| |].
  - destruct H as [->|H]; [left; reflexivity|right; auto].
  - destruct H as [->|H]; [contradiction|auto].
Qed.
Theorem complete_found w e c dirs l : posix w -> dirs_to_search w c = Some dirs -> find w e c = Ok l ->
  (forall n, In n (names e) -> no_dot n) ->
  forall d entries, In d dirs -> w_dir w d = DEntries entries -> (forall n, In n (names e) -> In (n, true) entries) -> In d l.
Proof.
  intros P D F N d en I E H. destruct (find_exact w e c P) as [_ G]. apply (G _ D) in F. apply (those_In _ _ _ F); [exact I|].
  exists en. split; [exact E|]. intros n Hn. exists n. split; [exact (H n Hn)|]. left. split; [reflexivity|]. left. exact (N n Hn).
Qed.

Theorem found_iff w rx f p : In p (found w rx f) <->
  exists v s d entries n r, In v (f_env_vars f) /\ w_env w v = Some s /\ In d (split s ":"%char) /\
    w_dir w d = DEntries entries /\ In (n, r) entries /\ rx (f_regex f) n = true /\ p = path_div d n.
Proof.
  unfold found. rewrite in_map_iff. split.
  - intros ([d n] & E & H). cbn [fst snd] in E. apply filter_In in H as [H M]. cbn [snd] in M.
    apply in_flat_map in H as (d' & H & K). apply in_flat_map in H as (v & V & H). unfold var_dirs in H.
    destruct (w_env w v) as [s|] eqn:Ev; [|destruct H]. unfold entries_of in K. destruct (w_dir w d') as [| |en] eqn:Ed; try (destruct K; fail).
    apply in_map_iff in K as ([n' r] & K1 & K2). cbn [fst] in K1. injection K1 as -> ->.
    exists v, s, d, en, n, r. repeat split; auto.
  - intros (v & s & d & en & n & r & V & Ev & D & Ed & I & M & ->). exists (d, n). split; [reflexivity|]. apply filter_In. split; [|exact M].
    apply in_flat_map. exists d. split.
    + apply in_flat_map. exists v. split; [exact V|]. unfold var_dirs. rewrite Ev. exact D.
    + unfold entries_of. rewrite Ed. apply in_map_iff. exists (n, r). auto.
Qed.
Theorem search_unsupported w rx f : f_type f <> HostExecutable -> search w rx f = (f, false).
Proof. intros H. unfold search. destruct (f_type f); [congruence|reflexivity|reflexivity]. Qed.
