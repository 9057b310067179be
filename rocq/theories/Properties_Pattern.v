(** C96, C97: what the patterns of a generator stand for. *)
From Verif Require Import Prelude Model_Command Spec_Command Proof_Command Model_Gen Spec_Pattern Proof_Pattern.

(** C96: each AddPattern expands its pattern with the names known at that moment;
    a name taken keeps its text; an unknown name is fatal. Afterwards every text is
    expanded with the resulting names. *)
Theorem C96_patterns_named : forall o l res,
  Forall (fun x => Forall token_ok (snd x)) l -> names_after (names_of o) l res ->
  match res with
  | None => add_patterns o (written l) = AFatal
  | Some val => exists o', add_patterns o (written l) = AOk o' /\ go_ids o' = go_ids o /\
                  forall t, Forall token_ok t -> construct (go_args o') (render t) [] = to_fres (expand val t)
  end.
Proof. exact patterns_named. Qed.
Print Assumptions C96_patterns_named.

(** A text that could be expanded keeps its expansion whatever is added later. *)
Theorem C96_meaning_kept : forall o l o' p t,
  add_patterns o l = AOk o' -> construct (go_args o) p [] = FOk t -> construct (go_args o') p [] = FOk t.
Proof. exact meaning_kept. Qed.
Print Assumptions C96_meaning_kept.

(** The names of a new generator. *)
Theorem C96_new_generator : forall pr pb r b t, Forall token_ok t ->
  construct (go_args (gen_new pr pb r b)) (render t) [] =
  to_fres (expand (fun k => first_value k [("project_root_dir", pr); ("project_build_dir", pb); ("current_root_dir", r); ("current_build_dir", b)]) t).
Proof. exact (fun pr pb r b t H => construct_names (gen_new pr pb r b) t H). Qed.
Print Assumptions C96_new_generator.

Definition gen0 : gobj := gen_new "/p" "/p/_build" "/p/x" "/p/_build/g".
Definition pats0 : list (string * list token) :=
  [("src", [Field "current_root_dir"; Lit "/"; Lit "s"]); ("gen", [Field "src"; Lit "{"; Lit "}"]); ("src", [Lit "z"])].
Example C96_case :
  Forall (fun x => Forall token_ok (snd x)) pats0 /\
  (exists val, names_after (names_of gen0) pats0 (Some val) /\ val "src" = Some "/p/x/s" /\ val "gen" = Some "/p/x/s{}") /\
  names_after (names_of gen0) [("gen", [Field "src"])] None /\
  written pats0 = [("src", "{current_root_dir}/s"); ("gen", "{src}{{}}"); ("src", "z")].
Proof.
  split; [|split; [|split]].
  - apply pats_okb_sound. vm_compute. reflexivity.
  - eexists. split; [|split].
    + eapply after_next; [vm_compute; reflexivity|]. eapply after_next; [vm_compute; reflexivity|]. eapply after_next; [vm_compute; reflexivity|]. apply after_none.
    + vm_compute. reflexivity.
    + vm_compute. reflexivity.
  - apply after_unknown. vm_compute. reflexivity.
  - vm_compute. reflexivity.
Qed.

(** C97: AddPatterns with a map: the outcome depends on the unspecified order in
    which the map is iterated ... *)
Theorem C97_order_refuted : exists o l l' o', NoDup (map fst l) /\ Permutation l l' /\
  add_patterns o l = AOk o' /\ add_patterns o l' = AFatal.
Proof.
  exists gen0, [("a", "{current_root_dir}/a"); ("b", "{a}/b")], [("b", "{a}/b"); ("a", "{current_root_dir}/a")]. eexists.
  split; [repeat constructor; cbn; intuition discriminate|]. split; [apply perm_swap|]. split; vm_compute; reflexivity.
Qed.
Print Assumptions C97_order_refuted.

(** ... but two orders that are both accepted give every text the same meaning ... *)
Theorem C97_accepted_orders_agree_partial : forall o l l' o1 o2,
  Forall (fun x => Forall token_ok (snd x)) l -> NoDup (map fst l) -> Permutation l l' ->
  add_patterns o (written l) = AOk o1 -> add_patterns o (written l') = AOk o2 ->
  forall t, Forall token_ok t -> construct (go_args o1) (render t) [] = construct (go_args o2) (render t) [].
Proof. exact accepted_orders_agree. Qed.
Print Assumptions C97_accepted_orders_agree_partial.

(** ... and if no pattern mentions a name defined by the same map, the order does
    not matter at all. Missing: maps whose patterns refer to each other. *)
Theorem C97_any_order_partial : forall o l l',
  Forall (fun x => Forall token_ok (snd x)) l -> NoDup (map fst l) -> Permutation l l' -> self_contained (names_of o) l ->
  (add_patterns o (written l) = AFatal /\ add_patterns o (written l') = AFatal) \/
  (exists o1 o2, add_patterns o (written l) = AOk o1 /\ add_patterns o (written l') = AOk o2 /\
     forall t, Forall token_ok t -> construct (go_args o1) (render t) [] = construct (go_args o2) (render t) []).
Proof. exact patterns_any_order. Qed.
Print Assumptions C97_any_order_partial.

Definition pats1 : list (string * list token) := [("src", [Field "current_root_dir"; Lit "/"]); ("gen", [Field "current_build_dir"])].
Definition pats2 : list (string * list token) := [("a", [Field "current_root_dir"]); ("b", [Field "a"; Lit "z"]); ("c", [Lit "c"])].
Definition pats2' : list (string * list token) := [("c", [Lit "c"]); ("a", [Field "current_root_dir"]); ("b", [Field "a"; Lit "z"])].
Example C97_case :
  (forallb (fun x => forallb token_okb (snd x)) pats1 && forallb (fun x => forallb token_okb (snd x)) pats2 = true) /\
  NoDup (map fst pats1) /\ self_contained (names_of gen0) pats1 /\ (exists o1, add_patterns gen0 (written pats1) = AOk o1) /\
  NoDup (map fst pats2) /\ Permutation pats2 pats2' /\
  exists o1 o2, add_patterns gen0 (written pats2) = AOk o1 /\ add_patterns gen0 (written pats2') = AOk o2 /\
    construct (go_args o1) "{b}{c}" [] = FOk "/p/xzc".
Proof.
  split; [vm_compute; reflexivity|]. split; [repeat constructor; cbn; intuition discriminate|]. split.
  { intros k p n [I|[I|[]]]; injection I as <- <-; cbn; intros [<-|[]]; vm_compute; discriminate. }
  split; [eexists; vm_compute; reflexivity|]. split; [repeat constructor; cbn; intuition discriminate|].
  split; [apply Permutation_sym, (Permutation_cons_app [("a", [Field "current_root_dir"]); ("b", [Field "a"; Lit "z"])] [] ("c", [Lit "c"]) (Permutation_refl _))|].
  eexists. eexists. split; [vm_compute; reflexivity|]. split; vm_compute; reflexivity.
Qed.
