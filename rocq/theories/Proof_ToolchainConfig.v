(** Proofs about the classification of files. *)
From Verif Require Import Prelude Proof_Prelude Model_Path Model_ToolchainConfig Spec_ToolchainConfig Spec_Find Proof_Find.

Lemma mem_false x l : mem_str x l = false <-> ~ In x l.
Proof. rewrite <- mem_str_In. destruct (mem_str x l); split; congruence. Qed.

Lemma ext_suffix f : f <> "." -> f <> ".." -> forall x, has_ext f x <-> extension_of f = x /\ x <> "".
Proof.
  intros N1 N2 x. unfold extension_of, is_dot, is_dotdot. rewrite (proj2 (String.eqb_neq _ _) N1), (proj2 (String.eqb_neq _ _) N2). cbn [orb].
  unfold has_ext. destruct (last_dot_cases f) as [H|(a & y & -> & H)].
  - rewrite last_dot_none by exact H. split; [|intros [<- K]; congruence].
    intros (s & r & _ & E & _ & _). rewrite E in H. rewrite !str_mem_app in H. cbn in H. rewrite orb_true_r in H. discriminate.
  - rewrite last_dot_app by exact H. cbn [Nat.add]. destruct a as [|c a]; cbn [String.length].
    + split; [|intros [<- K]; congruence]. intros (s & r & Ns & E & _ & Nr). destruct s as [|c s]; [congruence|]. cbn in E. injection E as <- E.
      subst y. rewrite str_mem_app in H. cbn in H. rewrite orb_true_r in H. discriminate.
    + change (S (String.length a)) with (String.length (String c a)).
      assert (Q : forall u v, String.substring (String.length u) (String.length (u +++ v) - String.length u) (u +++ v) = v).
      { intros u v. rewrite slen_app. replace (String.length u + String.length v - String.length u) with (String.length v) by lia.
        induction u as [|b u IH]; cbn; [|exact IH]. induction v as [|b v IHv]; cbn; [reflexivity|]. rewrite IHv. reflexivity. }
      rewrite Q. split.
      * intros (s & r & Ns & E & -> & Nr). assert (L : last_dot (String c a +++ "." +++ y) 0 None = last_dot (s +++ "." +++ r) 0 None) by (rewrite E; reflexivity).
        rewrite !last_dot_app in L by assumption. injection L as L. cbn [Nat.add] in L.
        split; [|discriminate]. pose proof (Q (String c a) ("." +++ y)) as Q1. pose proof (Q s ("." +++ r)) as Q2. rewrite <- E in Q2.
        change (S (String.length a)) with (String.length (String c a)) in L. rewrite <- L in Q2. congruence.
      * intros [<- _]. exists (String c a), y. repeat split; [discriminate|exact H].
Qed.
Lemma file_ext_has p x : proper p -> (file_has_ext p x <-> path_extension p = x /\ x <> "").
Proof. intros [N1 N2]. unfold file_has_ext, path_extension. apply ext_suffix; assumption. Qed.

Theorem classify t p : proper p ->
  (get_file_ext t p = ExtC <-> exists x, file_has_ext p x /\ In x (tc_c t)) /\
  (get_file_ext t p = ExtCpp <-> exists x, file_has_ext p x /\ ~ In x (tc_c t) /\ In x (tc_cpp t)) /\
  (get_file_ext t p = ExtAsm <-> exists x, file_has_ext p x /\ ~ In x (tc_c t) /\ ~ In x (tc_cpp t) /\ In x (tc_asm t)) /\
  (get_file_ext t p = ExtHeader <-> exists x, file_has_ext p x /\ ~ In x (tc_c t) /\ ~ In x (tc_cpp t) /\ ~ In x (tc_asm t) /\ In x (tc_header t)) /\
  (get_file_ext t p = ExtInvalid <-> forall x, file_has_ext p x -> ~ In x (tc_c t) /\ ~ In x (tc_cpp t) /\ ~ In x (tc_asm t) /\ ~ In x (tc_header t)).
Proof.
  intros P. unfold get_file_ext. set (e := path_extension p).
  assert (S : forall x, file_has_ext p x <-> e = x /\ x <> "") by (intros x; apply file_ext_has; exact P).
  destruct (String.eqb_spec e "") as [E|E].
  - assert (Nx : forall x, ~ file_has_ext p x) by (intros x H; apply S in H as [H1 H2]; congruence).
    assert (Nq : forall R : string -> Prop, ~ exists x, file_has_ext p x /\ R x) by (intros R (x & H & _); exact (Nx x H)).
    assert (D : forall (k : file_ext) (R : string -> Prop), ExtInvalid <> k -> (ExtInvalid = k <-> exists x, file_has_ext p x /\ R x)).
    { intros k R Nk. split; [congruence|]. intros K. destruct (Nq _ K). }
    split; [|split; [|split; [|split]]]; try (apply D; discriminate).
    split; [|reflexivity]. intros _ x H. destruct (Nx x H).
  - assert (Q : forall R : string -> Prop, (exists x, file_has_ext p x /\ R x) <-> R e).
    { intros R. split; [intros (x & H & K); apply S in H as [<- _]; exact K|intros K; exists e; split; [apply S; auto|exact K]]. }
    rewrite (Q (fun x => In x (tc_c t))), (Q (fun x => ~ In x (tc_c t) /\ In x (tc_cpp t))),
      (Q (fun x => ~ In x (tc_c t) /\ ~ In x (tc_cpp t) /\ In x (tc_asm t))),
      (Q (fun x => ~ In x (tc_c t) /\ ~ In x (tc_cpp t) /\ ~ In x (tc_asm t) /\ In x (tc_header t))).
    assert (Q2 : forall R : string -> Prop, (forall x, file_has_ext p x -> R x) <-> R e).
    { intros R. split; [intros K; apply K; apply S; auto|intros K x H; apply S in H as [<- _]; exact K]. }
    rewrite (Q2 (fun x => ~ In x (tc_c t) /\ ~ In x (tc_cpp t) /\ ~ In x (tc_asm t) /\ ~ In x (tc_header t))).
    rewrite <- !mem_str_In. destruct (mem_str e (tc_c t)), (mem_str e (tc_cpp t)), (mem_str e (tc_asm t)), (mem_str e (tc_header t)); intuition congruence.
Qed.

Theorem source_iff t p : is_valid_source t p = true <-> get_file_ext t p = ExtC \/ get_file_ext t p = ExtCpp \/ get_file_ext t p = ExtAsm.
Proof.
  unfold is_valid_source, get_file_ext. set (e := path_extension p). destruct (String.eqb e ""); [intuition discriminate|].
  destruct (mem_str e (tc_c t)), (mem_str e (tc_cpp t)), (mem_str e (tc_asm t)), (mem_str e (tc_header t)); cbn; intuition discriminate.
Qed.
Theorem header_iff t p : proper p -> (is_valid_header t p = true <-> exists x, file_has_ext p x /\ In x (tc_header t)).
Proof.
  intros P. unfold is_valid_header. split.
  - destruct (String.eqb_spec (path_extension p) "") as [E|E]; [discriminate|]. intros H. apply mem_str_In in H.
    exists (path_extension p). split; [apply file_ext_has; auto|exact H].
  - intros (x & H & K). apply file_ext_has in H as [-> N]; [|exact P]. rewrite (proj2 (String.eqb_neq _ _) N). apply mem_str_In. exact K.
Qed.
Theorem expects_iff t p : (expects_valid_source t p = Ok tt <-> is_valid_source t p = true) /\
  (expects_valid_header t p = Ok tt <-> is_valid_header t p = true).
Proof. unfold expects_valid_source, expects_valid_header. destruct (is_valid_source t p), (is_valid_header t p); intuition discriminate. Qed.
