(** C122: what the ids of a generator are. *)
From Verif Require Import Prelude Model_Command Spec_Command Proof_Command Model_Gen Spec_Pattern Proof_Pattern Spec_GenIds Proof_GenIds.

(** C122: a sequence of AddPattern and AddIdInfo calls either describes the ids, in
    the order of the calls and each expanded with the names known at its call, or
    is fatal: an id is taken or a pattern mentions an unknown name. *)
Theorem C122_ids_exact : forall o l res,
  Forall description_ok l -> described (names_of o) (map fst (go_ids o)) l res ->
  match res with
  | None => describes o l = AFatal
  | Some ids => exists o', describes o l = AOk o' /\ go_ids o' = go_ids o ++ ids
  end.
Proof. exact described_exact. Qed.
Print Assumptions C122_ids_exact.

(** One of the two always holds. *)
Theorem C122_ids_total : forall o l,
  Forall description_ok l -> exists res, described (names_of o) (map fst (go_ids o)) l res.
Proof. exact described_total. Qed.
Print Assumptions C122_ids_total.

Definition gen1 : gobj := gen_new "/p" "/p/_build" "/p/x" "/p/_build/g".
Definition script1 : list description :=
  [Pattern "src" [Field "current_root_dir"; Lit "/"; Lit "s"];
   Id "one" [[Field "src"; Lit "1"]; [Lit "f"]] [[Field "current_build_dir"; Lit "/"; Lit "o"]] None;
   Pattern "src" [Lit "z"];
   Id "two" [[Field "src"; Lit "{"]] [] None].
Example C122_case :
  Forall description_ok script1 /\
  described (names_of gen1) (map fst (go_ids gen1)) script1
    (Some [("one", GI ["/p/x/s1"; "f"] ["/p/_build/g/o"] None); ("two", GI ["/p/x/s{"] [] None)]) /\
  described (names_of gen1) (map fst (go_ids gen1)) [Id "one" [] [] None; Id "one" [[Lit "f"]] [] None] None /\
  described (names_of gen1) (map fst (go_ids gen1)) [Id "one" [] [[Lit "f"]; [Field "src"]] None; Pattern "src" [Lit "s"]] None.
Proof.
  split; [|split; [|split]].
  - apply (Forall_forall description_ok script1). intros c [<-|[<-|[<-|[<-|[]]]]]; cbn [description_ok].
    + apply tokens_okb_sound. reflexivity.
    + split; (repeat (apply Forall_cons; [apply tokens_okb_sound; reflexivity|])); apply Forall_nil.
    + apply tokens_okb_sound. reflexivity.
    + split; (repeat (apply Forall_cons; [apply tokens_okb_sound; reflexivity|])); apply Forall_nil.
  - eapply described_pattern; [vm_compute; reflexivity|].
    apply (described_id _ _ "one" _ _ None ["/p/x/s1"; "f"] ["/p/_build/g/o"] _ (Some [_])); [intros []| | |].
    { repeat (constructor; [vm_compute; reflexivity|]). constructor. }
    { repeat (constructor; [vm_compute; reflexivity|]). constructor. }
    eapply described_pattern; [vm_compute; reflexivity|].
    apply (described_id _ _ "two" _ _ None ["/p/x/s{"] [] _ (Some [])); [cbn; intuition discriminate| | |].
    { repeat (constructor; [vm_compute; reflexivity|]). constructor. }
    { constructor. }
    constructor.
  - apply (described_id _ _ "one" _ _ None [] [] _ None); [intros []|constructor|constructor|].
    apply described_taken. left. reflexivity.
  - apply described_bad_id. exists [Field "src"]. split; [cbn; auto|vm_compute; reflexivity].
Qed.
