(** C48: compile_commands.json. *)
From Verif Require Import Prelude Model_Path Model_Json Spec_Json Model_CompileCommands Spec_CompileCommands Proof_CompileCommands.

(** As long as the build directory, the sources and the commands contain nothing
    to be escaped, and the build directory no blank, the file is a JSON array with exactly
    one object per source. *)
Theorem C48_valid_json_partial : forall (build : string) (ts : list cc_target) (saves : bool) (text : string),
  easy build ts -> cc_generate build ts saves = CCWrite text -> parse_json text = Some (db build ts).
Proof. exact database_parses. Qed.
Print Assumptions C48_valid_json_partial.

(** Without that restriction it is not even JSON: a blank in the build
    directory ... *)
Theorem C48_blank_refuted : exists build ts text,
  cc_generate build ts true = CCWrite text /\ parse_json text = None.
Proof.
  exists "/home/me/my project"%string, [CCT true ["/src/a.c"] (fun _ => "gcc -c /src/a.c")]. eexists.
  split; [reflexivity|]. vm_compute. reflexivity.
Qed.
Print Assumptions C48_blank_refuted.

(** ... or a string macro among the flags; a backslash is silently changed. *)
Theorem C48_quote_refuted : exists build ts text,
  easy_path build /\ (forall t src, In t ts -> In src (cc_sources t) -> easy_path src) /\
  cc_generate build ts true = CCWrite text /\ parse_json text = None.
Proof.
  exists "/out"%string, [CCT true ["/src/a.c"] (fun _ => "gcc -DNAME=""x"" -c /src/a.c")]. eexists. split; [|split].
  - split; [reflexivity|]. split; [cbn; repeat split; discriminate|]. apply Proof_Json.utf8_ok_iff. reflexivity.
  - intros t src [<-|[]] [<-|[]]. split; [reflexivity|]. split; [cbn; repeat split; discriminate|]. apply Proof_Json.utf8_ok_iff. reflexivity.
  - split; [reflexivity|]. vm_compute. reflexivity.
Qed.
Print Assumptions C48_quote_refuted.
Theorem C48_backslash_refuted : exists build ts text j,
  cc_generate build ts true = CCWrite text /\ parse_json text = Some j /\ j <> db build ts.
Proof.
  exists "/out"%string, [CCT true ["/src/a.c"] (fun _ => "gcc -DNAME=\n -c /src/a.c")]. eexists. eexists.
  split; [reflexivity|]. split; [vm_compute; reflexivity|]. vm_compute. discriminate.
Qed.
Print Assumptions C48_backslash_refuted.

(** The file is written iff some target was built. *)
Theorem C48_written_iff_built : forall (build : string) (ts : list cc_target) (saves : bool),
  (cc_generate build ts saves = CCKeep <-> forall t, In t ts -> cc_built t = false) /\
  ((exists text, cc_generate build ts saves = CCWrite text) <-> saves = true /\ exists t, In t ts /\ cc_built t = true).
Proof. exact generate_decides. Qed.
Print Assumptions C48_written_iff_built.

Definition cc0 : list cc_target :=
  [CCT false ["/src/a.c"; "/src/my b.c"] (fun s => "gcc -c " +++ s); CCT true [] (fun _ => ""); CCT true ["/src/c.cpp"] (fun _ => "g++")].
Example C48_case : easy "/out/./x" cc0 /\ exists text, cc_generate "/out/./x" cc0 true = CCWrite text /\
  parse_json text = Some (JArr [db_entry "/out/x" "gcc -c /src/a.c" "/src/a.c"; db_entry "/out/x" "gcc -c /src/my b.c" "/src/my b.c"; db_entry "/out/x" "g++" "/src/c.cpp"]).
Proof.
  split.
  - split.
    + split; [reflexivity|]. split; [cbn; repeat split; discriminate|]. apply Proof_Json.utf8_ok_iff. reflexivity.
    + intros t src Ht Hs. cbn in Ht. destruct Ht as [<-|[<-|[<-|[]]]]; cbn in Hs; repeat (destruct Hs as [<-|Hs]); try (destruct Hs; fail);
        (split; [split; [cbn; repeat split; discriminate|apply Proof_Json.utf8_ok_iff; reflexivity]|]);
        (split; [cbn; repeat split; discriminate|apply Proof_Json.utf8_ok_iff; reflexivity]).
  - eexists. split; [reflexivity|]. vm_compute. reflexivity.
Qed.
