(** Proofs about the compilation database. *)
From Verif Require Import Prelude Proof_Prelude Model_Path Model_Json Model_Schema Spec_Json Proof_Json Proof_JsonText
  Model_CompileCommands Spec_CompileCommands.

Lemma plain_escape s : plain s -> escape s = s.
Proof.
  induction s as [|c s IH]; [reflexivity|]. intros (A & B & C & D). cbn [escape]. rewrite (IH D). unfold escape_char, byte.
  destruct (N.eqb_spec (N_of_ascii c) 8); [lia|]. destruct (N.eqb_spec (N_of_ascii c) 9); [lia|].
  destruct (N.eqb_spec (N_of_ascii c) 10); [lia|]. destruct (N.eqb_spec (N_of_ascii c) 12); [lia|].
  destruct (N.eqb_spec (N_of_ascii c) 13); [lia|]. destruct (Ascii.eqb_spec c ch_quote) as [E|_]; [destruct (B E)|].
  destruct (Ascii.eqb_spec c ch_bslash) as [E|_]; [destruct (C E)|]. destruct (N.leb_spec (N_of_ascii c) 31); [lia|]. reflexivity.
Qed.

Lemma str_field (s rest : string) k acc key : plain s -> valid_utf8 s ->
  prun (s +++ """" +++ rest) (MStr false "" SPlain, FrObj acc key :: k) = prun rest (MAfter, FrObj (obj_set acc key (JStr s)) key :: k).
Proof.
  intros P U. rewrite <- sapp_assoc, prun_app. rewrite <- (plain_escape s P) at 1. change """"%string with (str1 ch_quote).
  rewrite quoted_run_val by (apply utf8_ok_iff; exact U). reflexivity.
Qed.

Lemma entry_run d c f m k : plain d -> valid_utf8 d -> plain c -> valid_utf8 c -> plain f -> valid_utf8 f -> in_mode m ->
  prun (cc_entry d c f) (m, k) = deliver (db_entry d c f) k.
Proof.
  intros Pd Ud Pc Uc Pf Uf M. unfold cc_entry.
  change (""","%string) with (""""%string +++ ","%string).
  rewrite prun_app.
  assert (E : prun "{" (m, k) = (MKey0, FrObj [] "" :: k)) by (destruct M as [-> | ->]; reflexivity). rewrite E.
  rewrite prun_app. change (prun nl (MKey0, FrObj [] "" :: k)) with (MKey0, FrObj [] "" :: k).
  rewrite prun_app. change (prun "  ""directory"": """ (MKey0, FrObj [] "" :: k)) with (MStr false "" SPlain, FrObj [] "directory" :: k).
  rewrite (sapp_assoc """" ","), str_field by assumption. cbn [obj_set].
  rewrite !(sapp_assoc """" ",").
  rewrite prun_app. rewrite (prun_app nl).
  match goal with |- context [prun nl (prun "," ?x)] => change (prun nl (prun "," x)) with (MKey, FrObj [("directory", JStr d)] "directory" :: k) end.
  rewrite prun_app. change (prun "  ""command"": """ (MKey, FrObj [("directory", JStr d)] "directory" :: k))
    with (MStr false "" SPlain, FrObj [("directory", JStr d)] "command" :: k).
  rewrite str_field by assumption.
  change (obj_set [("directory", JStr d)] "command" (JStr c)) with [("directory"%string, JStr d); ("command"%string, JStr c)].
  rewrite prun_app. rewrite (prun_app nl).
  match goal with |- context [prun nl (prun "," ?x)] => change (prun nl (prun "," x)) with (MKey, FrObj [("directory", JStr d); ("command", JStr c)] "command" :: k) end.
  rewrite prun_app. change (prun "  ""file"": """ (MKey, FrObj [("directory", JStr d); ("command", JStr c)] "command" :: k))
    with (MStr false "" SPlain, FrObj [("directory", JStr d); ("command", JStr c)] "file" :: k).
  rewrite str_field by assumption. reflexivity.
Qed.

Definition easy3 (x : string * string * string) : Prop :=
  let '(d, c, f) := x in plain d /\ valid_utf8 d /\ plain c /\ valid_utf8 c /\ plain f /\ valid_utf8 f.
Definition text3 (x : string * string * string) : string := let '(d, c, f) := x in cc_entry d c f.
Definition json3 (x : string * string * string) : json := let '(d, c, f) := x in db_entry d c f.

Lemma entries_run l : forall x acc m, easy3 x -> Forall easy3 l -> in_mode m ->
  prun (join ("," +++ nl) (map text3 (x :: l)) +++ nl +++ "]") (m, [FrArr acc]) = deliver (JArr (rev acc ++ map json3 (x :: l))) [].
Proof.
  assert (R : forall x m k, easy3 x -> in_mode m -> prun (text3 x) (m, k) = deliver (json3 x) k).
  { intros [[d c] f] m k (A & B & C & D & E & F) M. apply entry_run; assumption. }
  induction l as [|y l IH]; intros x acc m E El M.
  - cbn [map join]. rewrite prun_app, R by assumption. cbn [deliver]. 
    change (prun (nl +++ "]") (MAfter, [FrArr (json3 x :: acc)])) with (deliver (JArr (rev (json3 x :: acc))) []). cbn [rev]. reflexivity.
  - inversion El as [|? ? Ey El']; subst.
    change (map text3 (x :: y :: l)) with (text3 x :: map text3 (y :: l)). rewrite join_cons by discriminate.
    rewrite !sapp_assoc, prun_app, R by assumption. rewrite (prun_app ","), (prun_app nl).
    match goal with |- context [prun nl (prun "," ?z)] => change (prun nl (prun "," z)) with (MVal, [FrArr (json3 x :: acc)]) end.
    rewrite (IH y (json3 x :: acc) MVal Ey El' (or_introl eq_refl)). cbn [rev map]. rewrite <- app_assoc. reflexivity.
Qed.

Lemma list_parse l : Forall easy3 l -> parse_json ("[" +++ nl +++ join ("," +++ nl) (map text3 l) +++ nl +++ "]") = Some (JArr (map json3 l)).
Proof.
  intros F. unfold parse_json. rewrite prun_app, prun_app.
  change (prun nl (prun "[" (MStart, []))) with (MArr0, [FrArr []]).
  destruct l as [|x l]; [reflexivity|]. inversion F as [|? ? Ex El]; subst.
  rewrite (entries_run l x [] MArr0 Ex El (or_intror eq_refl)). reflexivity.
Qed.

Lemma easy_display p : easy_path p -> to_display_string p = to_path_string p.
Proof. intros (A & _). unfold to_display_string. unfold no_blank in A. change ch_space with " "%char. rewrite A. reflexivity. Qed.

Theorem database_parses build ts saves text : easy build ts -> cc_generate build ts saves = CCWrite text ->
  parse_json text = Some (db build ts).
Proof.
  intros [Eb Et] G. unfold cc_generate in G. destruct (existsb cc_built ts); [|discriminate]. destruct saves; [|discriminate].
  injection G as <-. unfold cc_text, db.
  set (l := flat_map (fun t => map (fun src => (to_path_string build, cc_command t src, src)) (cc_sources t)) ts).
  assert (H1 : cc_entries build ts = map text3 l).
  { unfold cc_entries, l. rewrite (easy_display build Eb). clear l. induction ts as [|t ts IH]; [reflexivity|]. cbn [flat_map]. rewrite map_app. f_equal.
    - rewrite map_map. reflexivity.
    - apply IH. intros t' src Ht. apply Et. right. exact Ht. }
  assert (H2 : flat_map (fun t => map (fun src => db_entry (to_path_string build) (cc_command t src) src) (cc_sources t)) ts = map json3 l).
  { unfold l. clear. induction ts as [|t ts IH]; [reflexivity|]. cbn [flat_map]. rewrite map_app, IH, map_map. reflexivity. }
  rewrite H1, H2. apply list_parse. apply Forall_forall. intros x Hx. unfold l in Hx. apply in_flat_map in Hx as (t & Ht & Hx).
  apply in_map_iff in Hx as (src & <- & Hs). destruct (Et t src Ht Hs) as ((P1 & P2) & Q1 & Q2). destruct Eb as (_ & B1 & B2).
  cbn [easy3]. auto 10.
Qed.

Theorem generate_decides build ts saves :
  (cc_generate build ts saves = CCKeep <-> forall t, In t ts -> cc_built t = false) /\
  ((exists text, cc_generate build ts saves = CCWrite text) <-> saves = true /\ exists t, In t ts /\ cc_built t = true).
Proof.
  unfold cc_generate. destruct (existsb cc_built ts) eqn:E.
  - apply existsb_exists in E as (t & T & B). split.
    + destruct saves; (split; [discriminate|]); intros H; rewrite (H t T) in B; discriminate.
    + destruct saves; split; intros H; try (destruct H; discriminate); eauto 6.
  - assert (N : forall t, In t ts -> cc_built t = false).
    { intros t T. destruct (cc_built t) eqn:B; [|reflexivity]. rewrite <- E. symmetry. apply existsb_exists. eauto. }
    split; [tauto|]. split; [intros (x & H); discriminate|]. intros (_ & t & T & B). rewrite (N t T) in B. discriminate.
Qed.
