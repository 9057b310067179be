(** C26, C27: command construction. *)
From Verif Require Import Prelude Model_Command Spec_Command Proof_Command.

(** C26: a pattern of literal text and {name} fields is expanded exactly; a
    field without an argument is fatal ([to_fres None = FErr]). *)
Theorem C26_construct_expands : forall (c : command) (l : list token) (args : list (string * string)),
  Forall token_ok l ->
  construct c (render l) args = to_fres (expand (fun k => first_value k (c ++ args)) l).
Proof. exact construct_render. Qed.
Print Assumptions C26_construct_expands.

(** Only such patterns are accepted, and the result is the expansion. *)
Theorem C26_construct_ok_iff : forall (c : command) (p : string) (args : list (string * string)) (t : string),
  construct c p args = FOk t <->
  exists l, Forall token_ok l /\ p = render l /\
            expand (fun k => first_value k (c ++ args)) l = Some t.
Proof. exact construct_ok_iff. Qed.
Print Assumptions C26_construct_ok_iff.

(** The expansion depends only on the fields the pattern mentions. *)
Theorem C26_only_mentioned_fields : forall (f g : string -> option string) (l : list token),
  (forall n, In n (field_names l) -> f n = g n) -> expand f l = expand g l.
Proof. exact expand_ext. Qed.
Print Assumptions C26_only_mentioned_fields.

(** The iteration order of the two hash maps does not matter. *)
Theorem C26_order_independent :
  forall (c c' : command) (p : string) (args args' : list (string * string)),
  NoDup (map fst c) -> NoDup (map fst args) -> Permutation c c' -> Permutation args args' ->
  construct c p args = construct c' p args'.
Proof. exact construct_perm. Qed.
Print Assumptions C26_order_independent.

Example C26_case :
  let p := "{compiler} {{x}} -o {output}" in
  Forall token_ok [Field "compiler"; Lit "{"; Lit "x"; Lit "}"; Field "out_1"] /\
  construct [("compiler", "g++")] p [("output", "{compiler}.o")] = FOk "g++ {x} -o {compiler}.o" /\
  construct [] p [("output", "a.o")] = FErr /\
  NoDup (map fst [("compiler", "g++"); ("output", "a.o")]).
Proof.
  split.
  - apply tokens_okb_sound. reflexivity.
  - repeat split; repeat constructor; cbn; intuition discriminate.
Qed.

(** C27: the first value given for a key is the one used by
    GetDefaultValueByKey, for ever; a key never given is fatal. *)
Theorem C27_first_default_wins : forall (h : list call) (k : string),
  get_default_value (after_calls h) k =
  match first_value k (given h) with Some v => Ok v | None => Fatal end.
Proof. exact get_default_spec. Qed.
Print Assumptions C27_first_default_wins.

(** Construct uses the first default value, before the call's own arguments. *)
Theorem C27_construct_uses_first : forall (h : list call) (l : list token) (args : list (string * string)),
  Forall token_ok l ->
  construct (after_calls h) (render l) args =
  to_fres (expand (fun k => first_value k (given h ++ args)) l).
Proof. exact construct_after_calls. Qed.
Print Assumptions C27_construct_uses_first.

(** The stored defaults never hold two values for one key. *)
Theorem C27_defaults_nodup : forall h : list call, NoDup (map fst (after_calls h)).
Proof. exact after_calls_nodup. Qed.
Print Assumptions C27_defaults_nodup.

Example C27_case :
  let h := [CallAddOne "k" "1"; CallAddMany [("j", "2"); ("k", "3")]; CallAddOne "j" "4"] in
  get_default_value (after_calls h) "k" = Ok "1" /\ get_default_value (after_calls h) "j" = Ok "2" /\
  get_default_value (after_calls h) "z" = Fatal /\
  construct (after_calls h) "{k}{z}" [("k", "9"); ("z", "8")] = FOk "18".
Proof. repeat split. Qed.
