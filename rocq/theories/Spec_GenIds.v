(** What a sequence of calls on a new generator describes. *)
From Verif Require Import Prelude Model_Command Spec_Command Model_Gen Spec_Pattern.

(** The calls a build script makes to describe a generator, with the patterns
    written as tokens. *)
Inductive description :=
| Pattern (k : string) (p : list token)                                    (* AddPattern *)
| Id (id : string) (ins outs : list (list token)) (h : option handler).    (* AddIdInfo *)

Definition description_ok (c : description) : Prop :=
  match c with
  | Pattern _ p => Forall token_ok p
  | Id _ ins outs _ => Forall (Forall token_ok) ins /\ Forall (Forall token_ok) outs
  end.

(** The calls as made on the generator object; the first one that does not return
    ends the script. *)
Definition describe (o : gobj) (c : description) : ares gobj :=
  match c with
  | Pattern k p => add_pattern o k (render p)
  | Id id ins outs h => add_id_info o id (map render ins) (map render outs) h
  end.
Fixpoint describes (o : gobj) (l : list description) : ares gobj :=
  match l with
  | [] => AOk o
  | c :: r => match describe o c with AOk o' => describes o' r | x => x end
  end.

(** [paths] are what [patterns] stand for, one by one. *)
Definition stand_for (val : string -> option string) (patterns : list (list token)) (paths : list string) : Prop :=
  Forall2 (fun p t => expand val p = Some t) patterns paths.
Definition unknown_name (val : string -> option string) (patterns : list (list token)) : Prop :=
  exists p, In p patterns /\ expand val p = None.

(** [described val taken l res]: with the names [val] known and the ids [taken]
    used, the calls [l] give the ids [Some ids], in order, or are refused. *)
Inductive described : (string -> option string) -> list string -> list description -> option (list (string * gid)) -> Prop :=
| described_end val taken : described val taken [] (Some [])
| described_pattern val taken k p v r res :
    expand val p = Some v -> described (naming val k v) taken r res -> described val taken (Pattern k p :: r) res
| described_bad_pattern val taken k p r : expand val p = None -> described val taken (Pattern k p :: r) None
| described_id val taken id ins outs h ins' outs' r res :
    ~ In id taken -> stand_for val ins ins' -> stand_for val outs outs' -> described val (taken ++ [id]) r res ->
    described val taken (Id id ins outs h :: r) (option_map (cons (id, GI ins' outs' h)) res)
| described_taken val taken id ins outs h r : In id taken -> described val taken (Id id ins outs h :: r) None
| described_bad_id val taken id ins outs h r :
    unknown_name val (ins ++ outs) -> described val taken (Id id ins outs h :: r) None.
