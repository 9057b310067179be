(** What the theorems about FileGenerator and TemplateGenerator talk about. *)
From Verif Require Import Prelude Model_Schema Model_Command Model_Target Spec_Target Model_Gen Spec_Gen Model_FileGen.

(** Fewer than 2^32 commands, each shorter than 2^32 bytes. *)
Definition encodable (cs : list string) : Prop :=
  (N.of_nat (length cs) < 4294967296)%N /\ Forall (fun c => (N.of_nat (String.length c) < 4294967296)%N) cs.

(** Commands up to and including the first failing one. [r k]: whether the k-th
    succeeds. *)
Definition in_order (r : nat -> bool) (cs executed : list string) (ok : bool) : Prop :=
  (ok = true /\ executed = cs /\ (forall k, k < length cs -> r k = true)) \/
  (ok = false /\ exists k, k < length cs /\ executed = firstn (S k) cs /\ r k = false /\ forall j, j < k -> r j = true).

(** Blobs of the id "Generate" are equal if they hold the same commands. *)
Definition file_blobs : discipline :=
  fun id => if String.eqb id "Generate" then Some (fun x y => deserialize x = deserialize y) else None.

(** Callbacks end the way the executed commands make them end. *)
Definition file_call (c : gcall) : Prop := exists r, gc_ok c = snd (file_callback r (ga_blob (gc_art c))).

(** The commands given to AddCommand, expanded with the patterns at that point. *)
Fixpoint expansions (f : fgen) (l : list fcall) : list string :=
  match l with
  | [] => []
  | c :: r =>
      match fdo f c with
      | AOk f' =>
          match c with
          | FCommand p args => match construct (go_args (fg_base f)) p args with FOk s => [s] | _ => [] end
          | _ => []
          end ++ expansions f' r
      | _ => []
      end
  end.

(** Callbacks of templates succeed only if the text could be made. *)
Definition template_call (text : string -> N -> string) (c : gcall) : Prop :=
  gc_ok c = true -> template_text text (gc_art c) <> None.
