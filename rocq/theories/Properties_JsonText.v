(** C123: which texts are read from the state files, and as what. *)
From Verif Require Import Prelude Model_Json Model_Schema Spec_Json Proof_Json Proof_Schema Spec_JsonText Proof_JsonRead3 Proof_JsonCase.

(** C123: a text is read as a value iff the grammar of JSON says so; any layout, any
    escapes, members in any number. *)
Theorem C123_reads_exactly : forall t v, parse_json t = Some v <-> json_text t v.
Proof. exact parse_exact. Qed.
Print Assumptions C123_reads_exactly.

(** A stored file written anew by another program is read as what was stored. *)
Theorem C123_rewritten_target : forall s t v t',
  store_text s = Some t -> json_text t v -> json_text t' v -> load_text t' = Some s.
Proof. exact rewritten_target. Qed.
Print Assumptions C123_rewritten_target.

Theorem C123_rewritten_generator : forall real_u8 s t v t',
  gen_ok s -> gen_store_text s = Some t -> json_text t v -> json_text t' v -> gen_load_text real_u8 t' = Some s.
Proof. exact rewritten_generator. Qed.
Print Assumptions C123_rewritten_generator.

(** Exactly the JSON texts with all the expected fields are accepted. *)
Theorem C123_accepted_iff : forall t,
  (exists s, load_text t = Some s) <->
  (exists v, json_text t v /\ forall k sh, In (k, sh) target_fields -> exists x, member v k = Some x /\ has_shape sh x).
Proof. exact accepted_iff. Qed.
Print Assumptions C123_accepted_iff.

(** The same value, written in two ways: with line breaks, a byte order mark and
    escapes; without any. *)
Example C123_case :
  json_text odd_text odd_value /\ json_text plain_text odd_value /\ odd_text <> plain_text /\
  (forall v, ~ json_text "[1,]" v) /\ (forall v, ~ json_text "{""a"":01}" v).
Proof. exact json_case. Qed.
