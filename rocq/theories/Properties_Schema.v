(** C16 - C20: the stored state. *)
From Verif Require Import Prelude Model_Json Model_Schema Spec_Json Proof_Json Proof_Schema.

(** A schema used by the examples: awkward characters, an undefined type and a
    two-byte character. *)
Definition sample : tschema :=
  TS "n""\/" TUndefined
     [PI "/r/a b.cpp" "12"; PI (String "195" (String "169" ".c")) ""] [] [PI "/r/p.h" "7"] []
     ["-lm"] ["/r/inc"] [] [String "010" (String "001" "x")] [] ["{x}"] [] [] [] [] ["-s"]
     [PI "/r/d" "0"] [] true false.
Definition gsample : gschema :=
  GS "gen" [("id1", II [PI "/r/i" "1"] ["/r/o"] [0; 255]%N); ("id2", II [] [] [])].

(** C16 *)
Theorem C16_target_value_roundtrip : forall s : tschema,
  target_from_json (target_to_json s) = Some s.
Proof. exact target_value_rt. Qed.
Print Assumptions C16_target_value_roundtrip.

Example C16_case : target_from_json (target_to_json sample) = Some sample.
Proof. vm_compute. reflexivity. Qed.

(** C17: the same ids with the same contents, in any iteration order of the map
    (the order of [gs_ids] is that order). *)
Theorem C17_generator_value_roundtrip : forall (real_u8 : string -> N) (s : gschema),
  gen_ok s -> gen_from_json real_u8 (gen_to_json s) = Some s.
Proof. exact gen_value_rt. Qed.
Print Assumptions C17_generator_value_roundtrip.

Example C17_case : gen_ok gsample.
Proof. split; repeat constructor; cbn; intuition discriminate. Qed.

(** C18: storing succeeds exactly for valid UTF-8, and reads back unchanged. *)
Theorem C18_store_iff_utf8 : forall s : tschema,
  (exists t, store_text s = Some t) <-> Forall valid_utf8 (target_strings s).
Proof. exact store_text_iff. Qed.
Print Assumptions C18_store_iff_utf8.

Theorem C18_target_text_roundtrip : forall (s : tschema) (t : string),
  store_text s = Some t -> load_text t = Some s.
Proof. exact target_text_rt. Qed.
Print Assumptions C18_target_text_roundtrip.

Theorem C18_generator_store_iff_utf8 : forall s : gschema,
  (exists t, gen_store_text s = Some t) <-> Forall valid_utf8 (gen_strings s).
Proof. exact gen_store_text_iff. Qed.
Print Assumptions C18_generator_store_iff_utf8.

Theorem C18_generator_text_roundtrip : forall (real_u8 : string -> N) (s : gschema) (t : string),
  gen_ok s -> gen_store_text s = Some t -> gen_load_text real_u8 t = Some s.
Proof. exact gen_text_rt. Qed.
Print Assumptions C18_generator_text_roundtrip.

Example C18_case :
  match store_text sample with Some t => load_text t = Some sample | None => False end /\
  match gen_store_text gsample with Some _ => True | None => False end /\
  store_text (TS (String "255" "") TUndefined [] [] [] [] [] [] [] [] [] [] [] [] [] [] [] [] [] false false)
  = None.
Proof. vm_compute. repeat split. Qed.

(** C19: no strict prefix of the stored text loads. *)
Theorem C19_truncated_target_rejected : forall (s : tschema) (t p : string),
  store_text s = Some t -> strict_prefix p t -> load_text p = None.
Proof. exact target_prefix. Qed.
Print Assumptions C19_truncated_target_rejected.

Theorem C19_truncated_generator_rejected :
  forall (real_u8 : string -> N) (s : gschema) (t p : string),
  gen_ok s -> gen_store_text s = Some t -> strict_prefix p t -> gen_load_text real_u8 p = None.
Proof. exact gen_prefix. Qed.
Print Assumptions C19_truncated_generator_rejected.

Example C19_case :
  match store_text sample with
  | Some (String c r) => strict_prefix (String c "") (String c r)
  | _ => False
  end.
Proof.
  destruct (store_text sample) as [[|c r]|] eqn:E; [vm_compute in E; discriminate| |vm_compute in E; discriminate].
  exists r. split; [|reflexivity]. intros ->. vm_compute in E. discriminate.
Qed.

(** C20: loading succeeds exactly if all the fields are there with their shapes. *)
Theorem C20_accepted_iff_all_fields : forall j : json,
  (exists s, target_from_json j = Some s) <->
  Forall (fun ks => exists v, member j (fst ks) = Some v /\ has_shape (snd ks) v) target_fields.
Proof. exact target_from_json_iff. Qed.
Print Assumptions C20_accepted_iff_all_fields.

(** The result depends only on the members with the 21 known keys: not on other
    members and not on the order of members. *)
Theorem C20_only_known_keys : forall j j' : json,
  (forall k, In k target_keys -> member j k = member j' k) ->
  target_from_json j = target_from_json j'.
Proof. exact target_from_json_ext. Qed.
Print Assumptions C20_only_known_keys.

(** LoadFromFile replaces the loaded state completely or not at all. *)
Theorem C20_load_atomic : forall (st : tschema * bool) (file : option string),
  let r := load_from_file load_text st file in
  (snd r = true /\ exists t, file = Some t /\ load_text t = Some (fst (fst r)) /\ snd (fst r) = true)
  \/ (snd r = false /\ fst (fst r) = fst st /\ (file = None \/ snd (fst r) = false)).
Proof. exact load_atomic. Qed.
Print Assumptions C20_load_atomic.

Example C20_case :
  (match target_to_json sample with
   | JObj l => target_from_json (JObj (("extra", JNull) :: rev l)) = Some sample /\
               target_from_json (JObj (tl l)) = None /\
               target_from_json (JObj (("headers", JArr [JStr "x"]) :: l)) = None
   | _ => False end).
Proof. vm_compute. repeat split. Qed.
