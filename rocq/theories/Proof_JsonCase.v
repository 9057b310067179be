From Verif Require Import Prelude Model_Json Model_Schema Spec_Json Proof_Json Proof_Schema Spec_JsonText Proof_JsonRead3.

Lemma rewritten_target s t v t' : store_text s = Some t -> json_text t v -> json_text t' v -> load_text t' = Some s.
Proof.
  intros S T T'. pose proof (target_text_rt s t S) as L. apply parse_exact in T, T'. unfold load_text in *. rewrite T in L. rewrite T'. exact L.
Qed.
Lemma rewritten_generator u8 s t v t' : gen_ok s -> gen_store_text s = Some t -> json_text t v -> json_text t' v -> gen_load_text u8 t' = Some s.
Proof.
  intros G S T T'. pose proof (gen_text_rt u8 s t G S) as L. apply parse_exact in T, T'. unfold gen_load_text in *. rewrite T in L. rewrite T'. exact L.
Qed.
Lemma accepted_iff t :
  (exists s, load_text t = Some s) <->
  (exists v, json_text t v /\ forall k sh, In (k, sh) target_fields -> exists x, member v k = Some x /\ has_shape sh x).
Proof.
  unfold load_text. split.
  - intros (s & L). destruct (parse_json t) as [v|] eqn:P; [|discriminate]. exists v. split; [apply parse_exact, P|].
    intros k sh I. pose proof (proj1 (target_from_json_iff v) (ex_intro _ s L)) as F. rewrite Forall_forall in F. exact (F _ I).
  - intros (v & T & H). apply parse_exact in T. rewrite T. cbn [bind]. apply target_from_json_iff, Forall_forall. intros [k sh] I. exact (H k sh I).
Qed.

(** An e with an accent, and a character outside of the basic plane, with and without escapes. *)
Definition odd_string : string := String "195" (String "169" (String "240" (String "159" (String "152" (String "128" "/"))))).
Definition odd_text : string :=
  byte_order_mark +++ "  { ""a"" :" +++ str1 "010" +++ " [ 1 , -20.5e+3 ] , ""b"":{ }, ""a"" :null,""b"" :  [ ""\u00e9\uD83d\ude00\/"" ,-7 , true ]}  ".
Definition plain_text : string := "{""a"":null,""b"":[""" +++ odd_string +++ """,-7,true]}".
Definition odd_value : json := JObj [("a", JNull); ("b", JArr [JStr odd_string; JInt (-7); JBool true])].
Lemma json_case :
  json_text odd_text odd_value /\ json_text plain_text odd_value /\ odd_text <> plain_text /\
  (forall v, ~ json_text "[1,]" v) /\ (forall v, ~ json_text "{""a"":01}" v).
Proof.
  split; [apply parse_exact; vm_compute; reflexivity|]. split; [apply parse_exact; vm_compute; reflexivity|]. split; [vm_compute; discriminate|].
  split; intros v T; apply parse_exact in T; vm_compute in T; discriminate.
Qed.
