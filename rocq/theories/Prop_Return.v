(** C113: documents of the Java port that pass through the Python port. *)
From Verif Require Import PyBase Model_Text Model_Heap Model_Layer Model_Types Model_Msgpack Model_Document Model_Codec Model_JUnits Model_JCodec Model_JEncode
  Spec_Layer Spec_Types Spec_Msgpack Spec_Document Spec_Codec Spec_JUnits Spec_JCodec Spec_JEncode Spec_Return Proof_Codec6 Proof_Layer4 Proof_Return Prop_JEncode.
Local Open Scope Z_scope.

(** What Python reads is a valid document of its own, and it writes the very bytes that Java wrote. *)
Theorem C113_same_bytes : forall j bytes rest h0 ex tv, jdoc_ok j -> no_extension j -> java_rereadable j -> single_args j -> no_empty_text j -> java_encode j = Ok bytes -> wf h0 ->
  exists h2 d h3, msgpack_decode h0 (bytes ++ rest) = (h2, Ok d) /\ python_doc j h2 d /\ doc_valid h2 d /\ msgpack_encode h2 d ex tv = (h3, Ok bytes).
Proof. exact there_again. Qed.
Print Assumptions C113_same_bytes.

(** The document that Python has read is valid whatever lists and texts are empty. *)
Theorem C113_valid : forall j h d, jdoc_ok j -> no_extension j -> python_doc j h d -> wf h -> known h d -> doc_valid h d.
Proof. exact python_valid. Qed.
Print Assumptions C113_valid.

Lemma sample_j_single : single_args sample_j.
Proof.
  intros k fs rows f t o b I1 I2 I3. cbn in I1. destruct I1 as [E|[E|[]]]; injection E as <- <- <-; cbn in I2; repeat (destruct I2 as [E|I2]; [injection E as <- <-; cbn in I3; repeat (destruct I3 as [E|I3]; [discriminate|]); destruct I3|]); destruct I2.
Qed.
Example C113_case : jdoc_ok sample_j /\ no_extension sample_j /\ java_rereadable sample_j /\ single_args sample_j /\ no_empty_text sample_j /\ wf empty_heap /\
  match java_encode sample_j with
  | Ok bytes => zlen bytes = 201 /\ match msgpack_decode empty_heap bytes with (h2, Ok d) => d_texts d = [(s "main", sample_text)] /\ snd (msgpack_encode h2 d false true) = Ok bytes | _ => False end
  | Err _ => False
  end.
Proof.
  split; [exact sample_j_ok|]. split; [exact sample_j_plain|]. split; [exact sample_j_again|]. split; [exact sample_j_single|]. split; [intros c u [[= <- <-]|[]]; discriminate|]. split; [exact wf_empty|]. vm_compute. split; [reflexivity|]. split; reflexivity.
Qed.

(** With an empty text, or a node that has a list of no nodes, Python writes other bytes. *)
Definition python_again (j : jdoc) : res (list N) :=
  let* b := java_encode j in
  match msgpack_decode empty_heap b with (h2, Ok d) => snd (msgpack_encode h2 d false true) | (_, Err e) => Err e end.
Lemma one_empty_text : jdoc_ok (mkJDoc [] [(s "main", [])] []).
Proof.
  split; [split; [constructor|intros k v []]| |constructor|intros k fs rows []|intros k fs rows row f t v []].
  split; [repeat constructor; simpl; tauto|]. intros c u [[= <- <-]|[]]. exists []. split; [reflexivity|constructor].
Qed.
Theorem C113_other_bytes_refuted :
  (exists j b b', jdoc_ok j /\ no_empty_text j /\ java_encode j = Ok b /\ python_again j = Ok b' /\ java_decode b = Err ValueError /\
     java_decode b' = Ok (mkJDoc [] [] [(s "x", ([(s "f", mkJT (JT TNodeRefMany) [(s "layer", JStr (s "x"))])], [[]]))])) /\
  (exists j b b', jdoc_ok j /\ java_rereadable j /\ java_encode j = Ok b /\ python_again j = Ok b' /\ zlen b' + 1 = zlen b).
Proof.
  split.
  - eexists (one_field (mkJT (JT TNodeRefMany) [(s "layer", JStr (s "x"))]) (JNodes (s "x") [])), _, _. split; [exact one_empty|]. split; [intros c u []|]. split; [vm_compute; reflexivity|]. split; [vm_compute; reflexivity|]. split; vm_compute; reflexivity.
  - eexists (mkJDoc [] [(s "main", [])] []), _, _. split; [exact one_empty_text|]. split; [intros k fs rows row f t v []|]. split; [vm_compute; reflexivity|]. split; vm_compute; reflexivity.
Qed.
Print Assumptions C113_other_bytes_refuted.
