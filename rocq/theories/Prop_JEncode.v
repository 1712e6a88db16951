(** Property C99: what the Java port writes, the Python port reads as the same document, and so does the Java port itself except for bytes and empty arrays of nodes. *)
From Verif Require Import PyBase PyBaseFacts Model_Text Model_Heap Model_Layer Model_Types Model_Msgpack Model_Document Model_Codec Model_JUnits Model_JStream Model_JText Model_JCodec Model_JEncode
  Spec_Layer Spec_Types Spec_Msgpack Spec_Document Spec_Codec Spec_JUnits Spec_JCodec Spec_JEncode Proof_Layer4 Proof_JEncode3 Proof_JEncode4.
Local Open Scope Z_scope.

(** Whatever follows the bytes, and whatever exists already, Python reads the same document. *)
Theorem C99_python_reads : forall j bytes rest h0, jdoc_ok j -> no_extension j -> java_encode j = Ok bytes -> wf h0 ->
  exists h2 d, msgpack_decode h0 (bytes ++ rest) = (h2, Ok d) /\ python_doc j h2 d /\ wf h2 /\ untouched h0 h2 /\ known h2 d /\ (wf_keys h0 -> wf_keys h2).
Proof. exact python_reads. Qed.
Print Assumptions C99_python_reads.

(** Java reads it again, with the smallest class for a number among the properties. *)
Theorem C99_java_again : forall j bytes rest, jdoc_ok j -> java_rereadable j -> java_encode j = Ok bytes ->
  exists k, java_decode (bytes ++ rest) = Ok k /\ doc_again j k.
Proof. exact java_again. Qed.
Print Assumptions C99_java_again.

(** A document with a text outside the basic plane: "a", U+1F600, "b" *)
Definition sample_text : pystr := [97; 128512; 98]%N.
Definition to_token (tn : tname) : jdtype := mkJT (JT tn) [(s "layer", JStr (s "token"))].
Definition sample_phrases : dict jdtype * list (dict jv) :=
  ([(s "words", to_token TNodeRefSpan); (s "args", to_token TNodeRefMany); (s "head", to_token TNodeRef)],
   [[(s "words", JNodeSpan (s "token") 0 1); (s "args", JNodes (s "token") [1; 0]%nat); (s "head", JNode (s "token") 1)]]).
Definition sample_tokens : dict jdtype * list (dict jv) :=
  ([(s "text", mkJT (JT TSpan) [(s "context", JStr (s "main"))]); (s "pos", mkJT (JT TString) [])],
   [[(s "text", JSpan (s "main") 0 1); (s "pos", JStr (s "N"))]; [(s "text", JSpan (s "main") 1 3)]]).
Definition sample_j : jdoc :=
  mkJDoc [(s "n", JLong 5); (s "title", JStr (s "t"))] [(s "main", utf16 sample_text)] [(s "phrase", sample_phrases); (s "token", sample_tokens)].
Lemma sample_main : holds_text sample_j (s "main") sample_text.
Proof. split; [reflexivity|]. unfold sample_text. repeat constructor; lia. Qed.
Lemma sample_token p : (p < 2)%nat -> has_node sample_j (s "token") p.
Proof. intros H. exists (fst sample_tokens), (snd sample_tokens). split; [reflexivity|exact H]. Qed.
Lemma token_ok tn : tn <> TUnknown -> tn <> TSpan -> tn <> TExt -> jtype_ok sample_j (to_token tn).
Proof.
  intros H1 H2 H3. split.
  - exists tn. auto.
  - intros _. exists (s "token"). split; [reflexivity|simpl; auto].
  - intros [= E]. contradiction.
  - intros [= E]. contradiction.
  - split; [repeat constructor; simpl; tauto|]. intros k v [[= <- <-]|[]]. constructor.
Qed.
Lemma sample_j_ok : jdoc_ok sample_j.
Proof.
  assert (K1 : jtype_ok sample_j (mkJT (JT TSpan) [(s "context", JStr (s "main"))])).
  { split; [exists TSpan; split; [reflexivity|discriminate]|intros H; exfalso; simpl in H; intuition discriminate| | |].
    - intros _. exists (s "main"). split; [reflexivity|simpl; auto].
    - discriminate.
    - split; [repeat constructor; simpl; tauto|]. intros k v [[= <- <-]|[]]. constructor. }
  assert (K2 : jtype_ok sample_j (mkJT (JT TString) [])).
  { split; [exists TString; split; [reflexivity|discriminate]|intros H; exfalso; simpl in H; intuition discriminate|discriminate|discriminate|]. split; [constructor|intros k v []]. }
  split.
  - split; [repeat constructor; vm_compute; intuition discriminate|]. intros k v [[= <- <-]|[[= <- <-]|[]]]; constructor. unfold long_range. lia.
  - split; [repeat constructor; simpl; tauto|]. intros c u [[= <- <-]|[]]. exists sample_text. exact sample_main.
  - repeat constructor; vm_compute; intuition discriminate.
  - intros k fs rows [[= <- <- <-]|[[= <- <- <-]|[]]]; (split; [repeat constructor; vm_compute; intuition discriminate|]; split; [reflexivity|]); intros f t Hin.
    + destruct Hin as [[= <- <-]|[[= <- <-]|[[= <- <-]|[]]]]; apply token_ok; discriminate.
    + destruct Hin as [[= <- <-]|[[= <- <-]|[]]]; assumption.
  - intros k fs rows row f t v [[= <- <- <-]|[[= <- <- <-]|[]]] Hr Hf Hv.
    + destruct Hr as [<-|[]]. destruct Hf as [[= <- <-]|[[= <- <-]|[[= <- <-]|[]]]]; vm_compute in Hv; injection Hv as <-.
      * apply jy_nodespan; [reflexivity|reflexivity|lia|apply sample_token; lia].
      * apply jy_nodes; [reflexivity|reflexivity|]. repeat constructor; apply sample_token; lia.
      * apply jy_node; [reflexivity|reflexivity|apply sample_token; lia].
    + destruct Hr as [<-|[<-|[]]]; (destruct Hf as [[= <- <-]|[[= <- <-]|[]]]; vm_compute in Hv; try discriminate Hv; injection Hv as <-).
      * apply (jy_span sample_j _ (s "main") sample_text 0 1); [reflexivity|reflexivity|exact sample_main|lia|vm_compute; discriminate].
      * apply jy_str. reflexivity.
      * apply (jy_span sample_j _ (s "main") sample_text 1 2); [reflexivity|reflexivity|exact sample_main|lia|vm_compute; discriminate].
Qed.
Lemma sample_j_plain : no_extension sample_j.
Proof. intros k fs rows f t [[= <- <- <-]|[[= <- <- <-]|[]]] Hin; repeat (destruct Hin as [[= <- <-]|Hin]; [discriminate|]); destruct Hin. Qed.
Lemma sample_j_again : java_rereadable sample_j.
Proof.
  intros k fs rows row f t v [[= <- <- <-]|[[= <- <- <-]|[]]] Hr Hf Hv; repeat (destruct Hr as [<-|Hr]; [repeat (destruct Hf as [[= <- <-]|Hf]; [vm_compute in Hv; try discriminate Hv; injection Hv as <-; reflexivity|]); destruct Hf|]); destruct Hr.
Qed.
Definition same_as_sample (k : jdoc) : Prop :=
  jd_props k = [(s "n", JInt 5); (s "title", JStr (s "t"))] /\ jd_texts k = jd_texts sample_j /\ jd_layers k = jd_layers sample_j.
Example C99_case : jdoc_ok sample_j /\ no_extension sample_j /\ java_rereadable sample_j /\ match java_encode sample_j with
  | Ok bytes => zlen bytes = 201 /\ match java_decode bytes with Ok k => same_as_sample k | Err _ => False end /\
      match msgpack_decode empty_heap bytes with
      | (h, Ok d) => d_texts d = [(s "main", sample_text)] /\ d_layers d = [(s "phrase", 0%nat); (s "token", 1%nat)] /\
          n_fieldsof h 0%nat = [(s "words", VNodeSpan 1%nat 2%nat); (s "args", VNodeList [Some 2%nat; Some 1%nat]); (s "head", VNode 2%nat)] /\
          n_fieldsof h 1%nat = [(s "text", VSpan (s "main") sample_text 0 1); (s "pos", VStr (s "N"))] /\
          n_fieldsof h 2%nat = [(s "text", VSpan (s "main") sample_text 1 2)]
      | _ => False
      end
  | Err _ => False
  end.
Proof. split; [exact sample_j_ok|]. split; [exact sample_j_plain|]. split; [exact sample_j_again|]. vm_compute. repeat split. Qed.

(** Not every document comes back to Java: values that are well typed but written in a form the reader refuses ... *)
Definition one_field (t : jdtype) (v : jv) : jdoc := mkJDoc [] [] [(s "x", ([(s "f", t)], [[(s "f", v)]]))].
Definition java_round (j : jdoc) : res jdoc := let* b := java_encode j in java_decode b.
Lemma one_binary : jdoc_ok (one_field (mkJT (JT TBinary) []) (JBin [1; 2]%N)).
Proof.
  split.
  - split; [constructor|intros k v []].
  - split; [constructor|intros c u []].
  - repeat constructor; simpl; tauto.
  - intros k fs rows [[= <- <- <-]|[]]. split; [repeat constructor; simpl; tauto|]. split; [reflexivity|]. intros f t [[= <- <-]|[]].
    split; [exists TBinary; split; [reflexivity|discriminate]|intros H; exfalso; simpl in H; intuition discriminate|discriminate|discriminate|]. split; [constructor|intros k v []].
  - intros k fs rows row f t v [[= <- <- <-]|[]] [<-|[]] [[= <- <-]|[]] Hv. vm_compute in Hv. injection Hv as <-. apply jy_bin; [reflexivity|repeat constructor].
Qed.
Lemma one_empty : jdoc_ok (one_field (mkJT (JT TNodeRefMany) [(s "layer", JStr (s "x"))]) (JNodes (s "x") [])).
Proof.
  split.
  - split; [constructor|intros k v []].
  - split; [constructor|intros c u []].
  - repeat constructor; simpl; tauto.
  - intros k fs rows [[= <- <- <-]|[]]. split; [repeat constructor; simpl; tauto|]. split; [reflexivity|]. intros f t [[= <- <-]|[]].
    split; [exists TNodeRefMany; split; [reflexivity|discriminate]|intros _; exists (s "x"); split; [reflexivity|simpl; auto]|discriminate|discriminate|].
    split; [repeat constructor; simpl; tauto|]. intros k v [[= <- <-]|[]]. constructor.
  - intros k fs rows row f t v [[= <- <- <-]|[]] [<-|[]] [[= <- <-]|[]] Hv. vm_compute in Hv. injection Hv as <-. apply jy_nodes; [reflexivity|reflexivity|constructor].
Qed.
Theorem C99_java_all_refuted :
  (exists j bytes, jdoc_ok j /\ java_encode j = Ok bytes /\ java_decode bytes = Err TypeError) /\
  (exists j bytes, jdoc_ok j /\ java_encode j = Ok bytes /\ java_decode bytes = Err ValueError) /\
  (exists j k, jdoc_ok j /\ java_round j = Ok k /\ jd_props j = [(s "n", JLong 5); (s "title", JStr (s "t"))] /\ jd_props k = [(s "n", JInt 5); (s "title", JStr (s "t"))]).
Proof.
  split; [|split].
  - eexists _, _. split; [exact one_binary|]. split; [vm_compute; reflexivity|]. vm_compute. reflexivity.
  - eexists _, _. split; [exact one_empty|]. split; [vm_compute; reflexivity|]. vm_compute. reflexivity.
  - eexists sample_j, _. split; [exact sample_j_ok|]. split; [vm_compute; reflexivity|]. split; [reflexivity|vm_compute; reflexivity].
Qed.
Print Assumptions C99_java_all_refuted.

(** ... and documents that are not what they declare, which encode does not refuse. *)
(** The target of a field that refers to a span of nodes is not checked. *)
Definition dangling : jdoc := mkJDoc [] [] [(s "x", ([(s "f", mkJT (JT TNodeRefSpan) [(s "layer", JStr (s "y"))])], [[(s "f", JNodeSpan (s "y") 0 1)]]))].
(** A span among the properties is written as two numbers. *)
Definition span_prop : jdoc := mkJDoc [(s "p", JSpan (s "main") 0 1)] [(s "main", s "ab")] [(s "x", ([(s "f", mkJT (JT TSpan) [(s "context", JStr (s "main"))])], [[(s "f", JSpan (s "main") 0 1)]]))].
(** A value of a field that the layer does not declare is not written. *)
Definition undeclared : jdoc := mkJDoc [] [] [(s "x", ([], [[(s "g", JInt 1)]]))].
(** A value of another type than the declared one is written as it is. *)
Definition mistyped : jdoc := one_field (mkJT (JT TI32) []) (JStr (s "one")).
Theorem C99_unchecked_refuted :
  (exists bytes, java_encode dangling = Ok bytes /\ java_decode bytes = Err AttributeError) /\
  (exists bytes, java_encode span_prop = Ok bytes /\ forall k, java_decode bytes <> Ok k) /\
  (exists k, java_round undeclared = Ok k /\ jd_layers k = [(s "x", ([], [[]]))]) /\
  (exists bytes, java_encode mistyped = Ok bytes /\ java_decode bytes = Err TypeError).
Proof.
  split; [|split; [|split]].
  - eexists. split; [vm_compute; reflexivity|]. vm_compute. reflexivity.
  - eexists. split; [vm_compute; reflexivity|]. vm_compute. discriminate.
  - eexists. split; [vm_compute; reflexivity|]. vm_compute. reflexivity.
  - eexists. split; [vm_compute; reflexivity|]. vm_compute. reflexivity.
Qed.
Print Assumptions C99_unchecked_refuted.
