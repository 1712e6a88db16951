(** C58 and C59: the XML tree of a document. *)
From Verif Require Import PyBase Model_Text Model_Heap Model_Layer Model_Types Model_Msgpack Model_Document Model_Codec
  Spec_Layer Spec_History Spec_Types Spec_Document Spec_Codec Spec_XmlString Spec_Xml Proof_History Proof_Xml Proof_Xml2 Proof_Xml3 Prop_Document Prop_Codec.
Local Open Scope Z_scope.

(** ** C58 *)
(** The tree shows properties, schema, texts and every node of every layer with all its fields. *)
Theorem C58_shows : forall float_str obj_str val_str h d verbose vns id ex tv h1 x, doc_ok h d ->
  encode_tree float_str obj_str val_str h d verbose vns id ex tv = (h1, Ok x) -> document_elem float_str h d verbose id x.
Proof. exact tree_shows. Qed.
Print Assumptions C58_shows.
(** Valid documents have a tree.  Missing from the full statement: binary values and verbose_node_spans, see below. *)
Theorem C58_encodes_partial : forall float_str obj_str val_str h d verbose id ex tv ps, doc_valid h d -> d_props d = MMap ps -> no_binary h d ->
  exists h1 x, encode_tree float_str obj_str val_str h d verbose false id ex tv = (h1, Ok x).
Proof. exact tree_total. Qed.
Print Assumptions C58_encodes_partial.
(** Encoding changes nothing that can be seen, whether it succeeds or not. *)
Theorem C58_keeps : forall float_str obj_str val_str h d verbose vns id ex tv h1 r, wf h -> known h d ->
  encode_tree float_str obj_str val_str h d verbose vns id ex tv = (h1, r) -> wf h1 /\ looks_same h h1.
Proof. exact tree_keeps. Qed.
Print Assumptions C58_keeps.

(** A document with a binary value, which MessagePack encodes, is refused. *)
Theorem C58_binary_refuted : exists h d b, snd (msgpack_encode h d false true) = Ok b /\
  forall float_str obj_str val_str, snd (encode_tree float_str obj_str val_str h d false false [] false true) = Err ValueError.
Proof.
  exists (exec_all Z.leb empty_heap [OLayer (s "a") [(s "raw", mkDT KBinary TBinary [])]; OAdd 0%nat [(s "raw", VBytes [1%N])]]), (mkDoc (MMap []) [] [(s "a", 0%nat)]).
  eexists. split; [vm_compute; reflexivity|]. intros. vm_compute. reflexivity.
Qed.
Print Assumptions C58_binary_refuted.
(** verbose_node_spans raises for the first span. *)
Theorem C58_verbose_spans_refuted : exists h d, doc_valid h d /\
  forall float_str obj_str val_str, snd (encode_tree float_str obj_str val_str h d false true [] false true) = Err TypeError.
Proof. exists doc_heap, sample_doc. split; [exact sample_valid|]. intros. vm_compute. reflexivity. Qed.
Print Assumptions C58_verbose_spans_refuted.
(** Texts are not passed through the string encoder: a character that XML forbids reaches an attribute. *)
Theorem C58_illegal_refuted : exists h d c, ~ xml_char c /\ doc_ok h d /\ forall float_str obj_str val_str,
  snd (encode_tree float_str obj_str val_str h d false false [] false true) =
    Ok (Elem (s "document") [] [Elem (s "props") [] []; Elem (s "schema") [] [];
         Elem (s "texts") [] [Elem (s "text") [(s "name", s "main")] [Elem (s "sep") [] [Elem (s "s") [(s "v", [c])] []]]]; Elem (s "layers") [] []]).
Proof.
  exists empty_heap, (mkDoc (MMap []) [(s "main", [0%N])] []), 0%N. split; [|split].
  - unfold xml_char. intros H. repeat destruct H as [H|H]; try discriminate; destruct H as [H _]; apply H; reflexivity.
  - split; cbn.
    + exact wf_empty.
    + intros k l [].
    + repeat constructor; simpl; tauto.
    + constructor.
    + constructor; repeat constructor.
    + intros k f t (l & [] & _).
    + intros k l n f v t [[] _].
  - intros. vm_compute. reflexivity.
Qed.
Print Assumptions C58_illegal_refuted.

(** The sample document, and part of its tree: a span as segment numbers, a reference, a node span, an array. *)
Lemma sample_no_binary : no_binary doc_heap sample_doc.
Proof.
  intros k l n f t v Hn Hf _ _. destruct (sample_nodes k l n Hn) as [(-> & -> & _)|(-> & -> & _)]; vm_compute in Hf;
  repeat (destruct Hf as [[= <- <-]|Hf]; [discriminate|]); destruct Hf.
Qed.
Example C58_case : doc_valid doc_heap sample_doc /\ d_props sample_doc = MMap [(s "id", MInt 1)] /\ no_binary doc_heap sample_doc /\
  match encode_tree (fun _ => []) (fun _ => []) (fun _ => []) doc_heap sample_doc false false (s "doc") false true with
  | (_, Ok (Elem _ a [_; _; _; Elem _ _ layers])) => a = [(xid, s "doc")] /\
      layers = [Elem (s "layer") [(s "name", s "token")]
                  [Elem (s "n") [(s "pos", s "N"); (xid, s "doc.token.0")] [Elem (s "d") [(s "name", s "text"); (s "from", s "0"); (s "until", s "1")] []];
                   Elem (s "n") [(s "head", s "0"); (xid, s "doc.token.1")] [Elem (s "d") [(s "name", s "text"); (s "from", s "2"); (s "until", s "3")] []]];
                Elem (s "layer") [(s "name", s "phrase")]
                  [Elem (s "n") [(s "score", s "7"); (xid, s "doc.phrase.0")]
                     [Elem (s "d") [(s "name", s "words"); (s "from", s "token.0"); (s "to", s "token.1")] [];
                      Elem (s "a") [(s "name", s "args")] [Elem (s "e") [(s "v", s "1")] []; Elem (s "e") [(s "v", s "0")] []]]]]
  | _ => False
  end.
Proof. split; [exact sample_valid|]. split; [reflexivity|]. split; [exact sample_no_binary|]. vm_compute. split; reflexivity. Qed.

(** ** C59 *)
(** The identifiers of a tree: that of the document, and one for each node of each layer, made of the names and its position. *)
Theorem C59_ids : forall float_str obj_str val_str h d verbose vns id ex tv h1 x, wf h -> known h d ->
  encode_tree float_str obj_str val_str h d verbose vns id ex tv = (h1, Ok x) ->
  ids x = match id with [] => [] | _ => [id] end ++
    flat_map (fun kl => map (fun p => match id with [] => [] | _ => id ++ s "." end ++ fst kl ++ s "." ++ str_int (Z.of_nat p)) (seq 0 (length (layer_iter h (snd kl))))) (d_layers d).
Proof. exact tree_ids. Qed.
Print Assumptions C59_ids.
(** No two are equal, whatever the names of the layers. *)
Theorem C59_unique : forall float_str obj_str val_str h d verbose vns id ex tv h1 x, wf h -> known h d -> NoDup (dkeys (d_layers d)) ->
  encode_tree float_str obj_str val_str h d verbose vns id ex tv = (h1, Ok x) -> NoDup (ids x).
Proof. exact tree_ids_unique. Qed.
Print Assumptions C59_unique.
(** The ends of a node span are written without the identifier of the document: with one, they are no identifiers of the tree. *)
Theorem C59_reference_refuted : exists h d id, doc_valid h d /\ forall float_str obj_str val_str, exists x f kids,
  snd (encode_tree float_str obj_str val_str h d false false id false true) = Ok x /\ ~ In f (ids x) /\
  match x with Elem _ _ [_; _; _; Elem _ _ [_; Elem _ _ [Elem _ _ kids']]] => kids' = kids | _ => False end /\
  match kids with k :: _ => attr_of k (s "name") = Some (s "words") /\ attr_of k (s "from") = Some f | [] => False end.
Proof.
  exists doc_heap, sample_doc, (s "doc"). split; [exact sample_valid|]. intros. do 3 eexists. split; [vm_compute; reflexivity|].
  split; [|split; [reflexivity|split; reflexivity]]. vm_compute. intros H. repeat (destruct H as [H|H]; [discriminate|]). exact H.
Qed.
Print Assumptions C59_reference_refuted.
Example C59_case : wf doc_heap /\ known doc_heap sample_doc /\ NoDup (dkeys (d_layers sample_doc)) /\
  match encode_tree (fun _ => []) (fun _ => []) (fun _ => []) doc_heap sample_doc true false (s "doc") false true with
  | (_, Ok x) => ids x = [s "doc"; s "doc.token.0"; s "doc.token.1"; s "doc.phrase.0"]
  | _ => False
  end.
Proof. split; [exact doc_heap_wf|]. split; [exact sample_known|]. split; [repeat constructor; simpl; intuition discriminate|]. vm_compute. reflexivity. Qed.
