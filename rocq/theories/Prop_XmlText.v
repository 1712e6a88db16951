(** C69 the text of an XML tree, C70 XML texts of documents. *)
From Verif Require Import PyBase PyBaseFacts Model_Text Model_Heap Model_Layer Model_Types Model_Msgpack Model_Document Model_Codec Model_Xml.
From Verif Require Import Spec_Layer Spec_History Spec_Types Spec_Document Spec_Codec Spec_XmlString Spec_Xml Spec_XmlText Proof_History Proof_XmlText Proof_XmlText2 Proof_XmlText3 Proof_XmlText4 Spec_XmlForm Proof_XmlForm Prop_Document Prop_Codec Prop_Xml.
Local Open Scope Z_scope.

(** ** C69 *)
(** The text written for a tree that XML can express is XML for that tree. *)
Theorem C69_writes : forall e, expressible e -> exists x, xml_write e = Ok x /\ xml_document e x.
Proof. exact write_ok. Qed.
Print Assumptions C69_writes.
(** Other trees have no text at all. *)
Theorem C69_expressible : forall e x, xml_document e x -> expressible e.
Proof. exact document_expressible. Qed.
Print Assumptions C69_expressible.
(** A text stands for at most one tree. *)
Theorem C69_unique : forall e e' x, xml_document e x -> xml_document e' x -> e = e'.
Proof. exact xml_unique. Qed.
Print Assumptions C69_unique.
(** Writing raises exactly for names with an opening brace at the front and no closing one; all other trees are written, expressible or not. *)
Theorem C69_error : forall e, (Forall (fun q => ~ half_named q) (names e) /\ exists x, xml_write e = Ok x) \/ (Exists half_named (names e) /\ xml_write e = Err ValueError).
Proof. exact write_total. Qed.
Print Assumptions C69_error.

(** With names that XML allows and any values, the text is the one of this form: one blank before an attribute and before the end of an empty element, double quotes,
    seven characters by reference, surrogates by their numbers, all else as it is. *)
Theorem C69_form : forall e x, well_named e -> (xml_write e = Ok x <-> tree_form e x).
Proof. exact write_form. Qed.
Print Assumptions C69_form.

Definition small_tree : xml := Elem (s "a") [(xid, s "1"); (s "k", s "x<&""'>" ++ [9; 10; 13; 8364]%N)] [Elem (s "b") [] []; Elem (s "b") [] [Elem (s "c") [] []]].
Example C69_case : expressible small_tree /\
  xml_write small_tree = Ok (s "<a xml:id=""1"" k=""x&lt;&amp;&quot;'&gt;&#09;&#10;&#13;" ++ [8364%N] ++ s """><b /><b><c /></b></a>").
Proof.
  split; [|vm_compute; reflexivity]. apply expressible_eq. split; [apply ncnameb_ok; reflexivity|].
  split; [repeat constructor; simpl; intuition discriminate|]. split.
  - apply Forall_cons; [|apply Forall_cons; [|apply Forall_nil]].
    + split; [exists (s "xml:id"); exact xid_name|apply legalb_ok; reflexivity].
    + split; [exists (s "k"); apply plainb_ok; reflexivity|apply Forall_app; split; [apply legalb_ok; reflexivity|]].
      repeat (apply Forall_cons; [unfold xml_char; intuition (discriminate || auto)|]). apply Forall_nil.
  - apply Forall_cons; [|apply Forall_cons; [|apply Forall_nil]]; (apply elem_lit; [reflexivity|constructor|]); [constructor|].
    apply Forall_cons; [|apply Forall_nil]. apply elem_lit; [reflexivity|constructor|constructor].
Qed.
(** half of a pair and a control character, which no XML may hold *)
Definition odd_tree : xml := Elem (s "a") [(s "k", [55357; 1; 38]%N)] [Elem (s "b") [(xid, [])] []].
Example C69_form_case : well_named odd_tree /\ ~ expressible odd_tree /\ xml_write odd_tree = Ok (s "<a k=""&#55357;" ++ [1]%N ++ s "&amp;""><b xml:id="""" /></a>").
Proof.
  split; [|split; [|vm_compute; reflexivity]].
  - constructor; [apply ncnameb_ok; reflexivity| |].
    + constructor; [|constructor]. exists (s "k"). apply an_plain; [apply ncnameb_ok; reflexivity|discriminate].
    + constructor; [|constructor]. constructor; [apply ncnameb_ok; reflexivity| |constructor]. constructor; [|constructor]. exists (s "xml:id"). apply (an_xml (s "id")). apply ncnameb_ok. reflexivity.
  - intros H. apply expressible_eq in H. destruct H as (_ & _ & H & _). inversion H as [|? ? [_ V] _]; subst. inversion V as [|? ? C _]; subst. unfold xml_char in C. lia.
Qed.
Example C69_space_case : half_named (s "{a") /\ ~ half_named (s "{u}a") /\ xml_write (Elem (s "t") [(s "{a", [])] []) = Err ValueError /\
  xml_write (Elem (s "t") [(s "{u}a", s "1"); (s "{http://purl.org/dc/elements/1.1/}b", s "2")] [Elem (s "{u}c") [] []]) =
    Ok (s "<t xmlns:dc=""http://purl.org/dc/elements/1.1/"" xmlns:ns0=""u"" ns0:a=""1"" dc:b=""2""><ns0:c /></t>").
Proof.
  split; [exists (s "a"); split; [reflexivity|intros [H|[]]; discriminate]|]. split; [|split; vm_compute; reflexivity].
  intros (r & E & H). apply H. assert (r = s "u}a") by (unfold s in *; cbn in *; congruence). subst r. right. left. reflexivity.
Qed.

(** ** C70 *)
(** A valid document that XML can express has an XML text; the one tree it stands for shows the document (C58). *)
Theorem C70_writes_partial : forall float_str obj_str val_str h d verbose id ex tv ps, doc_valid h d -> d_props d = MMap ps -> no_binary h d ->
  xml_doc_ok float_str obj_str val_str h d -> Forall xml_char id ->
  exists h1 t x, encode_utf8string float_str obj_str val_str h d verbose false id ex tv = (h1, Ok x) /\ xml_document t x /\ document_elem float_str h d verbose id t.
Proof. exact utf8_total. Qed.
Print Assumptions C70_writes_partial.
(** Writing changes nothing that can be seen, whether it succeeds or not. *)
Theorem C70_keeps : forall float_str obj_str val_str h d verbose vns id ex tv h1 r, wf h -> known h d ->
  encode_utf8string float_str obj_str val_str h d verbose vns id ex tv = (h1, r) -> wf h1 /\ looks_same h h1.
Proof. exact utf8_keeps. Qed.
Print Assumptions C70_keeps.

(** There is a text only if the document passes the checks of C22: layers and texts that fields refer to exist, no undeclared fields, valid values. *)
Theorem C70_checked_partial : forall float_str obj_str val_str h d verbose vns id h1 x, wf h -> known h d ->
  encode_utf8string float_str obj_str val_str h d verbose vns id false true = (h1, Ok x) ->
  (forall k f t, declared h d k f t -> option_ok t /\
     (forall y, targets_layer t y -> In y (dkeys (d_layers d))) /\ (forall y, targets_text t y -> In y (dkeys (d_texts d)))) /\
  (forall k l n, doc_node h d k l n -> forall f v, In (f, v) (n_fieldsof h n) -> In f (dkeys (l_fields (h_layer h l)))) /\
  (spans_joined h d -> forall k l n, doc_node h d k l n -> schema_ok h l ->
     forall f t v, dget (l_fields (h_layer h l)) f = Some t -> dget (n_fieldsof h n) f = Some v ->
     (forall g u m, dget (l_fields (h_layer h l)) g = Some u -> dget (n_fieldsof h n) g = Some (VNode m) -> dt_class u <> KNodespan) ->
     accepts h1 t v /\ accepts h t v).
Proof. exact utf8_checked. Qed.
Print Assumptions C70_checked_partial.

(** a document with one layer and one node with a string field *)
Definition field_heap (f : pystr) : heap := exec_all Z.leb empty_heap [OLayer (s "a") [(f, mkDT KString TString [])]; OAdd 0%nat [(f, VStr (s "v"))]].
Definition field_doc : doc := mkDoc (MMap []) [] [(s "a", 0%nat)].
Definition no_str {A} (_ : A) : pystr := [].
Definition text_of (h : heap) (d : doc) : res pystr := snd (encode_utf8string no_str no_str no_str h d false false [] false true).
(** Missing from "every valid document": binary values and verbose node spans (C58), and names and texts that XML cannot express: what is
    written for them is no XML, or XML that says something else. *)
Theorem C70_character_refuted : exists h d x, doc_ok h d /\ d_texts d = [(s "main", [1%N])] /\ text_of h d = Ok x /\ ~ exists t, xml_document t x.
Proof.
  exists empty_heap, (mkDoc (MMap []) [(s "main", [1%N])] []). eexists. split; [|split; [reflexivity|split; [vm_compute; reflexivity|]]].
  - split; cbn.
    + exact wf_empty.
    + intros k l [].
    + repeat constructor; simpl; tauto.
    + constructor.
    + constructor; repeat constructor.
    + intros k f t (l & [] & _).
    + intros k l n f v t [[] _].
  - apply no_document. vm_compute. reflexivity.
Qed.
Print Assumptions C70_character_refuted.
Theorem C70_name_refuted : forall f, In f [s "a b"; s "xml:id"; s "1"; s "xmlns"] -> exists x, text_of (field_heap f) field_doc = Ok x /\ ~ exists t, xml_document t x.
Proof.
  intros f H. repeat (destruct H as [<-|H]; [eexists; split; [vm_compute; reflexivity|apply no_document; vm_compute; reflexivity]|]). destruct H.
Qed.
Print Assumptions C70_name_refuted.
(** a field whose name has an attribute in it: the text is XML, but of a tree with a field that the document does not have *)
(** A field whose name holds an attribute: the text is XML, but of a tree in which the node has a field that it does not have. *)
Theorem C70_injected_refuted : exists f x t, text_of (field_heap f) field_doc = Ok x /\ xml_document t x /\
  dget (n_fieldsof (field_heap f) 0%nat) (s "other") = None /\
  exists a b, match t with Elem _ _ [_; _; _; Elem _ _ [Elem _ _ [n]]] => n = Elem (s "n") ((s "other", s "1") :: a) b | _ => False end.
Proof.
  exists (s "other=""1"" f"). eexists. exists (Elem (s "document") []
    [Elem (s "props") [] []; Elem (s "schema") [] [Elem (s "define") [(s "layer", s "a")] [Elem (s "field") [(s "name", s "other=""1"" f"); (s "type", s "str")] []]]; Elem (s "texts") [] [];
     Elem (s "layers") [] [Elem (s "layer") [(s "name", s "a")] [Elem (s "n") [(s "other", s "1"); (s "f", s "v"); (xid, s "a.0")] []]]]).
  split; [vm_compute; reflexivity|]. split; [|split; [vm_compute; reflexivity|do 2 eexists; reflexivity]].
  match goal with |- xml_document ?t _ => assert (T : expressible t) end; [apply expb_ok; vm_compute; reflexivity|].
  destruct (write_ok _ T) as (x & W & D). vm_compute in W. apply Proof_Msgpack.Ok_inj in W. subst x. exact D.
Qed.
Print Assumptions C70_injected_refuted.

Lemma sample_xml_ok : xml_doc_ok no_str no_str no_str doc_heap sample_doc.
Proof.
  split.
  - intros ps k v [= <-] [[= <- <-]|[]]. split; apply legalb_ok; vm_compute; reflexivity.
  - intros k t [[= <- <-]|[]]. split; apply legalb_ok; vm_compute; reflexivity.
  - intros k l [[= <- <-]|[[= <- <-]|[]]]; split; apply legalb_ok; vm_compute; reflexivity.
  - intros k l f t [[= <- <-]|[[= <- <-]|[]]] Hf; vm_compute in Hf; repeat (destruct Hf as [[= <- <-]|Hf]; [split; [apply ncnameb_ok; reflexivity|split; [discriminate|]];
      intros a v Ha; vm_compute in Ha; repeat (destruct Ha as [[= <- <-]|Ha]; [split; apply legalb_ok; vm_compute; reflexivity|]); destruct Ha|]); destruct Hf.
  - intros b. constructor.
Qed.
Example C70_case : doc_valid doc_heap sample_doc /\ d_props sample_doc = MMap [(s "id", MInt 1)] /\ no_binary doc_heap sample_doc /\
  xml_doc_ok no_str no_str no_str doc_heap sample_doc /\ wf doc_heap /\ known doc_heap sample_doc /\ text_of doc_heap sample_doc = Ok
   (s "<document><props><prop key=""id"" value=""1"" /></props><schema><define layer=""token""><field name=""text"" type=""span""><arg key=""context"" value=""main"" /></field><field name=""pos"" type=""str"" /><field name=""head"" type=""noderef""><arg key=""layer"" value=""token"" /></field></define>" ++
    s "<define layer=""phrase""><field name=""words"" type=""nodespan""><arg key=""layer"" value=""token"" /></field><field name=""args"" type=""noderef_array""><arg key=""layer"" value=""token"" /></field><field name=""score"" type=""i32""><arg key=""default"" value=""7"" /></field></define></schema>" ++
    s "<texts><text name=""main""><sep><s v=""one"" /><s v="" "" /><s v=""two"" /></sep></text></texts><layers><layer name=""token""><n pos=""N"" xml:id=""token.0""><d name=""text"" from=""0"" until=""1"" /></n><n head=""0"" xml:id=""token.1""><d name=""text"" from=""2"" until=""3"" /></n></layer>" ++
    s "<layer name=""phrase""><n score=""7"" xml:id=""phrase.0""><d name=""words"" from=""token.0"" to=""token.1"" /><a name=""args""><e v=""1"" /><e v=""0"" /></a></n></layer></layers></document>").
Proof.
  split; [exact sample_valid|]. split; [reflexivity|]. split; [exact sample_no_binary|]. split; [exact sample_xml_ok|]. split; [exact doc_heap_wf|]. split; [exact sample_known|].
  vm_compute. reflexivity.
Qed.
