(** Properties C85 and C86: values of any kind in XML trees and in fields that refer to nodes or texts. *)
From Verif Require Import PyBase PyBaseFacts Model_Text Model_Heap Model_Layer Model_Types Model_Msgpack Model_Document Model_Coerce Model_Codec Model_XmlString Model_Nodes
  Spec_Layer Spec_History Spec_Types Spec_Msgpack Spec_Document Spec_Codec Spec_Query Spec_Coerce Spec_Xml Spec_AnyValue Proof_Layer4 Proof_Types Proof_AnyValue Proof_AnyValue2.
Local Open Scope Z_scope.

(** ** C85 *)
(** The tree of a document with values of other types shows the document with the converted values; strings and binary values are not converted. *)
Theorem C85_shows : forall float_str obj_str val_str h d verbose vns id ex tv h1 x, doc_loose h d -> encode_tree float_str obj_str val_str h d verbose vns id ex tv = (h1, Ok x) ->
  exists k, converted h d k /\ doc_ok k d /\ document_elem float_str k d verbose id x /\
  (exists k1, encode_tree float_str obj_str val_str k d verbose vns id true false = (k1, Ok x)) /\
  forall y l n f t v, doc_node h d y l n -> dget (l_fields (h_layer h l)) f = Some t -> dget (n_fieldsof h n) f = Some v -> v <> VNone ->
    dt_name t <> TBinary /\ (dt_name t = TString -> exists z, v = VStr z).
Proof. exact loose_tree. Qed.
Print Assumptions C85_shows.
(** A value that is not of the number type of its field is written like the value it converts to, or refused, as by the MessagePack codec (C77). *)
Theorem C85_number : forall float_str h offs t v, wf h -> In t [TI32; TI64; TF64; TBool] -> proper v -> ~ of_type t v ->
  (exists v', converts h t v v' /\ of_type t v' /\ v' <> VNone /\ xml_encode float_str h offs t v = xml_encode float_str h offs t v') \/
  (exists e, refuses h t v e /\ xml_encode float_str h offs t v = Err e) \/
  (uncovered t v /\ xml_encode float_str h offs t v = Err Unmodelled).
Proof. exact xml_value. Qed.
Print Assumptions C85_number.
(** Only strings go into string fields ... *)
Theorem C85_string : forall float_str h offs v, v <> VNone -> (forall x, v <> VStr x) -> xml_encode float_str h offs TString v = Err TypeError.
Proof. exact xml_string_value. Qed.
Print Assumptions C85_string.
(** ... and nothing into binary fields. *)
Theorem C85_binary : forall float_str h vns offs v, wf h -> proper v -> v <> VNone ->
  exists e, (let* x := xml_encode float_str h offs TBinary v in tree_entry h vns x) = Err e /\
  (of_type TBinary v /\ e = ValueError \/ (exists v', converts h TBinary v v') /\ e = ValueError \/ refuses h TBinary v e \/ uncovered TBinary v /\ e = Unmodelled).
Proof. exact xml_binary_value. Qed.
Print Assumptions C85_binary.

(** Sample: numbers as text, floats and bytes; truth of a string. *)
Definition spelled_heap : heap := exec_all Z.leb empty_heap
  [OLayer (s "t") [(s "i", T_int32 VNone); (s "f", T_float64 VNone); (s "b", T_bool VNone); (s "t", T_string VNone)];
   OAdd 0%nat [(s "t", VStr (s "one"))]; OAdd 0%nat [(s "i", VInt 7)];
   OSetField 0%nat (s "i") (VStr (s " -1_2 ")); OSetField 0%nat (s "f") (VInt 3); OSetField 0%nat (s "b") (VStr (s "False")); OSetField 1%nat (s "b") (VFloat 0); OSetField 1%nat (s "i") (VFloat 4613262278296967578%N)].
Definition spelled_doc : doc := mkDoc (MMap []) [] [(s "t", 0%nat)].
Lemma spelled_loose : doc_loose spelled_heap spelled_doc.
Proof.
  split.
  - apply ops_ok_wf, ops_okb_sound. vm_compute. reflexivity.
  - intros k l [[= <- <-]|[]]. vm_compute. auto.
  - constructor.
  - repeat constructor; simpl; tauto.
  - constructor; repeat constructor; simpl; tauto.
  - intros k f t (l & [[= <- <-]|[]] & Hf). vm_compute in Hf.
    repeat (destruct Hf as [[= <- <-]|Hf]; [split; [discriminate|]; split; [discriminate|]; split;
      [split; vm_compute; intros H; try discriminate; try (exfalso; intuition discriminate); eexists; reflexivity|];
      split; [vm_compute; repeat constructor; simpl; tauto|vm_compute; intros o v Hov; repeat (destruct Hov as [[= <- <-]|Hov]; [constructor|]); destruct Hov]|]); destruct Hf.
  - intros k l n f v t [[[= <- <-]|[]] Hn] Hv Ht. apply dget_In in Hv. vm_compute in Hn. destruct Hn as [[= <-]|[[= <-]|[]]]; vm_compute in Hv;
    repeat (destruct Hv as [[= <- <-]|Hv]; [vm_compute in Ht; injection Ht as <-; right; split; [vm_compute; tauto|vm_compute; try tauto; try (repeat split; discriminate)]|]); destruct Hv.
Qed.
Example C85_case : doc_loose spelled_heap spelled_doc /\
  match snd (encode_tree (fun _ => s "3.0") (fun _ => []) (fun _ => []) spelled_heap spelled_doc false false [] true false) with
  | Ok (Elem _ _ [_; _; _; Elem _ _ [Elem _ _ ns]]) => ns =
      [Elem (s "n") [(s "i", s "-12"); (s "f", s "3.0"); (s "b", s "True"); (s "t", s "one"); (xid, s "t.0")] [];
       Elem (s "n") [(s "i", s "2"); (s "b", s "False"); (xid, s "t.1")] []]
  | _ => False
  end.
Proof. split; [exact spelled_loose|]. vm_compute. reflexivity. Qed.
(** Text that is no number is refused by both codecs; bytes in a string field only here. *)
Example C85_refused_case : forall float_str, xml_encode float_str spelled_heap [] TI32 (VStr (s "12a")) = Err ValueError /\ encode_cell spelled_heap [] TI32 (VStr (s "12a")) = Err ValueError /\
  xml_encode float_str spelled_heap [] TString (VBytes [104]%N) = Err TypeError /\ encode_cell spelled_heap [] TString (VBytes [104]%N) = Ok [MStr (s "b'h'")].
Proof. intros. vm_compute. auto. Qed.

(** ** C86 *)
(** Values in a field of lists of nodes, by what iterating over them gives: nothing is nil (MessagePack) or an empty array (XML); nodes are their numbers;
    at the first element that is no node both codecs raise AttributeError; MessagePack raises AssertionError at a node that never was in a layer. *)
Theorem C86_many : forall h offs v l float_str, proper v -> listed h v l ->
  (l = [] -> encode_cell h offs TNodeRefMany v = Ok [MNil] /\ xml_encode float_str h offs TNodeRefMany v = Ok (XList [])) /\
  (forall ns, l = map Some ns -> xml_encode float_str h offs TNodeRefMany v = Ok (XList (map (fun n => str_int (n_idof h n)) ns)) /\
     (ns <> [] -> Forall (has_number h) ns -> encode_cell h offs TNodeRefMany v = Ok [MArr (map (fun n => MInt (n_idof h n)) ns)])) /\
  (forall ns r, l = map Some ns ++ None :: r -> xml_encode float_str h offs TNodeRefMany v = Err AttributeError /\
     (Forall (has_number h) ns -> encode_cell h offs TNodeRefMany v = Err AttributeError)) /\
  (forall ns n r, l = map Some ns ++ Some n :: r -> Forall (has_number h) ns -> ~ has_number h n -> encode_cell h offs TNodeRefMany v = Err AssertionError).
Proof. exact many_fine. Qed.
Print Assumptions C86_many.
(** Other values cannot be iterated over. *)
Theorem C86_not_listed : forall float_str h offs v e, not_listed h v e -> encode_cell h offs TNodeRefMany v = Err e /\ xml_encode float_str h offs TNodeRefMany v = Err e.
Proof. exact many_refused. Qed.
Print Assumptions C86_not_listed.
Theorem C86_all_values : forall h v, v <> VNone -> (forall k, v <> VOther k) -> (exists l, listed h v l) \/ (exists e, not_listed h v e).
Proof. exact many_covered. Qed.
Print Assumptions C86_all_values.
(** Values in a field for one node. *)
Theorem C86_node : forall h offs float_str v, v <> VNone ->
  match v with
  | VNode n => xml_encode float_str h offs TNodeRef v = Ok (XStr (str_int (n_idof h n))) /\
               (has_number h n -> encode_cell h offs TNodeRef v = Ok [MInt (n_idof h n)]) /\ (~ has_number h n -> encode_cell h offs TNodeRef v = Err AssertionError)
  | _ => xml_encode float_str h offs TNodeRef v = Err AttributeError /\ encode_cell h offs TNodeRef v = Err AttributeError
  end.
Proof. exact ref_cell. Qed.
Print Assumptions C86_node.
(** Values in a field of node spans: node spans, with both ends numbered (a removed node keeps its number) ... *)
Theorem C86_nodespan : forall h offs a b,
  (has_number h a -> has_number h b -> encode_cell h offs TNodeRefSpan (VNodeSpan a b) = Ok [MArr [MInt (n_idof h a); MInt (n_idof h b - n_idof h a)]]) /\
  (~ has_number h a \/ ~ has_number h b -> encode_cell h offs TNodeRefSpan (VNodeSpan a b) = Err AssertionError).
Proof. exact nodespan_cell. Qed.
Print Assumptions C86_nodespan.
Theorem C86_nodespan_xml : forall h vns a b,
  (forall l, n_collof h a = Some l -> has_number h a -> has_number h b ->
     tree_entry h vns (XRaw (VNodeSpan a b)) = Ok (EEmbed [(s "from", l_nameof h l ++ s "." ++ str_int (n_idof h a)); (s "to", l_nameof h l ++ s "." ++ str_int (n_idof h b))])) /\
  (n_collof h a = None -> tree_entry h vns (XRaw (VNodeSpan a b)) = Err AttributeError) /\
  (n_collof h a <> None -> ~ has_number h a \/ ~ has_number h b -> tree_entry h vns (XRaw (VNodeSpan a b)) = Err AssertionError).
Proof. exact nodespan_entry. Qed.
Print Assumptions C86_nodespan_xml.
(** ... MessagePack takes a node for the span from its left to its right neighbour, but for the first of a layer ... *)
Theorem C86_neighbours : forall h offs n a b, node_left h n = Ok (Some a) -> node_right h n = Ok (Some b) -> encode_cell h offs TNodeRefSpan (VNode n) = encode_cell h offs TNodeRefSpan (VNodeSpan a b).
Proof. exact nodespan_node. Qed.
Print Assumptions C86_neighbours.
Theorem C86_first : forall h offs n, node_left h n = Ok None -> encode_cell h offs TNodeRefSpan (VNode n) = Err AttributeError.
Proof. exact nodespan_edge. Qed.
Print Assumptions C86_first.
(** ... and nothing else; XML takes strings for values and an empty list for an empty array. *)
Theorem C86_no_nodespan : forall h offs v, v <> VNone -> (forall a b, v <> VNodeSpan a b) -> (forall n, v <> VNode n) -> encode_cell h offs TNodeRefSpan v = Err AttributeError.
Proof. exact nodespan_others. Qed.
Print Assumptions C86_no_nodespan.
Theorem C86_no_nodespan_xml : forall float_str h vns offs v,
  (let* x := xml_encode float_str h offs TNodeRefSpan v in tree_entry h vns x) =
  match v with
  | VStr x => Ok (ESimple x)
  | VNodeSpan a b => tree_entry h vns (XRaw v)
  | VNodeList [] => Ok (EArray [])
  | VNodeList _ => Err Unmodelled
  | VNode n => Err (if node_repr_ok h n then ValueError else AttributeError)
  | _ => Err ValueError
  end.
Proof. exact nodespan_raw. Qed.
Print Assumptions C86_no_nodespan_xml.
(** Values in a field of text spans: spans whose ends are offsets of the text of the field. *)
Theorem C86_span : forall h vns offs float_str v, v <> VNone ->
  match v with
  | VSpan c t a b =>
      match offset_id offs a, offset_id offs b with
      | Some i, Some j => encode_cell h offs TSpan v = Ok [MInt i; MInt j] /\
          (let* x := xml_encode float_str h offs TSpan v in tree_entry h vns x) = if vns then Err TypeError else Ok (EEmbed [(s "from", str_int i); (s "until", str_int j)])
      | _, _ => encode_cell h offs TSpan v = Err KeyError /\ (let* x := xml_encode float_str h offs TSpan v in tree_entry h vns x) = Err KeyError
      end
  | _ => encode_cell h offs TSpan v = Err AttributeError /\ (let* x := xml_encode float_str h offs TSpan v in tree_entry h vns x) = Err AttributeError
  end.
Proof. exact span_cell. Qed.
Print Assumptions C86_span.
(** NodeSpan.text and textspan, where an end has no text span. *)
Theorem C86_text_fails : forall h a b f,
  (dget (n_fieldsof h a) f = None \/ dget (n_fieldsof h b) f = None -> nodespan_text h a b f = Err KeyError /\ nodespan_textspan h a b f = Err KeyError) /\
  (forall x y, dget (n_fieldsof h a) f = Some x -> dget (n_fieldsof h b) f = Some y ->
     (forall c t p q, x <> VSpan c t p q) \/ (forall c t p q, y <> VSpan c t p q) -> nodespan_text h a b f = Err AttributeError /\ nodespan_textspan h a b f = Err AttributeError).
Proof. exact nodespan_text_fails. Qed.
Print Assumptions C86_text_fails.

(** Sample: four nodes in a layer, the second removed; and one that never was in a layer. *)
Definition refs_heap : heap := exec_all Z.leb empty_heap
  [OLayer (s "t") [(s "i", T_int32 VNone)]; OAdd 0%nat [(s "i", VInt 1)]; OAdd 0%nat [(s "i", VInt 2)]; OAdd 0%nat [(s "i", VInt 3)]; OAdd 0%nat [(s "i", VInt 4)]; ORemove 0%nat 1%nat;
   ONode [(s "i", VInt 5)]].
Example C86_case : has_number refs_heap 0%nat /\ has_number refs_heap 1%nat /\ ~ has_number refs_heap 4%nat /\ n_collof refs_heap 1%nat = None /\ n_collof refs_heap 0%nat = Some 0%nat /\
  listed refs_heap (VStr []) [] /\ listed refs_heap (VStr (s "ab")) [None; None] /\ listed refs_heap (VNodeList [Some 0%nat; None]) [Some 0%nat; None] /\
  not_listed refs_heap (VNodeSpan 0%nat 1%nat) AssertionError /\ node_left refs_heap 2%nat = Ok (Some 0%nat) /\ node_right refs_heap 2%nat = Ok (Some 3%nat) /\ node_left refs_heap 0%nat = Ok None /\
  encode_cell refs_heap [] TNodeRefMany (VNodeList [Some 0%nat; Some 4%nat; None]) = Err AssertionError /\
  encode_cell refs_heap [] TNodeRefMany (VNodeList [Some 0%nat; None; Some 4%nat]) = Err AttributeError /\
  (forall float_str, xml_encode float_str refs_heap [] TNodeRefMany (VNodeList [Some 1%nat; Some 4%nat]) = Ok (XList [s "1"; s "-1"])) /\
  tree_entry refs_heap false (XRaw (VNodeSpan 1%nat 2%nat)) = Err AttributeError /\ tree_entry refs_heap false (XRaw (VNodeSpan 0%nat 4%nat)) = Err AssertionError /\
  offset_id [0; 4; 7] 4 = Some 1 /\ offset_id [0; 4; 7] 5 = None.
Proof.
  repeat split; try (vm_compute; discriminate); try (vm_compute; reflexivity); try (apply (li_str refs_heap [])); try (apply (li_str refs_heap (s "ab"))); try (apply li_list).
  - intros H. apply H. vm_compute. reflexivity.
  - apply nl_span. vm_compute. reflexivity.
Qed.
