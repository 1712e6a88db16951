(** What the tables of nodes, collections and documents are to show. *)
From Verif Require Import PyBase Model_Heap Model_Types Model_Query Model_Nodes Model_Printout Spec_Query Spec_Nodes.
Local Open Scope Z_scope.

(** a name that identifies a node: its layer and number; nothing for a node without fields *)
Inductive node_name (h : heap) (n : nid) : pystr -> Prop :=
| name_fields l : n_fieldsof h n <> [] -> n_collof h n = Some l -> node_name h n (s "Node<" ++ l_nameof h l ++ s "#" ++ str_int (n_idof h n) ++ s ">")
| name_empty : n_fieldsof h n = [] -> node_name h n [].
(** the layers of these nodes have exactly these names, each given once *)
Definition names_of (h : heap) (ns : list nid) (names : list pystr) : Prop :=
  NoDup names /\ (forall n, In n ns -> exists l, n_collof h n = Some l) /\
  forall x, In x names <-> exists n l, In n ns /\ n_collof h n = Some l /\ l_nameof h l = x.
Definition has_text (h : heap) (l : lid) : Prop := exists d, dget (l_fields (h_layer h l)) (s "text") = Some d /\ dt_name d = TSpan.

(** the cell that shows a value; [sr], [vr], [er] are repr() of strings, of other values, and of list elements that are no nodes *)
Inductive shown (sr : pystr -> pystr) (vr : value -> pystr) (er : pystr) (h : heap) : value -> cell -> Prop :=
| shown_none : shown sr vr er h VNone (TCell (s "NIL") (s "<em>NIL</em>"))
| shown_plain v : (forall n, v <> VNode n) -> (forall a b, v <> VNodeSpan a b) -> (forall l, v <> VNodeList l) -> v <> VNone -> shown sr vr er h v (CStr (vr v))
| shown_node n x : node_name h n x -> shown sr vr er h (VNode n) (CStr x)
| shown_span a b l : n_collof h a = Some l -> n_idof h a <> -1 -> n_idof h b <> -1 -> ~ has_text h l ->
    shown sr vr er h (VNodeSpan a b) (CStr (s "NodeSpan[" ++ l_nameof h l ++ s ": " ++ str_int (n_idof h a) ++ s " to incl. " ++ str_int (n_idof h b) ++ s "]"))
| shown_text a b l na ta p q nb tb p' q' : n_collof h a = Some l -> n_idof h a <> -1 -> n_idof h b <> -1 -> has_text h l ->
    dget (n_fieldsof h a) (s "text") = Some (VSpan na ta p q) -> dget (n_fieldsof h b) (s "text") = Some (VSpan nb tb p' q') ->
    shown sr vr er h (VNodeSpan a b) (CStr (s "NodeSpan[" ++ l_nameof h l ++ s ": " ++ str_int (n_idof h a) ++ s " to incl. " ++ str_int (n_idof h b) ++ s "] = " ++ sr (chars ta p q')))
| shown_empty : shown sr vr er h (VNodeList []) (CStr (s "[]"))
| shown_one n x : node_name h n x -> shown sr vr er h (VNodeList [Some n]) (CStr (s "[" ++ x ++ s "]"))
| shown_other : shown sr vr er h (VNodeList [None]) (CStr (s "[" ++ er ++ s "]"))
| shown_nodes ns names : (2 <= length ns)%nat -> names_of h ns names ->
    shown sr vr er h (VNodeList (map Some ns)) (CStr (s "[" ++ str_int (zlen ns) ++ s " nodes from layer: " ++ join (s ", ") names ++ s "]"))
| shown_mixed ns r names : (1 <= length ns + length r)%nat -> names_of h ns names ->
    shown sr vr er h (VNodeList (map Some ns ++ None :: r))
      (CStr (s "[" ++ str_int (zlen (map Some ns ++ None :: r)) ++ s " nodes from " ++ str_int (zlen names) ++ s " layers]")).

(** field names in the order of sorted() *)
Definition in_sorted_order (l : list pystr) : Prop := StronglySorted (fun a b => str_lt a b \/ a = b) l.
(** the cells of a node, one for each of the fields; NIL for a field that the node lacks *)
Definition cells_of (sr : pystr -> pystr) (vr : value -> pystr) (er : pystr) (h : heap) (fields : list pystr) (n : nid) (cells : list cell) : Prop :=
  Forall2 (fun f c => shown sr vr er h (match dget (n_fieldsof h n) f with Some v => v | None => VNone end) c) fields cells.
(** values that can be shown: nodes that are named have fields and are in a layer, or have none; node lists as their nodes; node spans in a
    layer without a text field *)
Definition in_layer (h : heap) (n : nid) : Prop := exists l, n_collof h n = Some l.
Inductive showable (h : heap) : value -> Prop :=
| able_plain v : (forall n, v <> VNode n) -> (forall a b, v <> VNodeSpan a b) -> (forall l, v <> VNodeList l) -> showable h v
| able_node n : in_layer h n -> showable h (VNode n)
| able_list l : (forall n, In (Some n) l -> in_layer h n) -> showable h (VNodeList l)
| able_span a b l : n_collof h a = Some l -> n_idof h a <> -1 -> n_idof h b <> -1 -> ~ has_text h l -> showable h (VNodeSpan a b)
| able_text a b l na ta p q nb tb p' q' : n_collof h a = Some l -> n_idof h a <> -1 -> n_idof h b <> -1 ->
    dget (n_fieldsof h a) (s "text") = Some (VSpan na ta p q) -> dget (n_fieldsof h b) (s "text") = Some (VSpan nb tb p' q') -> showable h (VNodeSpan a b).
(** what a collection is called over its table *)
Definition caption_of (h : heap) (c : coll) (k : Z) : pystr :=
  match c with
  | CLayer l => s "Layer '" ++ l_nameof h l ++ s "' with " ++ str_int k ++ s " nodes."
  | CQuery _ _ _ => s "Query with " ++ str_int k ++ s " nodes."
  | _ => s "Node collection with N=" ++ str_int k ++ s " elements"
  end.
Definition no_percent (x : pystr) : Prop := ~ In 37%N x.
Definition plain_name (h : heap) (c : coll) : Prop := match c with CLayer l => no_percent (l_nameof h l) | _ => True end.
