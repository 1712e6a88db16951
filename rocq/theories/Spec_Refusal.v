(** What validate does with a value that the type of its field does not admit. *)
From Verif Require Import PyBase Model_Heap Model_Layer Model_Types Spec_Layer Spec_Types Spec_Exact.
Local Open Scope Z_scope.

(** values without nodes *)
Definition nodeless (v : value) : Prop :=
  match v with VNode _ | VNodeList _ | VNodeSpan _ _ => False | _ => True end.
(** the layer shows its text: field "text" is declared as a text span *)
Definition shows_text (h : heap) (l : lid) : Prop := exists d, dget (l_fields (h_layer h l)) (s "text") = Some d /\ dt_name d = TSpan.
Definition is_span (v : value) : Prop := exists c t a b, v = VSpan c t a b.
(** The exception of a failed assertion whose message contains repr(v): AssertionError, unless repr raises. *)
Inductive message (h : heap) : value -> exn -> Prop :=
| ms_plain v : nodeless v -> message h v AssertionError
| ms_node n : ~ unprintable h n -> message h (VNode n) AssertionError
| ms_node_bad n : unprintable h n -> message h (VNode n) AttributeError
| ms_list l : (forall n, In (Some n) l -> ~ unprintable h n) -> message h (VNodeList l) AssertionError
| ms_list_bad l n : In (Some n) l -> unprintable h n -> message h (VNodeList l) AttributeError
| ms_span_out a b : n_collof h a = None -> message h (VNodeSpan a b) AttributeError
| ms_span_unbound a b l : n_collof h a = Some l -> n_idof h b = -1 -> message h (VNodeSpan a b) AssertionError
| ms_span a b l : n_collof h a = Some l -> n_idof h b <> -1 -> ~ shows_text h l -> message h (VNodeSpan a b) AssertionError
| ms_span_missing a b l : n_collof h a = Some l -> n_idof h b <> -1 -> shows_text h l ->
    dget (n_fieldsof h a) (s "text") = None \/ dget (n_fieldsof h b) (s "text") = None -> message h (VNodeSpan a b) KeyError
| ms_span_text a b l x y : n_collof h a = Some l -> n_idof h b <> -1 -> shows_text h l ->
    dget (n_fieldsof h a) (s "text") = Some x -> dget (n_fieldsof h b) (s "text") = Some y -> is_span x -> is_span y ->
    message h (VNodeSpan a b) AssertionError
| ms_span_notext a b l x y : n_collof h a = Some l -> n_idof h b <> -1 -> shows_text h l ->
    dget (n_fieldsof h a) (s "text") = Some x -> dget (n_fieldsof h b) (s "text") = Some y -> ~ (is_span x /\ is_span y) ->
    message h (VNodeSpan a b) AttributeError.

(** The outcome of validate, by class of the type and value; [name] is the layer or text option of the type. *)
Inductive refuses (h : heap) (name : pystr) : dtclass -> value -> res bool -> Prop :=
| rf_message c v e : In c [KBool; KInt32; KInt64; KFloat; KString; KBinary; KTextspan] -> (c = KTextspan -> ~ is_span v) ->
    message h v e -> refuses h name c v (Err e)
| rf_text c t a b : c <> name -> refuses h name KTextspan (VSpan c t a b) (Err AssertionError)
| rf_node n : ~ in_named h name n -> refuses h name KNoderef (VNode n) (Err AssertionError)
| rf_notnode v : (forall n, v <> VNode n) -> refuses h name KNoderef v (Err AttributeError)
| rf_list ns n r : (forall x, In x ns -> in_named h name x) -> ~ in_named h name n ->
    refuses h name KNoderefList (VNodeList (map Some ns ++ Some n :: r)) (Err AssertionError)
| rf_list_other ns r : (forall x, In x ns -> in_named h name x) ->
    refuses h name KNoderefList (VNodeList (map Some ns ++ None :: r)) (Err AttributeError)
| rf_coll a b ns n : nodespan_iter h a b = Ok ns -> In n ns -> ~ in_named h name n ->
    refuses h name KNoderefList (VNodeSpan a b) (Err AssertionError)
| rf_coll_iter a b e : nodespan_iter h a b = Err e -> refuses h name KNoderefList (VNodeSpan a b) (Err e)
| rf_notlist v : (forall l, v <> VNodeList l) -> (forall a b, v <> VNodeSpan a b) -> refuses h name KNoderefList v (Err AssertionError)
| rf_span a b : refuses h name KNodespan (VNodeSpan a b) (Err AssertionError)
(** a Node in the place of a node span: its neighbours are taken for the ends of the span *)
| rf_span_out m : n_collof h m = None -> refuses h name KNodespan (VNode m) (Err AttributeError)
| rf_span_end m l c : n_collof h m = Some l -> layer_iter h l = map Some (m :: c) \/ layer_iter h l = map Some (c ++ [m]) ->
    refuses h name KNodespan (VNode m) (Err AssertionError)
| rf_span_other m l c x y c' : n_collof h m = Some l -> layer_iter h l = map Some (c ++ x :: m :: y :: c') -> l_nameof h l <> name ->
    refuses h name KNodespan (VNode m) (Err AssertionError)
| rf_span_false m l c x y c' : n_collof h m = Some l -> layer_iter h l = map Some (c ++ x :: m :: y :: c') -> l_nameof h l = name ->
    refuses h name KNodespan (VNode m) (Ok false)
| rf_notspan v : (forall a b, v <> VNodeSpan a b) -> (forall m, v <> VNode m) -> refuses h name KNodespan v (Err AttributeError).

(** The first declared field, in the order of the schema, whose value in the node is not admitted. *)
Definition first_refused (h : heap) (l : lid) (n : nid) (f : pystr) (d : dtype) (v : value) : Prop :=
  exists pre post, l_fields (h_layer h l) = pre ++ (f, d) :: post /\
    (forall g t w, In (g, t) pre -> dget (n_fieldsof h n) g = Some w -> accepts h t w) /\
    dget (n_fieldsof h n) f = Some v /\ ~ accepts h d v.
