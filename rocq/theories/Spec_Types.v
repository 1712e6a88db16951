(** Which values a declared field type admits, stated without the code's is_valid methods. *)
From Verif Require Import PyBase Model_Heap Model_Layer Model_Types Spec_Layer.
Local Open Scope Z_scope.

(** the Python ints: bool is a subclass of int, True is 1 and False is 0 *)
Inductive int_value : value -> Z -> Prop :=
| iv_int i : int_value (VInt i) i
| iv_true : int_value (VBool true) 1
| iv_false : int_value (VBool false) 0.

(** the node is in a layer of that name *)
Definition in_named (h : heap) (name : pystr) (n : nid) : Prop :=
  exists l, n_collof h n = Some l /\ l_nameof h l = name.

(** values admitted by a type object of each class; [name] is its layer or text option *)
Inductive admits (h : heap) (name : pystr) : dtclass -> value -> Prop :=
| ad_any v : admits h name KBase v
| ad_bool b : admits h name KBool (VBool b)
| ad_i32 v i : int_value v i -> -2147483648 <= i <= 2147483647 -> admits h name KInt32 v
| ad_i64 v i : int_value v i -> -9223372036854775808 <= i <= 9223372036854775807 -> admits h name KInt64 v
| ad_float b : admits h name KFloat (VFloat b)
| ad_string x : zlen x < 2147483648 -> admits h name KString (VStr x)
| ad_binary x : zlen x < 2147483648 -> admits h name KBinary (VBytes x)
| ad_span t a b : admits h name KTextspan (VSpan name t a b)
| ad_node n : in_named h name n -> admits h name KNoderef (VNode n)
| ad_nodespan a b ia ib : in_named h name a -> in_named h name b ->
    node_i h a = Ok ia -> node_i h b = Ok ib -> ia <= ib -> admits h name KNodespan (VNodeSpan a b)
| ad_nodelist ns : (forall n, In n ns -> in_named h name n) -> admits h name KNoderefList (VNodeList (map Some ns))
| ad_nodecoll a b ns : nodespan_iter h a b = Ok ns -> (forall n, In n ns -> in_named h name n) ->
    admits h name KNoderefList (VNodeSpan a b).

(** The option that the type's class needs is there and is the name; class and type name go together
    (true of every type made by the T constructors and by decoding). *)
Definition type_ok (d : dtype) (name : pystr) : Prop :=
  match dt_class d with
  | KBase => True
  | KBool => dt_name d = TBool
  | KInt32 => dt_name d = TI32
  | KInt64 => dt_name d = TI64
  | KFloat => dt_name d = TF64
  | KString => dt_name d = TString
  | KBinary => dt_name d = TBinary
  | KNodespan => dt_name d = TNodeRefSpan /\ dget (dt_opts d) (s "layer") = Some (VStr name)
  | KNoderef => dt_name d = TNodeRef /\ dget (dt_opts d) (s "layer") = Some (VStr name)
  | KNoderefList => dt_name d = TNodeRefMany /\ dget (dt_opts d) (s "layer") = Some (VStr name)
  | KTextspan => dt_name d = TSpan /\ dget (dt_opts d) (s "context") = Some (VStr name)
  end.
Definition accepts (h : heap) (d : dtype) (v : value) : Prop :=
  exists name, type_ok d name /\ admits h name (dt_class d) v.

(** every declared field that the node has holds an admitted value *)
Definition node_valid (h : heap) (l : lid) (n : nid) : Prop :=
  forall f d v, dget (l_fields (h_layer h l)) f = Some d -> dget (n_fieldsof h n) f = Some v -> accepts h d v.
Definition schema_ok (h : heap) (l : lid) : Prop :=
  forall f d, dget (l_fields (h_layer h l)) f = Some d -> exists name, type_ok d name.

(** BOOL < I32 < I64 < F64 *)
Inductive num_le : tname -> tname -> Prop :=
| nl_refl t : In t [TBool; TI32; TI64; TF64] -> num_le t t
| nl_b1 : num_le TBool TI32 | nl_b2 : num_le TBool TI64 | nl_b3 : num_le TBool TF64
| nl_i1 : num_le TI32 TI64 | nl_i2 : num_le TI32 TF64 | nl_l1 : num_le TI64 TF64.
Definition numeric (t : tname) : Prop := In t [TBool; TI32; TI64; TF64].
