(** Objects: values, data types, nodes, layers, and the heap they live in.
    Node and layer objects have identity, so they are numbers indexing a heap;
    equality of nodes is identity (py/docria/model.py 144-148). *)
From Verif Require Import PyBase.
Local Open Scope Z_scope.

Definition nid := nat.
Definition lid := nat.

(** Values that a node field, a property or a type option can hold.
    [VFloat] carries the 64 bits of the double.  [VSpan] is a TextSpan: the name and the string
    of its Text object (both immutable) and its two offsets.  In [VNodeList] an element [None]
    stands for any object that is not a Node.  [VOther] is any object of a class without
    attributes [left], [right], [collection], [text], [start], [stop]. *)
Inductive value :=
| VNone
| VBool (b : bool)
| VInt (i : Z)
| VFloat (bits : N)
| VStr (x : pystr)
| VBytes (x : list N)
| VSpan (tname ttext : pystr) (start stop : Z)
| VNode (n : nid)
| VNodeSpan (left right : nid)
| VNodeList (l : list (option nid))
| VExt (ty : pystr) (data : list N)
| VOther (k : nat).

(** model.py 845-858: DataTypeEnum *)
Inductive tname :=
| TUnknown | TI32 | TI64 | TF64 | TBool | TString | TBinary | TNodeRef | TNodeRefMany
| TSpan | TExt | TNodeRefSpan.
Definition tname_eqb (a b : tname) : bool :=
  match a, b with
  | TUnknown, TUnknown | TI32, TI32 | TI64, TI64 | TF64, TF64 | TBool, TBool | TString, TString
  | TBinary, TBinary | TNodeRef, TNodeRef | TNodeRefMany, TNodeRefMany | TSpan, TSpan
  | TExt, TExt | TNodeRefSpan, TNodeRefSpan => true
  | _, _ => false
  end.

(** model.py 892-1066: the class of a data type object decides its [is_valid] method *)
Inductive dtclass :=
| KBase | KBool | KInt32 | KInt64 | KFloat | KString | KBinary | KNodespan | KTextspan
| KNoderef | KNoderefList.

(** model.py 897-900: DataType.__init__ *)
Record dtype := mkDT { dt_class : dtclass; dt_name : tname; dt_opts : dict value }.

(** model.py 83-86: Node.__init__; the node's own dict, _id and collection *)
Record node := mkNode { n_fields : dict value; n_id : Z; n_coll : option lid }.
(** model.py 1292-1299, 1224-1226: NodeLayerCollection with its NodeLayerSchema.
    Simplification: each layer owns its schema object (two layers built from one
    NodeLayerSchema object would share its field dictionary). *)
Record layer := mkLayer {
  l_name : pystr;
  l_fields : dict dtype;
  l_nodes : list (option nid);     (* _nodes: None is a gap *)
  l_num : Z;
  l_defaults : dict value }.

(** the objects of model.py 63-87 and 1292-1300 and assignments to their attributes *)
Record heap := mkHeap { h_node : nid -> node; h_nnext : nid; h_layer : lid -> layer; h_lnext : lid }.

(** the objects of model.py 63-87 and 1292-1300 and assignments to their attributes *)
Definition upd {A} (f : nat -> A) (k : nat) (v : A) : nat -> A := fun x => if Nat.eqb x k then v else f x.

(** the objects of model.py 63-87 and 1292-1300 and assignments to their attributes *)
Definition set_node (h : heap) (n : nid) (x : node) : heap :=
  mkHeap (upd (h_node h) n x) (h_nnext h) (h_layer h) (h_lnext h).
(** the objects of model.py 63-87 and 1292-1300 and assignments to their attributes *)
Definition set_layer (h : heap) (l : lid) (x : layer) : heap :=
  mkHeap (h_node h) (h_nnext h) (upd (h_layer h) l x) (h_lnext h).
(** the objects of model.py 63-87 and 1292-1300 and assignments to their attributes *)
Definition alloc_node (h : heap) (x : node) : heap * nid :=
  (mkHeap (upd (h_node h) (h_nnext h) x) (S (h_nnext h)) (h_layer h) (h_lnext h), h_nnext h).
(** the objects of model.py 63-87 and 1292-1300 and assignments to their attributes *)
Definition alloc_layer (h : heap) (x : layer) : heap * lid :=
  (mkHeap (h_node h) (h_nnext h) (upd (h_layer h) (h_lnext h) x) (S (h_lnext h)), h_lnext h).

(** shorthands for attribute access and assignment (the objects of model.py 63-87 and 1292-1300 and assignments to their attributes) *)
Definition n_fieldsof (h : heap) (n : nid) := n_fields (h_node h n).
(** the objects of model.py 63-87 and 1292-1300 and assignments to their attributes *)
Definition n_idof (h : heap) (n : nid) := n_id (h_node h n).
(** the objects of model.py 63-87 and 1292-1300 and assignments to their attributes *)
Definition n_collof (h : heap) (n : nid) := n_coll (h_node h n).
(** the objects of model.py 63-87 and 1292-1300 and assignments to their attributes *)
Definition l_nodesof (h : heap) (l : lid) := l_nodes (h_layer h l).
(** the objects of model.py 63-87 and 1292-1300 and assignments to their attributes *)
Definition l_numof (h : heap) (l : lid) := l_num (h_layer h l).
(** the objects of model.py 63-87 and 1292-1300 and assignments to their attributes *)
Definition l_nameof (h : heap) (l : lid) := l_name (h_layer h l).
(** the objects of model.py 63-87 and 1292-1300 and assignments to their attributes *)
Definition set_id (h : heap) (n : nid) (i : Z) : heap :=
  let x := h_node h n in set_node h n (mkNode (n_fields x) i (n_coll x)).
(** the objects of model.py 63-87 and 1292-1300 and assignments to their attributes *)
Definition set_coll (h : heap) (n : nid) (c : option lid) : heap :=
  let x := h_node h n in set_node h n (mkNode (n_fields x) (n_id x) c).
(** the objects of model.py 63-87 and 1292-1300 and assignments to their attributes *)
Definition set_fields (h : heap) (n : nid) (f : dict value) : heap :=
  let x := h_node h n in set_node h n (mkNode f (n_id x) (n_coll x)).
(** the objects of model.py 63-87 and 1292-1300 and assignments to their attributes *)
Definition set_nodes (h : heap) (l : lid) (ns : list (option nid)) : heap :=
  let x := h_layer h l in set_layer h l (mkLayer (l_name x) (l_fields x) ns (l_num x) (l_defaults x)).
(** the objects of model.py 63-87 and 1292-1300 and assignments to their attributes *)
Definition set_num (h : heap) (l : lid) (k : Z) : heap :=
  let x := h_layer h l in set_layer h l (mkLayer (l_name x) (l_fields x) (l_nodes x) k (l_defaults x)).
(** the objects of model.py 63-87 and 1292-1300 and assignments to their attributes *)
Definition set_schema (h : heap) (l : lid) (fs : dict dtype) (ds : dict value) : heap :=
  let x := h_layer h l in set_layer h l (mkLayer (l_name x) fs (l_nodes x) (l_num x) ds).

(** model.py 83-86: Node with keyword fields *)
Definition new_node (h : heap) (f : dict value) : heap * nid := alloc_node h (mkNode f (-1) None).

(** model.py 88-96: Node.i *)
Definition node_i (h : heap) (n : nid) : res Z :=
  if n_idof h n =? -1 then Err AssertionError else Ok (n_idof h n).

(** An operation that changes the heap returns the new heap also when it raises (the objects of model.py 63-87 and 1292-1300 and assignments to their attributes) *)
Definition hres (A : Type) : Type := heap * res A.
