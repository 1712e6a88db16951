(** Calls that must fail: the words used to say when. *)
From Verif Require Import PyBase Model_Heap Model_Layer Model_Text Model_Types Model_Document Model_Query.
Local Open Scope Z_scope.

(** in no layer: new, or removed from its layer *)
Definition out (h : heap) (n : nid) : Prop := n_collof h n = None.
(** without a number (Node.i): every node that was never in a layer *)
Definition unnumbered (h : heap) (n : nid) : Prop := n_idof h n = -1.
(** not a position of the list, counted from either end *)
Definition off_list {A} (xs : list A) (i : Z) : Prop := i < - zlen xs \/ zlen xs <= i.
(** the first element, in order, on which f raises, and its exception *)
Definition first_raising {A B} (f : A -> res B) (xs : list A) (e : exn) : Prop :=
  exists pre x post, xs = pre ++ x :: post /\ (forall y, In y pre -> exists b, f y = Ok b) /\ f x = Err e.

(** ** Predicates *)
(** bool, int, float *)
Inductive numeric_value : value -> Prop := nv_bool b : numeric_value (VBool b) | nv_int i : numeric_value (VInt i) | nv_float x : numeric_value (VFloat x).
(** the values that <, <=, >, >= can compare: two numbers, two strings, two byte strings, two lists of nodes of which one begins with the other *)
Inductive comparable : value -> value -> Prop :=
| cp_num a b : numeric_value a -> numeric_value b -> comparable a b
| cp_str x y : comparable (VStr x) (VStr y)
| cp_bytes x y : comparable (VBytes x) (VBytes y)
| cp_list x r : comparable (VNodeList (map Some x)) (VNodeList (map Some (x ++ r)))
| cp_list' x r : comparable (VNodeList (map Some (x ++ r))) (VNodeList (map Some x)).
(** no list with elements that are not nodes *)
Definition proper (v : value) : Prop := forall l, v = VNodeList l -> exists x, l = map Some x.
(** equal, or the same NaN object: how dict.__ne__ compares the values of two dictionaries *)
Definition same_value (same : value -> value -> bool) (x y : value) : Prop :=
  py_eq same x y = true \/ exists p q, x = VFloat p /\ y = VFloat q /\ dbl_of p = DNan /\ dbl_of q = DNan /\ same x y = true.

(** ** What span_translate needs of the document *)
Inductive req := RLayer (k : pystr) | RField (k f : pystr).
(** the document lacks the layer, the layer lacks the field, the field is no text span *)
Inductive fails (h : heap) (d : doc) : req -> exn -> Prop :=
| fl_layer k : dget (d_layers d) k = None -> fails h d (RLayer k) KeyError
| fl_field k l f : dget (d_layers d) k = Some l -> dget (l_fields (h_layer h l)) f = None -> fails h d (RField k f) KeyError
| fl_type k l f t : dget (d_layers d) k = Some l -> dget (l_fields (h_layer h l)) f = Some t -> dt_name t <> TSpan -> fails h d (RField k f) AssertionError.
