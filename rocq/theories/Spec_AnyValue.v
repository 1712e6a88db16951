(** Documents with values of any kind: as XML trees; references to nodes that are no nodes. *)
From Verif Require Import PyBase Model_Text Model_Heap Model_Layer Model_Types Model_Msgpack Model_Document Spec_Layer Spec_Document Spec_Codec Spec_Coerce.
Local Open Scope Z_scope.

(** k is h, but that fields of the nodes of the document hold converted values *)
Record converted (h : heap) (d : doc) (k : heap) : Prop := {
  cd_layers : forall l, layer_iter k l = layer_iter h l /\ l_nameof k l = l_nameof h l /\ l_fields (h_layer k l) = l_fields (h_layer h l);
  cd_nodes : forall n, n_collof k n = n_collof h n /\ dkeys (n_fieldsof k n) = dkeys (n_fieldsof h n);
  cd_declared : forall x l n f t, doc_node h d x l n -> dget (l_fields (h_layer h l)) f = Some t ->
      kept_or_converted h t (dget (n_fieldsof h n) f) (dget (n_fieldsof k n) f);
  cd_others : forall x l n f, doc_node h d x l n -> dget (l_fields (h_layer h l)) f = None -> dget (n_fieldsof k n) f = dget (n_fieldsof h n) f }.

(** What iterating over a value gives; None is an object that is no node. *)
Inductive listed (h : heap) : value -> list (option nid) -> Prop :=
| li_list l : listed h (VNodeList l) l
| li_span a b ns : nodespan_iter h a b = Ok ns -> listed h (VNodeSpan a b) (map Some ns)
| li_str x : listed h (VStr x) (map (fun _ => None) x)
| li_bytes x : listed h (VBytes x) (map (fun _ => None) x)
| li_text c t a b : listed h (VSpan c t a b) (map (fun _ => None) (firstn (Z.to_nat (b - a)) (skipn (Z.to_nat a) t)))
| li_node n : listed h (VNode n) (map (fun _ => None) (n_fieldsof h n)).
Inductive not_listed (h : heap) : value -> exn -> Prop :=
| nl_plain v : match v with VBool _ | VInt _ | VFloat _ | VExt _ _ => True | _ => False end -> not_listed h v TypeError
| nl_span a b e : nodespan_iter h a b = Err e -> not_listed h (VNodeSpan a b) e.
(** the node has a number: it is or was in a layer *)
Definition has_number (h : heap) (n : nid) : Prop := n_idof h n <> -1.
