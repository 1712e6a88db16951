(** Words for what the code does where it departs from a property: C12, C15, C44. *)
From Verif Require Import PyBase Model_Heap Model_Layer Spec_Layer.
Local Open Scope Z_scope.

(** a node in no layer that has fields: repr(node) raises AttributeError *)
Definition unprintable (h : heap) (n : nid) : Prop := n_collof h n = None /\ n_fieldsof h n <> [].
(** the item at which a removal of several stops *)
Fixpoint stops_at (c : list nid) (items : list ritem) : option ritem :=
  match items with
  | [] => None
  | RNone :: r => stops_at c r
  | ROther :: _ => Some ROther
  | RNode n :: r => if mem_nid n c then stops_at (without n c) r else Some (RNode n)
  end.

(** the nodes in a field that holds one node or a list of nodes *)
Definition nodes_in (h : heap) (n : nid) (f : pystr) : list nid :=
  match dget (n_fieldsof h n) f with
  | Some (VNode m) => [m]
  | Some (VNodeList l) => flat_map (fun o => match o with Some m => [m] | None => [] end) l
  | _ => []
  end.
(** from field to field: the nodes in the first field of n; the nodes in the second field of the last of them, or of n
    if there are none; and so on *)
Fixpoint walked (h : heap) (n : nid) (fs : list pystr) : list nid :=
  match fs with
  | [] => []
  | f :: r => nodes_in h n f ++ walked h (List.last (nodes_in h n f) n) r
  end.
(** lists of nodes only *)
Definition all_nodes (h : heap) (n : nid) (f : pystr) : Prop := forall l, dget (n_fieldsof h n) f = Some (VNodeList l) -> ~ In None l.
