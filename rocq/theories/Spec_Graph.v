(** Graphs given by the list of children of each node: walks, distances, level order, preorder. *)
From Verif Require Import PyBase Model_Heap.
Local Open Scope Z_scope.

Section Graph.
Variable ch : nat -> list nat.
(** a walk of n steps *)
Inductive walk : nat -> nat -> nat -> Prop :=
| walk_nil x : walk x 0 x
| walk_step x n y z : walk x n y -> In z (ch y) -> walk x (S n) z.
Definition reach (x y : nat) : Prop := exists n, walk x n y.
Definition distance (x y n : nat) : Prop := walk x n y /\ forall m, walk x m y -> (n <= m)%nat.
(** only finitely many nodes can be reached *)
Definition finite_from (x : nat) : Prop := exists U, forall y, reach x y -> In y U.

(** the first occurrences of those elements that are not in v *)
Fixpoint firsts (v l : list nat) : list nat :=
  match l with
  | [] => []
  | x :: r => if in_dec Nat.eq_dec x v then firsts v r else x :: firsts (x :: v) r
  end.
(** level by level: v seen before, c the candidates at depth d in the order they are met *)
Inductive levels : nat -> list nat -> list nat -> list (nat * nat) -> Prop :=
| levels_end d v c : firsts v c = [] -> levels d v c []
| levels_next d v c out : firsts v c <> [] -> levels (S d) (firsts v c ++ v) (flat_map ch (firsts v c)) out ->
    levels d v c (map (pair d) (firsts v c) ++ out).
(** recursive preorder over a list of nodes: v seen before, v' seen afterwards *)
Inductive preorder : list nat -> list nat -> list nat -> list nat -> Prop :=
| pre_nil v : preorder v [] v []
| pre_seen v x r v' o : In x v -> preorder v r v' o -> preorder v (x :: r) v' o
| pre_visit v x r v1 o1 v2 o2 : ~ In x v -> preorder (x :: v) (ch x) v1 o1 -> preorder v1 r v2 o2 -> preorder v (x :: r) v2 (x :: o1 ++ o2).
(** a tree: the start is nobody's child, and no node has two parents *)
Definition tree_from (x : nat) : Prop :=
  (forall y, reach x y -> ~ In x (ch y)) /\
  (forall y z c, reach x y -> reach x z -> In c (ch y) -> In c (ch z) -> y = z).
(** the nodes of a traversal all of whose children come no later than themselves *)
Fixpoint closed_ones (seen o : list nat) : list nat :=
  match o with
  | [] => []
  | x :: r => (if forallb (fun c => if in_dec Nat.eq_dec c (x :: seen) then true else false) (ch x) then [x] else []) ++ closed_ones (x :: seen) r
  end.
End Graph.
(** what the generator yields when it is asked only for some nodes *)
Definition wanted (p : option (nat -> bool)) (x : nat) : bool := match p with Some q => q x | None => true end.
(** an answer that no longer depends on the fuel *)
Definition settles {A} (f : nat -> A) (a : A) : Prop := exists n, forall k, (n <= k)%nat -> f k = a.

(** ** children: the nodes that a field refers to *)
Definition referred (h : heap) (n : nid) (f : pystr) : list value :=
  match dget (n_fields (h_node h n)) f with
  | Some (VNode m) => [VNode m]
  | Some (VNodeList l) => map (fun o => match o with Some m => VNode m | None => VOther 0 end) l
  | _ => []
  end.
(** the field is declared as one or as many nodes, and holds nothing else *)
Definition field_fits (fields : dict dtype) (h : heap) (n : nid) (f : pystr) : Prop :=
  exists t, dget fields f = Some t /\
    ((dt_name t = TNodeRef /\ forall v, dget (n_fields (h_node h n)) f = Some v -> exists m, v = VNode m) \/
     (dt_name t = TNodeRefMany /\ forall v, dget (n_fields (h_node h n)) f = Some v -> exists l, v = VNodeList l)).

(** ** children that raise *)
(** [bad x]: what children raises for x *)
Definition raising (ch : nat -> list nat) (bad : nat -> option exn) (x : nat) : res (list nat) := match bad x with Some e => Err e | None => Ok (ch x) end.
(** an order, up to the first node for which children raises: the nodes before it, and the node *)
Fixpoint until {A} (bad : A -> option exn) (l : list A) : list A * option (A * exn) :=
  match l with
  | [] => ([], None)
  | x :: r => match bad x with Some e => ([], Some (x, e)) | None => let (a, q) := until bad r in (x :: a, q) end
  end.
Definition ending {A} (q : option (A * exn)) : res unit := match q with Some (_, e) => Err e | None => Ok tt end.
Definition raiser {A} (q : option (A * exn)) : list A := match q with Some (x, _) => [x] | None => [] end.
