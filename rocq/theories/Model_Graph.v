(** Graph searches (py/docria/algorithm.py 45-97, 100-194): children_of, bfs, dfs, dfs_leaves.
    The searches are generators; here they give the list of everything yielded, and how the generator ended.
    [children] may raise; it does not depend on the state of the search (nor on changes the consumer makes between
    two items).  Nodes hash and compare by identity (model.py 144-148). *)
From Verif Require Import PyBase Model_Heap Model_Layer.
Local Open Scope Z_scope.

Definition memb (x : nat) (l : list nat) : bool := existsb (Nat.eqb x) l.
(** is_result and is_result(x), or not is_result (algorithm.py 99-194) *)
Definition emit (is_result : option (nat -> bool)) (x : nat) : bool := match is_result with Some p => p x | None => true end.

(** 100-131 *)
Fixpoint bfs_loop (fuel : nat) (children : nat -> res (list nat)) (is_result : option (nat -> bool))
  (visited : list nat) (queue : list (Z * nat)) : list (Z * nat) * res unit :=
  match queue with
  | [] => ([], Ok tt)
  | (depth, x) :: q =>
      match fuel with
      | O => ([], Err OutOfFuel)
      | S f =>
          if memb x visited then bfs_loop f children is_result visited q else
          let visited1 := x :: visited in
          let item := if emit is_result x then [(depth, x)] else [] in
          match children x with
          | Err e => (item, Err e)
          | Ok cs =>
              let more := map (fun c => (depth + 1, c)) (filter (fun c => negb (memb c visited1)) cs) in
              let (out, r) := bfs_loop f children is_result visited1 (q ++ more) in (item ++ out, r)
          end
      end
  end.
Definition bfs (fuel : nat) (start : nat) (children : nat -> res (list nat)) (is_result : option (nat -> bool)) : list (Z * nat) * res unit :=
  bfs_loop fuel children is_result [] [(0, start)].

(** stack.pop() (algorithm.py 131-194) *)
Definition pop (st : list nat) : option (list nat * nat) :=
  match rev st with [] => None | x :: r => Some (rev r, x) end.
(** 134-162 *)
Fixpoint dfs_loop (fuel : nat) (children : nat -> res (list nat)) (is_result : option (nat -> bool))
  (visited stack : list nat) : list nat * res unit :=
  match pop stack with
  | None => ([], Ok tt)
  | Some (st, x) =>
      match fuel with
      | O => ([], Err OutOfFuel)
      | S f =>
          if memb x visited then dfs_loop f children is_result visited st else
          let visited1 := x :: visited in
          let item := if emit is_result x then [x] else [] in
          match children x with
          | Err e => (item, Err e)
          | Ok cs =>
              let child_nodes := filter (fun c => negb (memb c visited1)) cs in
              let (out, r) := dfs_loop f children is_result visited1 (st ++ rev child_nodes) in (item ++ out, r)
          end
      end
  end.
Definition dfs (fuel : nat) (start : nat) (children : nat -> res (list nat)) (is_result : option (nat -> bool)) : list nat * res unit :=
  dfs_loop fuel children is_result [] [start].
(** 165-194 *)
Fixpoint leaves_loop (fuel : nat) (children : nat -> res (list nat)) (is_result : option (nat -> bool))
  (visited stack : list nat) : list nat * res unit :=
  match pop stack with
  | None => ([], Ok tt)
  | Some (st, x) =>
      match fuel with
      | O => ([], Err OutOfFuel)
      | S f =>
          if memb x visited then leaves_loop f children is_result visited st else
          let visited1 := x :: visited in
          match children x with
          | Err e => ([], Err e)
          | Ok cs =>
              let child_nodes := filter (fun c => negb (memb c visited1)) cs in
              let item := match child_nodes with [] => if emit is_result x then [x] else [] | _ => [] end in
              let (out, r) := leaves_loop f children is_result visited1 (st ++ rev child_nodes) in (item ++ out, r)
          end
      end
  end.
Definition dfs_leaves (fuel : nat) (start : nat) (children : nat -> res (list nat)) (is_result : option (nat -> bool)) : list nat * res unit :=
  leaves_loop fuel children is_result [] [start].

(** ** children_of: 45-97 *)
(** prop in n, and n[prop], for any object n; a node span and a string have their own [in] and raise other errors, which
    is not modelled, nor are lists other than of nodes: Unmodelled (algorithm.py 46-60) *)
Definition field_in (h : heap) (v : value) (prop : pystr) : res (option value) :=
  match v with
  | VNode n => Ok (dget (n_fieldsof h n) prop)
  | VNone | VBool _ | VInt _ | VFloat _ => Err TypeError
  | _ => Err Unmodelled
  end.
(** 49-54: the field's value *)
Definition node_iter (h : heap) (prop : pystr) (v : value) : res (list value) :=
  let* x := field_in h v prop in Ok (match x with Some y => [y] | None => [] end).
(** iter(x); an element that is not a node is some object (algorithm.py 46-60) *)
Definition iterate (h : heap) (v : value) : res (list value) :=
  match v with
  | VNodeList l => Ok (map (fun o => match o with Some n => VNode n | None => VOther 0 end) l)
  | VNodeSpan a b => let* l := nodespan_iter h a b in Ok (map VNode l)
  | VNone | VBool _ | VInt _ | VFloat _ => Err TypeError
  | _ => Err Unmodelled
  end.
(** 56-63: the elements of the field's value *)
Definition node_array_iter (h : heap) (prop : pystr) (v : value) : res (list value) :=
  let* x := field_in h v prop in match x with Some y => iterate h y | None => Ok [] end.
(** 74-82, 87-93: a field of the layer as a function *)
Definition yielder_of (fields : dict dtype) (prop : pystr) : res (heap -> value -> res (list value)) :=
  let* t := dgetE fields prop in
  match dt_name t with
  | TNodeRef => Ok (fun h => node_iter h prop)
  | TNodeRefMany => Ok (fun h => node_array_iter h prop)
  | _ => Err ValueError
  end.
(** 65-71: the loop variable of the inner loop is the node itself *)
Fixpoint compose (h : heap) (yielders : list (heap -> value -> res (list value))) (n : value) : res (list value) :=
  match yielders with
  | [] => Ok []
  | y :: r => let* l := y h n in let* m := compose h r (last l n) in Ok (l ++ m)
  end.
(** 73-97 *)
Definition children_of (fields : dict dtype) (props : list pystr) : res (heap -> value -> res (list value)) :=
  match props with
  | [] => Err ValueError
  | [p] => yielder_of fields p
  | _ => let* ys := mapM (yielder_of fields) props in Ok (fun h => compose h ys)
  end.
