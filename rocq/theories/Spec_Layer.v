(** Specification vocabulary for layers: the list a layer stands for, and the consistency of a heap. *)
From Verif Require Import PyBase Model_Heap Model_Layer Model_Types.
Local Open Scope Z_scope.

(** The plain ordered list of nodes that the slots of a layer stand for. *)
Definition content (h : heap) (l : lid) : list nid := live (l_nodesof h l).

(** One layer and the nodes that claim to be in it agree. *)
Record layer_ok (h : heap) (l : lid) : Prop := {
  ok_num : l_numof h l = zlen (content h l);
  ok_slot : forall i n, nth_error (l_nodesof h l) i = Some (Some n) ->
      n_idof h n = Z.of_nat i /\ n_collof h n = Some l;
  ok_coll : forall n, n_collof h n = Some l ->
      exists i, n_idof h n = Z.of_nat i /\ nth_error (l_nodesof h l) i = Some (Some n) }.
(** All layers are consistent, unused object numbers are unbound, the cached defaults of a layer
    are those of its field types. *)
Record wf (h : heap) : Prop := {
  wf_layers : forall l, layer_ok h l;
  wf_fresh_n : forall n, (h_nnext h <= n)%nat -> n_collof h n = None;
  wf_fresh_l : forall l, (h_lnext h <= l)%nat -> l_nodesof h l = [];
  wf_defaults : forall l, l_defaults (h_layer h l) = defaults_of (l_fields (h_layer h l));
  wf_schema : forall l, NoDup (dkeys (l_fields (h_layer h l))) }.
(** every node is a dictionary: no key twice *)
Definition wf_keys (h : heap) : Prop := forall n, NoDup (dkeys (n_fieldsof h n)).

(** No gaps in layer l. *)
Definition no_gaps (h : heap) (l : lid) : Prop := ~ In None (l_nodesof h l).

(** Heaps that agree on everything but node numbers and the slots / count of layer l. *)
Record frame (l : lid) (h h' : heap) : Prop := {
  fr_layer : forall l', l' <> l -> h_layer h' l' = h_layer h l';
  fr_name : l_nameof h' l = l_nameof h l;
  fr_schema : l_fields (h_layer h' l) = l_fields (h_layer h l);
  fr_defaults : l_defaults (h_layer h' l) = l_defaults (h_layer h l);
  fr_nnext : h_nnext h' = h_nnext h;
  fr_lnext : h_lnext h' = h_lnext h }.

(** ... in which no node entered layer l, and only nodes of l were touched: a node of l stays or
    becomes unbound. *)
Record shrink (l : lid) (h h' : heap) : Prop := {
  sh_frame : frame l h h';
  sh_fields : forall n, n_fieldsof h' n = n_fieldsof h n;
  sh_other : forall n, n_collof h n <> Some l -> n_idof h' n = n_idof h n /\ n_collof h' n = n_collof h n;
  sh_mine : forall n, n_collof h n = Some l -> n_collof h' n = Some l \/ n_collof h' n = None }.

(** The heap before anything happened. *)
Definition empty_heap : heap :=
  mkHeap (fun _ => mkNode [] (-1) None) O (fun _ => mkLayer [] [] [] 0 []) O.

(** ** Plain list operations that the layer operations are compared with *)
Definition mem_nid (n : nid) (c : list nid) : bool := existsb (Nat.eqb n) c.
Definition without (n : nid) (c : list nid) : list nid := filter (fun m => negb (Nat.eqb m n)) c.
(** drop the given nodes one after the other; stop at the first that is not there *)
Fixpoint list_remove (c : list nid) (items : list ritem) : list nid * bool :=
  match items with
  | [] => (c, true)
  | RNone :: r => list_remove c r
  | ROther :: _ => (c, false)
  | RNode n :: r => if mem_nid n c then list_remove (without n c) r else (c, false)
  end.
(** the nodes to append, one after the other; stop at the first that is bound already *)
Fixpoint take_unbound (bound : nid -> bool) (seen : list nid) (ns : list (option nid)) : list nid * bool :=
  match ns with
  | [] => ([], true)
  | None :: _ => ([], false)
  | Some n :: r =>
      if bound n || mem_nid n seen then ([], false)
      else let '(a, ok) := take_unbound bound (n :: seen) r in (n :: a, ok)
  end.
Definition list_retain (c : list nid) (ns : list (option nid)) : list nid :=
  filter (fun n => existsb (fun o => match o with Some m => Nat.eqb m n | None => false end) ns) c.

Definition is_bound (h : heap) (n : nid) : bool := match n_collof h n with Some _ => true | None => false end.
(** sort by key; unchanged if some key cannot be computed *)
Definition list_sort {K} (leb : K -> K -> bool) (keyfn : nid -> res K) (c : list nid) : list nid :=
  match mapM keyfn c with
  | Ok ks => map snd (ssort fst leb (combine ks c))
  | Err _ => c
  end.
