(** Which objects a call is given, and what it may touch. *)
From Verif Require Import PyBase Model_Heap Model_Layer Model_Types Model_Document Spec_Layer Spec_History Spec_Program.
Local Open Scope Z_scope.

Section Local.
Context {K : Type} (leb : K -> K -> bool).
(** the layers that a call is made on *)
Definition call_layers (o : lop (K:=K)) : list lid :=
  match o with
  | ONode _ | OLayer _ _ | ODetach _ | OSetField _ _ _ | ODelField _ _ => []
  | OAdd l _ | OAddNodes l _ | OAddMany l _ _ _ _ | ORemove l _ | ORemoveMany l _ _ | ORetain l _ | OSort l _ | OCompact l
  | OAddField l _ _ _ | ORemoveField l _ _ => [l]
  | OCompile ls => ls
  end.
(** the nodes that it is given to work on (not those that a field value refers to) *)
Definition call_nodes (o : lop (K:=K)) : list nid :=
  match o with
  | OAddNodes _ ns | OAddMany _ _ ns _ _ | ORetain _ ns => live ns
  | ORemove _ n | ODetach n | OSetField n _ _ | ODelField n _ => [n]
  | ORemoveMany _ _ items => ritem_nodes items
  | _ => []
  end.

(** A part of the objects: some nodes and some layers. *)
Record area := mkArea { a_node : nid -> Prop; a_layer : lid -> Prop }.
(** Its layers hold its nodes, its nodes are in its layers, and objects made from now on belong to it. *)
Record closed_area (a : area) (h : heap) : Prop := {
  cl_slot : forall l n, a_layer a l -> In (Some n) (l_nodesof h l) -> a_node a n;
  cl_coll : forall n l, a_node a n -> n_collof h n = Some l -> a_layer a l;
  cl_newn : forall n, (h_nnext h <= n)%nat -> a_node a n;
  cl_newl : forall l, (h_lnext h <= l)%nat -> a_layer a l }.
Definition within (a : area) (o : lop (K:=K)) : Prop := Forall (a_layer a) (call_layers o) /\ Forall (a_node a) (call_nodes o).
(** nothing about the other objects changed *)
Definition rest_same (a : area) (h h' : heap) : Prop :=
  (forall n, ~ a_node a n -> h_node h' n = h_node h n) /\ (forall l, ~ a_layer a l -> h_layer h' l = h_layer h l).

(** A program on a document (Spec_Program) without conditions on its statements. *)
Definition drun_all (h : heap) (d : doc) (os : list (dop (K:=K))) : heap * doc :=
  fold_left (fun hd o => drun leb (fst hd) (snd hd) o) os (h, d).
Definition doc_layer (d : doc) (l : lid) : Prop := exists k, In (k, l) (d_layers d).
Definition dwithin (a : area) (o : dop (K:=K)) : Prop := match o with DCall c => within a c | _ => True end.
(** the objects of a document: its layers and their nodes *)
Definition doc_part (h : heap) (d : doc) (n : nid) : Prop := exists l, doc_layer d l /\ n_collof h n = Some l.
(** a call that is given no object of the document *)
Definition apart (h : heap) (d : doc) (o : dop (K:=K)) : Prop :=
  match o with
  | DCall c => (forall l, In l (call_layers c) -> ~ doc_layer d l) /\ (forall n, In n (call_nodes c) -> ~ doc_part h d n)
  | _ => True
  end.
End Local.
(** what a program cannot tell apart about the layers and nodes of a document *)
Definition doc_same (h h' : heap) (d : doc) : Prop :=
  (forall l, doc_layer d l -> h_layer h' l = h_layer h l) /\ (forall n, doc_part h d n -> h_node h' n = h_node h n).
