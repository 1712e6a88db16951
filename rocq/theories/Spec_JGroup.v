(** When Java and Python can be compared on grouping by span. *)
From Verif Require Import PyBase Model_Heap Model_Layer Model_Document Model_JGroup Spec_Algorithm.
From Coq Require Import Sorting.Permutation.
Local Open Scope Z_scope.

(** one of the group nodes, or a node of one of the layers *)
Definition takes_part (b : gbuilder) (n : nid) : Prop := In n (bg_groups b) \/ exists layer ns, In (layer, ns) (bg_layers b) /\ In n ns.
(** all of them are in layers, and no two have the same layer and id *)
Definition told_apart (h : heap) (b : gbuilder) : Prop :=
  (forall n, takes_part b n -> n_collof h n <> None) /\
  forall n m, takes_part b n -> takes_part b m -> n_idof h n = n_idof h m -> n_collof h n = n_collof h m -> n = m.
(** the builder after a row of group(name, nodes, spanfield) calls *)
Definition called (b : gbuilder) (calls : list (pystr * (list nid * pystr))) : gbuilder :=
  fold_left (fun b c => add_group b (fst c) (fst (snd c)) (snd (snd c))) calls b.
(** the last call under a name *)
Definition last_call (calls : list (pystr * (list nid * pystr))) (name : pystr) : option (list nid * pystr) :=
  dget (rev calls) name.
(** every iteration order of the sets of a layer *)
Definition any_layer_order (ord : nat -> pystr -> list nid -> list nid) : Prop := forall k layer l, Permutation (ord k layer l) l.
(** the field is set to something that is no span *)
Definition no_span_value (h : heap) (f : pystr) (n : nid) : Prop := exists v, dget (n_fieldsof h n) f = Some v /\ forall p, ~ span_at h n f p.
