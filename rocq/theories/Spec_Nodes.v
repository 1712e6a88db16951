(** What node lists, node spans and node collections are to show. *)
From Verif Require Import PyBase Model_Heap Model_Types Spec_Text.
Local Open Scope Z_scope.

(** The nodes give the field f the type t: t is declared by the layer of a node, or inferred from the value in a node that is in no layer. *)
Inductive contributes (h : heap) (ns : list nid) (f : pystr) (t : dtype) : Prop :=
| co_layer n l : In n ns -> n_collof h n = Some l -> In (f, t) (l_fields (h_layer h l)) -> contributes h ns f t
| co_value n v : In n ns -> n_collof h n = None -> In (f, v) (n_fieldsof h n) -> typeof h v None = Ok t -> contributes h ns f t.
(** all types of the field have one name *)
Definition agree (h : heap) (ns : list nid) (f : pystr) : Prop :=
  forall t u, contributes h ns f t -> contributes h ns f u -> dt_name t = dt_name u.
Definition number_type (t : tname) : Prop := t = TBool \/ t = TI32 \/ t = TI64 \/ t = TF64.
(** the types of the field can be merged: one name, or only numbers *)
Definition mergeable (h : heap) (ns : list nid) (f : pystr) : Prop :=
  forall t u, contributes h ns f t -> contributes h ns f u -> dt_name t = dt_name u \/ number_type (dt_name t) /\ number_type (dt_name u).
(** type options without lists (a list cannot be in a set) *)
Definition plain_options (t : dtype) : Prop := forall k v, In (k, v) (dt_opts t) -> forall l, v <> VNodeList l.
(** every value of a node outside layers has a type *)
Definition all_typed (h : heap) (ns : list nid) : Prop :=
  forall n f v, In n ns -> n_collof h n = None -> In (f, v) (n_fieldsof h n) -> exists t, typeof h v None = Ok t.
(** an iteration order of a set: a rearrangement *)
Definition rearranges {A} (order : list A -> list A) : Prop := forall l, Permutation (order l) l.

(** the span that the field of a node holds *)
Definition field_span (h : heap) (f : pystr) (n : nid) (name t : pystr) (a b : Z) : Prop :=
  dget (n_fieldsof h n) f = Some (VSpan name t a b) /\ 0 <= a <= b /\ b <= zlen t.
(** spans in reading order *)
Inductive in_order (h : heap) (f : pystr) (name t : pystr) : list nid -> Prop :=
| io_nil : in_order h f name t []
| io_one n a b : field_span h f n name t a b -> in_order h f name t [n]
| io_cons n m r a b c d : field_span h f n name t a b -> field_span h f m name t c d -> a <= c -> b <= d ->
    in_order h f name t (m :: r) -> in_order h f name t (n :: m :: r).
(** the characters at positions a .. b-1 *)
Definition chars (t : pystr) (a b : Z) : pystr := doc_slice t (Some a) (Some b).
