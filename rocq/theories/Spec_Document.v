(** Specification vocabulary for documents. *)
From Verif Require Import PyBase Model_Heap Model_Layer Model_Types Model_Document Spec_Layer Spec_Types.
Local Open Scope Z_scope.

(** Nothing that a user can see differs, but for node numbers and gaps. *)
Record looks_same (h h' : heap) : Prop := {
  same_iter : forall l, layer_iter h' l = layer_iter h l;
  same_len : forall l, layer_len h' l = layer_len h l;
  same_contains : forall l n, layer_contains h' l n = layer_contains h l n;
  same_fields : forall n, n_fieldsof h' n = n_fieldsof h n;
  same_coll : forall n, n_collof h' n = n_collof h n;
  same_schema : forall l, l_fields (h_layer h' l) = l_fields (h_layer h l);
  same_name : forall l, l_nameof h' l = l_nameof h l }.

(** the layers of the document exist *)
Definition known (h : heap) (d : doc) : Prop := forall k l, In (k, l) (d_layers d) -> (l < h_lnext h)%nat.
(** node n is in the layer called k of the document *)
Definition doc_node (h : heap) (d : doc) (k : pystr) (l : lid) (n : nid) : Prop :=
  In (k, l) (d_layers d) /\ In (Some n) (layer_iter h l).
(** both ends of every node span are (still) in one layer, or both in none *)
Definition spans_joined (h : heap) (d : doc) : Prop :=
  forall k l n f a b, doc_node h d k l n -> dget (n_fieldsof h n) f = Some (VNodeSpan a b) -> n_collof h a = n_collof h b.
(** a field of type t declares the layer name x to be its target *)
Definition targets_layer (t : dtype) (x : pystr) : Prop :=
  In (dt_name t) [TNodeRef; TNodeRefMany; TNodeRefSpan] /\ dget (dt_opts t) (s "layer") = Some (VStr x).
Definition targets_text (t : dtype) (x : pystr) : Prop :=
  dt_name t = TSpan /\ dget (dt_opts t) (s "context") = Some (VStr x).
Definition declared (h : heap) (d : doc) (k : pystr) (f : pystr) (t : dtype) : Prop :=
  exists l, In (k, l) (d_layers d) /\ In (f, t) (l_fields (h_layer h l)).
(** the option that the field's type name needs is a name *)
Definition option_ok (t : dtype) : Prop :=
  (In (dt_name t) [TNodeRef; TNodeRefMany; TNodeRefSpan] -> exists x, dget (dt_opts t) (s "layer") = Some (VStr x)) /\
  (dt_name t = TSpan -> exists x, dget (dt_opts t) (s "context") = Some (VStr x)).
(** a field that refers to nodes of layer [name], node spans left out (see C23) *)
Definition refers_to (name : pystr) (t : dtype) : Prop := In (dt_name t) [TNodeRef; TNodeRefMany] /\ dget (dt_opts t) (s "layer") = Some (VStr name).
