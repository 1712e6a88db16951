(** Which references in a file the Java port refuses, said over the columns of a layer. *)
From Verif Require Import PyBase Model_Heap Model_JStream Model_Codec Model_JCodec Spec_JEncode.
Local Open Scope Z_scope.

(** the types that hold positions of nodes *)
Definition ref_type (t : jdtype) : Prop := ty_name t = JT TNodeRef \/ ty_name t = JT TNodeRefMany \/ ty_name t = JT TNodeRefSpan.
(** what the nodes hold in one field *)
Definition column (f : pystr) (nodes : list (dict jv)) : list (option jv) := map (fun n => dget n f) nodes.
(** there is a node at position i of a layer with so many nodes; None is a layer that does not exist *)
Definition node_exists (size : option nat) (i : Z) : Prop := exists n, size = Some n /\ 0 <= i < Z.of_nat n.
(** otherwise a NullPointerException or an IndexOutOfBoundsException *)
Inductive no_node (size : option nat) (i : Z) : exn -> Prop :=
| nn_layer : size = None -> no_node size i AttributeError
| nn_index n : size = Some n -> ~ 0 <= i < Z.of_nat n -> no_node size i IndexError.

Inductive good_ref (size : option nat) : jv -> Prop :=
| gr_node i : node_exists size i -> good_ref size (JInt i)
| gr_nodes is : is <> [] -> Forall (node_exists size) is -> good_ref size (JHold is)
| gr_range a b : node_exists size a -> node_exists size b -> a <= b -> good_ref size (JHoldSpan a b).
Inductive bad_ref (size : option nat) : jv -> exn -> Prop :=
| br_node i e : no_node size i e -> bad_ref size (JInt i) e
(** an IllegalArgumentException *)
| br_empty : bad_ref size (JHold []) ValueError
| br_nodes is i is' e : Forall (node_exists size) is -> no_node size i e -> bad_ref size (JHold (is ++ i :: is')) e
| br_left a b e : no_node size a e -> bad_ref size (JHoldSpan a b) e
| br_right a b e : node_exists size a -> no_node size b e -> bad_ref size (JHoldSpan a b) e
(** a DataInconsistencyException *)
| br_order a b : node_exists size a -> node_exists size b -> b < a -> bad_ref size (JHoldSpan a b) DataError.
(** a ClassCastException cannot come from a file: a reference field holds positions *)
Definition positions (v : jv) : Prop := match v with JInt _ | JHold _ | JHoldSpan _ _ => True | _ => False end.

Definition good_cell (size : option nat) (o : option jv) : Prop := match o with None => True | Some v => good_ref size v end.
Definition good_field (sizes : dict nat) (nodes : list (dict jv)) (ft : pystr * jdtype) : Prop :=
  ref_type (snd ft) -> exists x, argument (snd ft) (s "layer") x /\ Forall (good_cell (dget sizes x)) (column (fst ft) nodes).
(** the first value that is refused, or a field that names no layer *)
Inductive bad_field (sizes : dict nat) (nodes : list (dict jv)) (f : pystr) (t : jdtype) : exn -> Prop :=
| bf_unnamed : ref_type t -> dget (ty_args t) (s "layer") = None -> bad_field sizes nodes f t AttributeError
| bf_value x pre v post e : ref_type t -> argument t (s "layer") x -> column f nodes = pre ++ Some v :: post -> Forall (good_cell (dget sizes x)) pre ->
    bad_ref (dget sizes x) v e -> bad_field sizes nodes f t e.
(** what a file can have in a reference field *)
Definition plain_field (nodes : list (dict jv)) (ft : pystr * jdtype) : Prop :=
  ref_type (snd ft) -> match dget (ty_args (snd ft)) (s "layer") with Some (JStr _) | None => True | _ => False end /\
                       forall v, In (Some v) (column (fst ft) nodes) -> positions v.

(** ** the whole file *)
(** the sections of the file can be read, and its layers are as given, with positions in place of nodes *)
Definition sections_read (bs : list N) (layers : dict (dict jdtype * list (dict jv))) : Prop :=
  exists r props r1 sch r2 texts r3 r4, mu_payload 4 bs = Ok (magic, r) /\ jread_props r = Ok (props, r1) /\ jread_schema r1 = Ok (sch, r2) /\ jread_texts r2 = Ok (texts, r3) /\
    jread_layers texts sch r3 = Ok (layers, r4).
(** the number of nodes of each layer *)
Definition layer_sizes (layers : dict (dict jdtype * list (dict jv))) : dict nat := map (fun kl => (fst kl, length (snd (snd kl)))) layers.
(** the option called layer is a string where it is given *)
Definition string_options (layers : dict (dict jdtype * list (dict jv))) : Prop :=
  forall k fs nodes f t, In (k, (fs, nodes)) layers -> In (f, t) fs -> ref_type t -> match dget (ty_args t) (s "layer") with Some (JStr _) | None => True | _ => False end.
Definition good_layer (sizes : dict nat) (kl : pystr * (dict jdtype * list (dict jv))) : Prop := Forall (good_field sizes (snd (snd kl))) (fst (snd kl)).
(** the first layer with a field that is refused, and such a field.  The Java port goes through the fields by name (a TreeMap), the model in the order of the file;
    so nothing is said here about which of several such fields it is. *)
Definition some_bad (layers : dict (dict jdtype * list (dict jv))) (e : exn) : Prop :=
  exists ls k fs nodes ls' f t, layers = ls ++ (k, (fs, nodes)) :: ls' /\ Forall (good_layer (layer_sizes layers)) ls /\ In (f, t) fs /\ bad_field (layer_sizes layers) nodes f t e.
(** there is only one such field in that layer *)
Definition one_bad (layers : dict (dict jdtype * list (dict jv))) (e : exn) : Prop :=
  exists ls k fs1 f t fs2 nodes ls', layers = ls ++ (k, (fs1 ++ (f, t) :: fs2, nodes)) :: ls' /\ Forall (good_layer (layer_sizes layers)) ls /\
    Forall (good_field (layer_sizes layers) nodes) (fs1 ++ fs2) /\ bad_field (layer_sizes layers) nodes f t e.

(** what comes before the layers can be read; r is left *)
Definition before_layers (bs : list N) (sch : dict (dict jdtype)) (texts : dict (list N * list Z)) (r : list N) : Prop :=
  exists r0 props r1 r2, mu_payload 4 bs = Ok (magic, r0) /\ jread_props r0 = Ok (props, r1) /\ jread_schema r1 = Ok (sch, r2) /\ jread_texts r2 = Ok (texts, r).
