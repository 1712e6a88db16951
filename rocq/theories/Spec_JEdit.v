(** What editing a document of the Java port may do, said without the operations. *)
From Verif Require Import PyBase Model_Text Model_Heap Model_Layer Model_Types Model_JUnits Model_JCodec Model_JEdit Spec_Msgpack Spec_JUnits Spec_JCodec Spec_JEncode.
Local Open Scope Z_scope.

(** ** types *)
(** the types that DataTypes makes *)
Inductive made_type : jdtype -> Prop :=
| de_plain t : In t [TI32; TI64; TF64; TBool; TString; TBinary] -> made_type (mkJT (JT t) [])
| de_span c : made_type (mkJT (JT TSpan) [(s "context", JStr c)])
| de_ext y : made_type (mkJT (JT TExt) [(s "type", JStr y)])
| de_ref t x : In t [TNodeRef; TNodeRefMany; TNodeRefSpan] -> made_type (mkJT (JT t) [(s "layer", JStr x)]).
(** the type says what the value is *)
Inductive describes : jdtype -> jv -> Prop :=
| ds_int i : describes (mkJT (JT TI32) []) (JInt i)
| ds_long i : describes (mkJT (JT TI64) []) (JLong i)
| ds_double b : describes (mkJT (JT TF64) []) (JDouble b)
| ds_bool b : describes (mkJT (JT TBool) []) (JBool b)
| ds_str x : describes (mkJT (JT TString) []) (JStr x)
| ds_bin x : describes (mkJT (JT TBinary) []) (JBin x)
| ds_ext y x : describes (mkJT (JT TExt) [(s "type", JStr y)]) (JExt y x)
| ds_span c p q : describes (mkJT (JT TSpan) [(s "context", JStr c)]) (JSpan c p q)
| ds_node x p : describes (mkJT (JT TNodeRef) [(s "layer", JStr x)]) (JNode x p)
| ds_nodes x ps : ps <> [] -> describes (mkJT (JT TNodeRefMany) [(s "layer", JStr x)]) (JNodes x ps)
| ds_nodespan x p q : describes (mkJT (JT TNodeRefSpan) [(s "layer", JStr x)]) (JNodeSpan x p q).
(** the field refers to the text called c *)
Definition about_text (c : pystr) (t : jdtype) : Prop := ty_name t = JT TSpan /\ argument t (s "context") c.
(** the field holds nodes of the layer called x *)
Definition about_layer (x : pystr) (t : jdtype) : Prop := (ty_name t = JT TNodeRef \/ ty_name t = JT TNodeRefMany) /\ argument t (s "layer") x.
(** some field of some layer *)
Definition some_field (P : jdtype -> Prop) (j : jdoc) : Prop := exists k fs rows f t, In (k, (fs, rows)) (jd_layers j) /\ In (f, t) fs /\ P t.
(** all fields have types that DataTypes makes; names are unique *)
Definition all_declared (j : jdoc) : Prop :=
  NoDup (dkeys (jd_layers j)) /\
  forall k fs rows, In (k, (fs, rows)) (jd_layers j) -> NoDup (dkeys fs) /\ (forall f t, In (f, t) fs -> made_type t) /\ Forall (fun row => NoDup (dkeys row)) rows.

(** ** without certain fields *)
(** fs' are the entries of fs whose key is not among the fields, in the same order *)
Inductive without {A} (bad : pystr -> Prop) : dict A -> dict A -> Prop :=
| wo_nil : without bad [] []
| wo_drop f x r q : bad f -> without bad r q -> without bad ((f, x) :: r) q
| wo_keep f x r q : ~ bad f -> without bad r q -> without bad ((f, x) :: r) ((f, x) :: q).
(** the fields of a layer that have such a type *)
Definition of_type (P : jdtype -> Prop) (fs : dict jdtype) (f : pystr) : Prop := exists t, In (f, t) fs /\ P t.
Definition layer_without (P : jdtype -> Prop) (l m : dict jdtype * list (dict jv)) : Prop :=
  without (of_type P (fst l)) (fst l) (fst m) /\ Forall2 (without (of_type P (fst l))) (snd l) (snd m).
Record doc_without (P : jdtype -> Prop) (j k : jdoc) : Prop := {
  dw_props : jd_props k = jd_props j;
  dw_texts : jd_texts k = jd_texts j;
  dw_layers : Forall2 (again (layer_without P)) (jd_layers j) (jd_layers k) }.

(** ** values that exist *)
Inductive jvalue_ok (j : jdoc) : jv -> Prop :=
| vk_int i : int_range i -> jvalue_ok j (JInt i)
| vk_long i : long_range i -> jvalue_ok j (JLong i)
| vk_double b : (b < 18446744073709551616)%N -> jvalue_ok j (JDouble b)
| vk_bool b : jvalue_ok j (JBool b)
| vk_str x : jvalue_ok j (JStr x)
| vk_bin x : bytes x -> jvalue_ok j (JBin x)
| vk_ext y x : bytes x -> jvalue_ok j (JExt y x)
| vk_span c x p q : holds_text j c x -> 0 <= p <= q -> q <= zlen x -> jvalue_ok j (JSpan c (upos x p) (upos x q))
| vk_node x p : has_node j x p -> jvalue_ok j (JNode x p)
| vk_nodes x ps : Forall (has_node j x) ps -> jvalue_ok j (JNodes x ps)
| vk_nodespan x p q : (p <= q)%nat -> has_node j x q -> jvalue_ok j (JNodeSpan x p q).
(** what the caller of an operation sees to: values that exist, texts of scalar values, types made by DataTypes, and no second layer of one name *)
Inductive edit_ok (j : jdoc) : edit -> Prop :=
| eo_prop k v : jscalar v -> edit_ok j (SetProp k v)
| eo_text c x : Forall (fun k => k < 0xD800 \/ 0xDFFF < k < 0x110000)%N x -> edit_ok j (AddText c x)
| eo_layer x l : ~ In x (dkeys (jd_layers j)) -> Forall (fun ft => made_type (snd ft)) l -> edit_ok j (AddLayer x l)
| eo_field x f t : made_type t -> edit_ok j (AddField x f t)
| eo_drop x f : edit_ok j (RemoveField x f)
| eo_node x l : Forall (fun fv => jvalue_ok j (snd fv)) l -> edit_ok j (AddNode x l)
| eo_rtext c b : edit_ok j (RemoveText c b)
| eo_rlayer x b : edit_ok j (RemoveLayer x b).
(** documents that come about by such calls; a call that raises is a step like any other *)
Inductive made : jdoc -> Prop :=
| made_new : made (mkJDoc [] [] [])
| made_edit j e : made j -> edit_ok j e -> made (fst (run_edit e j)).
(** spans of nodes, which validateSchema does not look at, name layers of the document *)
Definition spans_named (j : jdoc) : Prop := forall k fs rows f t x, In (k, (fs, rows)) (jd_layers j) -> In (f, t) fs ->
  ty_name t = JT TNodeRefSpan -> argument t (s "layer") x -> In x (dkeys (jd_layers j)).
Definition few_nodes (j : jdoc) : Prop := forall k fs rows, In (k, (fs, rows)) (jd_layers j) -> zlen rows < 2147483648.
Definition no_bytes (j : jdoc) : Prop := forall k fs rows row f v, In (k, (fs, rows)) (jd_layers j) -> In row rows -> dget row f = Some v -> forall x, v <> JBin x.
