(** Documents of the Java port, and what it means that the Python port, or the Java port itself, has read one back. *)
From Verif Require Import PyBase Model_Text Model_Heap Model_Layer Model_Types Model_Msgpack Model_Document Model_JUnits Model_JCodec
  Spec_Layer Spec_Types Spec_Msgpack Spec_Document Spec_Codec Spec_JUnits Spec_JCodec.
Local Open Scope Z_scope.

(** ** documents that hold what they declare *)
(** values of properties and of arguments of types *)
Inductive jscalar : jv -> Prop :=
| js_bool b : jscalar (JBool b)
| js_int i : int_range i -> jscalar (JInt i)
| js_long i : long_range i -> jscalar (JLong i)
| js_double b : (b < 18446744073709551616)%N -> jscalar (JDouble b)
| js_str x : jscalar (JStr x)
| js_bin x : bytes x -> jscalar (JBin x).
Definition argument (t : jdtype) (key x : pystr) : Prop := dget (ty_args t) key = Some (JStr x).
(** the text called c holds the code points x *)
Definition holds_text (j : jdoc) (c x : pystr) : Prop :=
  dget (jd_texts j) c = Some (utf16 x) /\ Forall (fun k => k < 0xD800 \/ 0xDFFF < k < 0x110000)%N x.
(** the layer called x has a node at position p *)
Definition has_node (j : jdoc) (x : pystr) (p : nat) : Prop :=
  exists fs rows, dget (jd_layers j) x = Some (fs, rows) /\ (p < length rows)%nat.
Inductive jtyped (j : jdoc) (t : jdtype) : jv -> Prop :=
| jy_int i : ty_name t = JT TI32 -> int_range i -> jtyped j t (JInt i)
| jy_long i : ty_name t = JT TI64 -> long_range i -> jtyped j t (JLong i)
| jy_double b : ty_name t = JT TF64 -> (b < 18446744073709551616)%N -> jtyped j t (JDouble b)
| jy_bool b : ty_name t = JT TBool -> jtyped j t (JBool b)
| jy_str x : ty_name t = JT TString -> jtyped j t (JStr x)
| jy_bin x : ty_name t = JT TBinary -> bytes x -> jtyped j t (JBin x)
| jy_ext y x : ty_name t = JT TExt -> argument t (s "type") y -> bytes x -> jtyped j t (JExt y x)
| jy_span c x p q : ty_name t = JT TSpan -> argument t (s "context") c -> holds_text j c x -> 0 <= p <= q -> q <= zlen x ->
    jtyped j t (JSpan c (upos x p) (upos x q))
| jy_node x p : ty_name t = JT TNodeRef -> argument t (s "layer") x -> has_node j x p -> jtyped j t (JNode x p)
| jy_nodes x ps : ty_name t = JT TNodeRefMany -> argument t (s "layer") x -> Forall (has_node j x) ps -> jtyped j t (JNodes x ps)
| jy_nodespan x p q : ty_name t = JT TNodeRefSpan -> argument t (s "layer") x -> (p <= q)%nat -> has_node j x q -> jtyped j t (JNodeSpan x p q).
(** a declared type: the arguments it needs name what the document has *)
Record jtype_ok (j : jdoc) (t : jdtype) : Prop := {
  jt_known : exists tn, ty_name t = JT tn /\ tn <> TUnknown;
  jt_layer : In (ty_name t) [JT TNodeRef; JT TNodeRefMany; JT TNodeRefSpan] -> exists x, argument t (s "layer") x /\ In x (dkeys (jd_layers j));
  jt_context : ty_name t = JT TSpan -> exists c, argument t (s "context") c /\ In c (dkeys (jd_texts j));
  jt_ext : ty_name t = JT TExt -> exists y, argument t (s "type") y;
  jt_args : NoDup (dkeys (ty_args t)) /\ forall k v, In (k, v) (ty_args t) -> jscalar v }.
Record jdoc_ok (j : jdoc) : Prop := {
  jk_props : NoDup (dkeys (jd_props j)) /\ forall k v, In (k, v) (jd_props j) -> jscalar v;
  jk_texts : NoDup (dkeys (jd_texts j)) /\ forall c u, In (c, u) (jd_texts j) -> exists x, holds_text j c x;
  jk_layers : NoDup (dkeys (jd_layers j));
  jk_fields : forall k fs rows, In (k, (fs, rows)) (jd_layers j) -> NoDup (dkeys fs) /\ zlen rows < 2147483648 /\
      forall f t, In (f, t) fs -> jtype_ok j t;
  jk_values : forall k fs rows row f t v, In (k, (fs, rows)) (jd_layers j) -> In row rows -> In (f, t) fs -> dget row f = Some v -> jtyped j t v }.

(** ** the same document in Python *)
Inductive same_scalar : jv -> value -> Prop :=
| ss_bool b : same_scalar (JBool b) (VBool b)
| ss_int i : same_scalar (JInt i) (VInt i)
| ss_long i : same_scalar (JLong i) (VInt i)
| ss_double b : same_scalar (JDouble b) (VFloat b)
| ss_str x : same_scalar (JStr x) (VStr x)
| ss_bin x : same_scalar (JBin x) (VBytes x).
Inductive same_prop : jv -> mobj -> Prop :=
| sp_bool b : same_prop (JBool b) (MBool b)
| sp_int i : same_prop (JInt i) (MInt i)
| sp_long i : same_prop (JLong i) (MInt i)
| sp_double b : same_prop (JDouble b) (MFloat b)
| sp_str x : same_prop (JStr x) (MStr x)
| sp_bin x : same_prop (JBin x) (MBin x).
(** n is the node at position p of the layer called x *)
Definition node_no (h : heap) (d : doc) (x : pystr) (p : nat) (n : nid) : Prop :=
  exists l, dget (d_layers d) x = Some l /\ at_pos h l p n.
Inductive python_sees (h : heap) (d : doc) : option jv -> option value -> Prop :=
| ps_absent : python_sees h d None None
| ps_scalar v w : same_scalar v w -> python_sees h d (Some v) (Some w)
| ps_span c x p q : dget (d_texts d) c = Some x -> 0 <= p <= q -> q <= zlen x ->
    python_sees h d (Some (JSpan c (upos x p) (upos x q))) (Some (VSpan c x p q))
| ps_node x p n : node_no h d x p n -> python_sees h d (Some (JNode x p)) (Some (VNode n))
| ps_nodes x ps ns : Forall2 (node_no h d x) ps ns -> python_sees h d (Some (JNodes x ps)) (Some (VNodeList (map Some ns)))
| ps_nodespan x p q a b : node_no h d x p a -> node_no h d x q b -> python_sees h d (Some (JNodeSpan x p q)) (Some (VNodeSpan a b)).
Definition python_type (jt : jdtype) (t : dtype) : Prop :=
  dt_class t = KBase /\ ty_name jt = JT (dt_name t) /\ Forall2 (fun a o => fst o = fst a /\ same_scalar (snd a) (snd o)) (ty_args jt) (dt_opts t).
Record python_layer (h : heap) (d : doc) (j : dict jdtype * list (dict jv)) (l : lid) : Prop := {
  pl_fields : Forall2 (fun fj ft => fst ft = fst fj /\ python_type (snd fj) (snd ft)) (fst j) (l_fields (h_layer h l));
  pl_len : length (layer_iter h l) = length (snd j);
  pl_values : forall p n row f t, at_pos h l p n -> nth_error (snd j) p = Some row -> dget (fst j) f = Some t ->
      python_sees h d (dget row f) (dget (n_fieldsof h n) f);
  pl_keys : forall p n f, at_pos h l p n -> In f (dkeys (n_fieldsof h n)) -> In f (dkeys (fst j)) }.
Record python_doc (j : jdoc) (h : heap) (d : doc) : Prop := {
  pd_same_props : exists ps, d_props d = MMap ps /\ Forall2 (fun kj ko => fst ko = fst kj /\ same_prop (snd kj) (snd ko)) (jd_props j) ps;
  pd_same_texts : map (fun kt => (fst kt, utf16 (snd kt))) (d_texts d) = jd_texts j;
  pd_scalar : forall c x, In (c, x) (d_texts d) -> Forall scalar x;
  pd_same_layers : Forall2 (fun kj kl => fst kl = fst kj /\ l_nameof h (snd kl) = fst kj /\ python_layer h d (snd kj) (snd kl)) (jd_layers j) (d_layers d) }.
(** extension values are not modelled in Python *)
Definition no_extension (j : jdoc) : Prop := forall k fs rows f t, In (k, (fs, rows)) (jd_layers j) -> In (f, t) fs -> ty_name t <> JT TExt.

(** ** the same document in Java *)
(** a number in the properties comes back as the smallest class that holds it; a double among the arguments as a float *)
Inductive prop_again : jv -> jv -> Prop :=
| pa_bool b : prop_again (JBool b) (JBool b)
| pa_int i : prop_again (JInt i) (JInt i)
| pa_long i : ~ int_range i -> prop_again (JLong i) (JLong i)
| pa_short i : int_range i -> prop_again (JLong i) (JInt i)
| pa_double b : prop_again (JDouble b) (JDouble b)
| pa_str x : prop_again (JStr x) (JStr x)
| pa_bin x : prop_again (JBin x) (JBin x).
Inductive arg_again : jv -> jv -> Prop :=
| aa_double b : arg_again (JDouble b) (JDouble (to_float b))
| aa_other v w : (forall b, v <> JDouble b) -> prop_again v w -> arg_again v w.
Definition again {A B} (R : A -> B -> Prop) (x : pystr * A) (y : pystr * B) : Prop := fst y = fst x /\ R (snd x) (snd y).
Definition type_again (t u : jdtype) : Prop := ty_name u = ty_name t /\ Forall2 (again arg_again) (ty_args t) (ty_args u).
Definition row_again (fs : dict jdtype) (r q : dict jv) : Prop :=
  (forall f t, dget fs f = Some t -> dget q f = dget r f) /\ forall f, In f (dkeys q) -> In f (dkeys fs).
Definition layer_again (l m : dict jdtype * list (dict jv)) : Prop :=
  Forall2 (again type_again) (fst l) (fst m) /\ Forall2 (row_again (fst l)) (snd l) (snd m).
Record doc_again (j k : jdoc) : Prop := {
  da_props : Forall2 (again prop_again) (jd_props j) (jd_props k);
  da_texts : jd_texts k = jd_texts j;
  da_layers : Forall2 (again layer_again) (jd_layers j) (jd_layers k) }.
(** values that the Java port writes but cannot read: bytes, and arrays of no nodes *)
Definition unreadable (v : jv) : bool := match v with JBin _ | JNodes _ [] => true | _ => false end.
Definition java_rereadable (j : jdoc) : Prop := forall k fs rows row f t v, In (k, (fs, rows)) (jd_layers j) -> In row rows -> In (f, t) fs ->
  dget row f = Some v -> unreadable v = false.
