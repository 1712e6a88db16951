(** What it means that the Java port has read the document that the Python port wrote. *)
From Verif Require Import PyBase Model_Text Model_Heap Model_Layer Model_Types Model_Msgpack Model_Document Model_JUnits Model_JCodec
  Spec_Layer Spec_Types Spec_Msgpack Spec_Document Spec_Codec Spec_JUnits.
Local Open Scope Z_scope.

(** the ranges of int and long *)
Definition int_range (i : Z) : Prop := - 2147483648 <= i <= 2147483647.
Definition long_range (i : Z) : Prop := - 9223372036854775808 <= i <= 9223372036854775807.
(** the double is the double of some float, and a number or an infinity *)
Definition is_single (b : N) : Prop := exists v, 0 <= v < 4294967296 /\ b = Z.to_N (single_double v) /\
  ((v / 8388608) mod 256 = 255 -> v mod 8388608 = 0).

(** ** the same value in Java *)
Inductive java_prop : mobj -> jv -> Prop :=
| jp_bool b : java_prop (MBool b) (JBool b)
| jp_int i : int_range i -> java_prop (MInt i) (JInt i)
| jp_long i : long_range i -> ~ int_range i -> java_prop (MInt i) (JLong i)
| jp_float b : java_prop (MFloat b) (JDouble b)
| jp_str x : java_prop (MStr x) (JStr x)
| jp_bytes x : java_prop (MBin x) (JBin x).
Inductive java_option : value -> jv -> Prop :=
| jo_bool b : java_option (VBool b) (JBool b)
| jo_int i : int_range i -> java_option (VInt i) (JInt i)
| jo_long i : long_range i -> ~ int_range i -> java_option (VInt i) (JLong i)
| jo_float b : is_single b -> java_option (VFloat b) (JDouble b)
| jo_str x : java_option (VStr x) (JStr x)
| jo_bytes x : java_option (VBytes x) (JBin x).
(** the value of a field of type t; [None]: the field is absent *)
Inductive java_value (h : heap) (d : doc) (t : dtype) : option value -> option jv -> Prop :=
| jw_absent : java_value h d t None None
| jw_none : java_value h d t (Some VNone) None
| jw_int i : dt_name t = TI32 -> int_range i -> java_value h d t (Some (VInt i)) (Some (JInt i))
| jw_intbool (b : bool) : dt_name t = TI32 -> java_value h d t (Some (VBool b)) (Some (JInt (if b then 1 else 0)))
| jw_long i : dt_name t = TI64 -> long_range i -> java_value h d t (Some (VInt i)) (Some (JLong i))
| jw_longbool (b : bool) : dt_name t = TI64 -> java_value h d t (Some (VBool b)) (Some (JLong (if b then 1 else 0)))
| jw_float b : dt_name t = TF64 -> java_value h d t (Some (VFloat b)) (Some (JDouble b))
| jw_bool b : dt_name t = TBool -> java_value h d t (Some (VBool b)) (Some (JBool b))
| jw_str x : dt_name t = TString -> java_value h d t (Some (VStr x)) (Some (JStr x))
| jw_span c txt a b : dt_name t = TSpan -> java_value h d t (Some (VSpan c txt a b)) (Some (JSpan c (upos txt a) (upos txt b)))
| jw_node x l n p : dt_name t = TNodeRef -> targets_layer t x -> dget (d_layers d) x = Some l -> at_pos h l p n ->
    java_value h d t (Some (VNode n)) (Some (JNode x p))
| jw_empty : dt_name t = TNodeRefMany -> java_value h d t (Some (VNodeList [])) None
| jw_many x l ns ps : dt_name t = TNodeRefMany -> targets_layer t x -> dget (d_layers d) x = Some l -> ns <> [] ->
    Forall2 (fun n p => at_pos h l p n) ns ps -> java_value h d t (Some (VNodeList (map Some ns))) (Some (JNodes x ps))
| jw_coll x l a b ns ps : dt_name t = TNodeRefMany -> targets_layer t x -> dget (d_layers d) x = Some l -> nodespan_iter h a b = Ok ns ->
    Forall2 (fun n p => at_pos h l p n) ns ps -> java_value h d t (Some (VNodeSpan a b)) (Some (JNodes x ps))
| jw_nodespan x l a b p q : dt_name t = TNodeRefSpan -> targets_layer t x -> dget (d_layers d) x = Some l -> at_pos h l p a -> at_pos h l q b ->
    java_value h d t (Some (VNodeSpan a b)) (Some (JNodeSpan x p q)).

(** ** the same document in Java *)
Definition java_type (t : dtype) (jt : jdtype) : Prop :=
  ty_name jt = JT (dt_name t) /\ Forall2 (fun ov oj => fst oj = fst ov /\ java_option (snd ov) (snd oj)) (dt_opts t) (ty_args jt).
Definition java_node (h : heap) (d : doc) (l : lid) (n : nid) (row : dict jv) : Prop :=
  (forall f t, dget (l_fields (h_layer h l)) f = Some t -> java_value h d t (dget (n_fieldsof h n) f) (dget row f)) /\
  (forall f, In f (dkeys row) -> In f (dkeys (l_fields (h_layer h l)))).
Definition java_layer (h : heap) (d : doc) (l : lid) (j : dict jdtype * list (dict jv)) : Prop :=
  Forall2 (fun ft fj => fst fj = fst ft /\ java_type (snd ft) (snd fj)) (l_fields (h_layer h l)) (fst j) /\
  length (snd j) = length (layer_iter h l) /\ zlen (snd j) < 2147483648 /\
  (forall p n row, at_pos h l p n -> nth_error (snd j) p = Some row -> java_node h d l n row).
Record java_doc (h : heap) (d : doc) (j : jdoc) : Prop := {
  jd_same_props : exists ps, d_props d = MMap ps /\ Forall2 (fun ko kj => fst kj = fst ko /\ java_prop (snd ko) (snd kj)) ps (jd_props j);
  jd_same_texts : jd_texts j = map (fun kt => (fst kt, utf16 (snd kt))) (d_texts d);
  jd_same_layers : Forall2 (fun kl kj => fst kj = fst kl /\ java_layer h d (snd kl) (snd kj)) (d_layers d) (jd_layers j) }.

(** ** what the Java port can read at all *)
Record java_readable (h : heap) (d : doc) : Prop := {
  jr_props : exists ps, d_props d = MMap ps /\ forall k o, In (k, o) ps -> exists v, java_prop o v;
  jr_options : forall k f t o v, declared h d k f t -> In (o, v) (dt_opts t) -> exists j, java_option v j;
  jr_nodes : forall k l, In (k, l) (d_layers d) -> zlen (layer_iter h l) < 2147483648;
  jr_i32 : forall k l n f t i, doc_node h d k l n -> dget (l_fields (h_layer h l)) f = Some t -> dt_name t = TI32 ->
      dget (n_fieldsof h n) f = Some (VInt i) -> int_range i;
  jr_i64 : forall k l n f t i, doc_node h d k l n -> dget (l_fields (h_layer h l)) f = Some t -> dt_name t = TI64 ->
      dget (n_fieldsof h n) f = Some (VInt i) -> long_range i;
  jr_bytes : forall k l n f t x, doc_node h d k l n -> dget (l_fields (h_layer h l)) f = Some t -> dt_name t = TBinary ->
      dget (n_fieldsof h n) f = Some (VBytes x) -> False }.
