(** Specification vocabulary for encoding and decoding documents. *)
From Verif Require Import PyBase Model_Heap Model_Layer Model_Types Model_Msgpack Model_Document Spec_Layer Spec_Types Spec_Msgpack Spec_Document.
Local Open Scope Z_scope.

(** node n is at position p of layer l *)
Definition at_pos (h : heap) (l : lid) (p : nat) (n : nid) : Prop := nth_error (layer_iter h l) p = Some (Some n).
(** n is a node of the document's own layer x *)
Definition own_node (h : heap) (d : doc) (x : pystr) (n : nid) : Prop :=
  exists l p, dget (d_layers d) x = Some l /\ at_pos h l p n.
(** a and b, in this order, are nodes of the document's own layer x *)
Definition own_span (h : heap) (d : doc) (x : pystr) (a b : nid) : Prop :=
  exists l p q, dget (d_layers d) x = Some l /\ at_pos h l p a /\ at_pos h l q b /\ (p <= q)%nat.

(** ** Valid documents *)
(** the values that a field of type t may hold *)
Inductive value_ok (h : heap) (d : doc) (t : dtype) : value -> Prop :=
| vo_none : dt_name t <> TSpan -> value_ok h d t VNone
| vo_int i : In (dt_name t) [TI32; TI64] -> value_ok h d t (VInt i)
| vo_intbool b : In (dt_name t) [TI32; TI64] -> value_ok h d t (VBool b)
| vo_float b : dt_name t = TF64 -> (b < 18446744073709551616)%N -> value_ok h d t (VFloat b)
| vo_bool b : dt_name t = TBool -> value_ok h d t (VBool b)
| vo_str x : dt_name t = TString -> value_ok h d t (VStr x)
| vo_bytes x : dt_name t = TBinary -> bytes x -> value_ok h d t (VBytes x)
| vo_span c txt a b : targets_text t c -> dget (d_texts d) c = Some txt -> 0 <= a <= b -> b <= zlen txt -> value_ok h d t (VSpan c txt a b)
| vo_node x n : dt_name t = TNodeRef -> targets_layer t x -> own_node h d x n -> value_ok h d t (VNode n)
| vo_many x ns : dt_name t = TNodeRefMany -> targets_layer t x -> Forall (own_node h d x) ns -> value_ok h d t (VNodeList (map Some ns))
| vo_coll x a b : dt_name t = TNodeRefMany -> targets_layer t x -> own_span h d x a b -> value_ok h d t (VNodeSpan a b)
| vo_nodespan x a b : dt_name t = TNodeRefSpan -> targets_layer t x -> own_span h d x a b -> value_ok h d t (VNodeSpan a b).
(** values that a type option may hold *)
Inductive option_value : value -> Prop :=
| ov_none : option_value VNone
| ov_bool b : option_value (VBool b)
| ov_int i : option_value (VInt i)
| ov_float b : (b < 18446744073709551616)%N -> option_value (VFloat b)
| ov_str x : option_value (VStr x)
| ov_bytes x : bytes x -> option_value (VBytes x).
Definition type_encodable (t : dtype) : Prop :=
  dt_name t <> TExt /\ dt_name t <> TUnknown /\ option_ok t /\ NoDup (dkeys (dt_opts t)) /\
  forall k v, In (k, v) (dt_opts t) -> option_value v.
Record doc_ok (h : heap) (d : doc) : Prop := {
  do_wf : wf h;
  do_known : known h d;
  do_texts : NoDup (dkeys (d_texts d));
  do_layers : NoDup (dkeys (d_layers d));
  do_props : python_value (d_props d);
  do_types : forall k f t, declared h d k f t -> type_encodable t;
  do_values : forall k l n f v t, doc_node h d k l n -> dget (n_fieldsof h n) f = Some v ->
      dget (l_fields (h_layer h l)) f = Some t -> value_ok h d t v }.
(** ... that compile does not refuse: targets exist, layers carry their own names, every field is
    declared and its value is admitted by the declared type *)
Record doc_valid (h : heap) (d : doc) : Prop := {
  dv_ok : doc_ok h d;
  dv_names : forall k l, In (k, l) (d_layers d) -> l_nameof h l = k;
  dv_schema : forall k l, In (k, l) (d_layers d) -> schema_ok h l;
  dv_layer_targets : forall k f t x, declared h d k f t -> targets_layer t x -> In x (dkeys (d_layers d));
  dv_text_targets : forall k f t x, declared h d k f t -> targets_text t x -> In x (dkeys (d_texts d));
  dv_declared : forall k l n f v, doc_node h d k l n -> In (f, v) (n_fieldsof h n) -> In f (dkeys (l_fields (h_layer h l)));
  dv_accepts : forall k l n, doc_node h d k l n -> node_valid h l n }.

(** ** The same document elsewhere *)
(** n' is at the position in layer x of d' that n has in layer x of d *)
Definition same_node (h : heap) (d : doc) (h' : heap) (d' : doc) (x : pystr) (n n' : nid) : Prop :=
  exists l l' p, dget (d_layers d) x = Some l /\ dget (d_layers d') x = Some l' /\ at_pos h l p n /\ at_pos h' l' p n'.
(** The value of a field before and after; [None]: the field is absent.  [R] relates nodes of a layer. *)
Inductive same_value (h : heap) (R : pystr -> nid -> nid -> Prop) (t : dtype) : option value -> option value -> Prop :=
| sv_absent : same_value h R t None None
| sv_none : same_value h R t (Some VNone) None
| sv_int i : In (dt_name t) [TI32; TI64] -> same_value h R t (Some (VInt i)) (Some (VInt i))
| sv_intbool (b : bool) : In (dt_name t) [TI32; TI64] -> same_value h R t (Some (VBool b)) (Some (VInt (if b then 1 else 0)))
| sv_float b : dt_name t = TF64 -> same_value h R t (Some (VFloat b)) (Some (VFloat b))
| sv_bool b : dt_name t = TBool -> same_value h R t (Some (VBool b)) (Some (VBool b))
| sv_str x : dt_name t = TString -> same_value h R t (Some (VStr x)) (Some (VStr x))
| sv_bytes x : dt_name t = TBinary -> same_value h R t (Some (VBytes x)) (Some (VBytes x))
| sv_span c txt a b : dt_name t = TSpan -> same_value h R t (Some (VSpan c txt a b)) (Some (VSpan c txt a b))
| sv_node x n n' : dt_name t = TNodeRef -> targets_layer t x -> R x n n' -> same_value h R t (Some (VNode n)) (Some (VNode n'))
| sv_empty : dt_name t = TNodeRefMany -> same_value h R t (Some (VNodeList [])) None
| sv_many x ns ns' : dt_name t = TNodeRefMany -> targets_layer t x -> ns <> [] -> Forall2 (R x) ns ns' ->
    same_value h R t (Some (VNodeList (map Some ns))) (Some (VNodeList (map Some ns')))
| sv_coll x a b ns ns' : dt_name t = TNodeRefMany -> targets_layer t x -> nodespan_iter h a b = Ok ns -> Forall2 (R x) ns ns' ->
    same_value h R t (Some (VNodeSpan a b)) (Some (VNodeList (map Some ns')))
| sv_nodespan x a b a' b' : dt_name t = TNodeRefSpan -> targets_layer t x -> R x a a' -> R x b b' ->
    same_value h R t (Some (VNodeSpan a b)) (Some (VNodeSpan a' b')).
(** a decoded type has the class DataType *)
Definition base_type (t : dtype) : dtype := mkDT KBase (dt_name t) (dt_opts t).
Record same_layer (h : heap) (d : doc) (h' : heap) (d' : doc) (l l' : lid) : Prop := {
  sl_fields : l_fields (h_layer h' l') = map (fun ft => (fst ft, base_type (snd ft))) (l_fields (h_layer h l));
  sl_len : length (layer_iter h' l') = length (layer_iter h l);
  sl_values : forall p n n' f t, at_pos h l p n -> at_pos h' l' p n' -> dget (l_fields (h_layer h l)) f = Some t ->
      same_value h (same_node h d h' d') t (dget (n_fieldsof h n) f) (dget (n_fieldsof h' n') f);
  sl_keys : forall p n' f, at_pos h' l' p n' -> In f (dkeys (n_fieldsof h' n')) -> In f (dkeys (l_fields (h_layer h l))) }.
Record same_doc (h : heap) (d : doc) (h' : heap) (d' : doc) : Prop := {
  sd_props : d_props d' = d_props d;
  sd_texts : d_texts d' = d_texts d;
  sd_layers : Forall2 (fun kl kl' => fst kl' = fst kl /\ l_nameof h' (snd kl') = fst kl /\ same_layer h d h' d' (snd kl) (snd kl'))
                (d_layers d) (d_layers d') }.
(** objects that existed before are untouched *)
Definition untouched (h h' : heap) : Prop :=
  (forall n, (n < h_nnext h)%nat -> h_node h' n = h_node h n) /\ (forall l, (l < h_lnext h)%nat -> h_layer h' l = h_layer h l) /\
  (h_nnext h <= h_nnext h')%nat /\ (h_lnext h <= h_lnext h')%nat.

(** ** The limits of the MessagePack format for a document *)
Definition value_fits (v : value) : Prop :=
  match v with
  | VInt i => - 9223372036854775808 <= i < 18446744073709551616
  | VStr x => str_fits x
  | VBytes x => zlen x < 4294967296
  | VNodeList l => zlen l < 4294967296
  | _ => True
  end.
Record doc_fits (h : heap) (d : doc) : Prop := {
  df_props : fits (d_props d);
  df_texts : zlen (d_texts d) < 4294967296;
  df_text : forall k t, In (k, t) (d_texts d) -> str_fits k /\ str_fits t;
  df_layers : zlen (d_layers d) < 4294967296;
  df_layer : forall k l, In (k, l) (d_layers d) ->
      str_fits k /\ zlen (layer_iter h l) < 2147483648 /\ zlen (l_fields (h_layer h l)) < 4294967296;
  df_field : forall k f t, declared h d k f t -> str_fits f /\ zlen (dt_opts t) < 4294967296 /\
      forall o v, In (o, v) (dt_opts t) -> str_fits o /\ value_fits v;
  df_value : forall k l n f t v, doc_node h d k l n -> dget (l_fields (h_layer h l)) f = Some t ->
      dget (n_fieldsof h n) f = Some v -> value_fits v }.
