(** What any bytes can be decoded to, and why decoding can fail. *)
From Verif Require Import PyBase Model_Text Model_Heap Model_Layer Model_Types Model_Msgpack Model_Document Model_Codec
  Spec_Layer Spec_Types Spec_Msgpack Spec_Document Spec_Codec.
Local Open Scope Z_scope.

(** ** Sound documents *)
Definition refs : list tname := [TNodeRef; TNodeRefMany; TNodeRefSpan].
Definition plain : list tname := [TI32; TI64; TF64; TBool; TString; TBinary].
(** the values that a field of type t can have after decoding: references lead into the layer that the type names, spans lie inside the text that
    the type names; plain values can be of another plain type *)
Inductive loaded (h : heap) (d : doc) (t : dtype) : value -> Prop :=
| ld_plain v : In (dt_name t) plain -> option_value v -> v <> VNone -> loaded h d t v
| ld_span c txt a b : targets_text t c -> dget (d_texts d) c = Some txt -> 0 <= a <= b -> b <= zlen txt -> loaded h d t (VSpan c txt a b)
| ld_node x n : dt_name t = TNodeRef -> targets_layer t x -> own_node h d x n -> loaded h d t (VNode n)
| ld_many x ns : dt_name t = TNodeRefMany -> targets_layer t x -> Forall (own_node h d x) ns -> loaded h d t (VNodeList (map Some ns))
| ld_nodespan x a b : dt_name t = TNodeRefSpan -> targets_layer t x -> own_span h d x a b -> loaded h d t (VNodeSpan a b).
Record sound (h : heap) (d : doc) : Prop := {
  so_wf : wf h;
  so_known : known h d;
  so_texts : NoDup (dkeys (d_texts d));
  so_layers : NoDup (dkeys (d_layers d));
  so_props : python_value (d_props d);
  so_names : forall k l, In (k, l) (d_layers d) -> l_nameof h l = k;
  so_full : forall k l, In (k, l) (d_layers d) -> no_gaps h l;
  so_types : forall k f t, declared h d k f t -> dt_class t = KBase /\ dt_name t <> TUnknown /\ NoDup (dkeys (dt_opts t)) /\ forall o v, In (o, v) (dt_opts t) -> option_value v;
  so_refs : forall k f t, declared h d k f t -> In (dt_name t) refs -> exists x, targets_layer t x /\ In x (dkeys (d_layers d));
  so_spans : forall k f t, declared h d k f t -> dt_name t = TSpan -> exists x, targets_text t x;
  so_fields : forall k l n, doc_node h d k l n -> NoDup (dkeys (n_fieldsof h n)) /\ incl (dkeys (n_fieldsof h n)) (dkeys (l_fields (h_layer h l)));
  so_values : forall k l n f t v, doc_node h d k l n -> dget (l_fields (h_layer h l)) f = Some t -> dget (n_fieldsof h n) f = Some v -> loaded h d t v }.
(** ... whose plain values are of the types of their fields, and whose texts are there *)
Record typed (h : heap) (d : doc) : Prop := {
  ty_ext : forall k f t, declared h d k f t -> dt_name t <> TExt;
  ty_text : forall k f t x, declared h d k f t -> targets_text t x -> In x (dkeys (d_texts d));
  ty_plain : forall k l n f t v, doc_node h d k l n -> dget (l_fields (h_layer h l)) f = Some t -> dget (n_fieldsof h n) f = Some v ->
    match dt_name t with
    | TI32 | TI64 => exists i, int_value v i
    | TF64 => exists b, v = VFloat b
    | TBool => exists b, v = VBool b
    | TString => exists x, v = VStr x
    | TBinary => exists x, v = VBytes x
    | _ => True
    end }.

(** ** Faults in what was read *)
(** layer k has n nodes, and its field f of type t the column col *)
Definition has_column (p : pdoc) (k f : pystr) (t : dtype) (n : Z) (col : list mobj) : Prop :=
  exists i fs cols j, nth_error (pd_schema p) i = Some (k, fs) /\ nth_error (pd_layers p) i = Some (n, cols) /\ nth_error fs j = Some (f, t) /\ nth_error cols j = Some col.
Definition has_nodes (p : pdoc) (k : pystr) (m : Z) : Prop :=
  exists i fs n cols, nth_error (pd_schema p) i = Some (k, fs) /\ nth_error (pd_layers p) i = Some (n, cols) /\ m = Z.max 0 n.
(** row q of the column *)
Definition has_cell (p : pdoc) (f : pystr) (t : dtype) (q : nat) (col : list mobj) : Prop := exists k n, has_column p k f t n col /\ Z.of_nat q < n.
(** Python index i into m nodes gives node k *)
Definition indexes (m i k : Z) : Prop := 0 <= k < m /\ (i = k \/ i = k - m).
Definition outside (m i : Z) : Prop := ~ - m <= i < m.
(** the offset before segment i *)
Definition offset_of (segs : list pystr) (i x : Z) : Prop := 0 <= i <= zlen segs /\ x = zlen (List.concat (firstn (Z.to_nat i) segs)).
Definition no_list (o : mobj) : Prop := (exists i, o = MInt i) \/ (exists b, o = MBool b) \/ (exists b, o = MFloat b).
Inductive fault (p : pdoc) : exn -> Prop :=
(* the option that the field needs is not there *)
| fa_context k f t n col : has_column p k f t n col -> dt_name t = TSpan -> dget (dt_opts t) (s "context") = None -> fault p KeyError
| fa_option k f t n col : has_column p k f t n col -> In (dt_name t) refs -> dget (dt_opts t) (s "layer") = None -> fault p KeyError
| fa_ext k f t n col : has_column p k f t n col -> dt_name t = TExt -> dget (dt_opts t) (s "type") = None -> fault p KeyError
(* there is no such layer *)
| fa_layer k f t n col x : has_column p k f t n col -> targets_layer t x -> ~ In x (map fst (pd_schema p)) -> fault p KeyError
(* there is no such node *)
| fa_node f t q col x m i : has_cell p f t q col -> dt_name t = TNodeRef -> targets_layer t x -> has_nodes p x m -> nth_error col q = Some (MInt i) -> outside m i -> fault p IndexError
| fa_many f t q col x m l i : has_cell p f t q col -> dt_name t = TNodeRefMany -> targets_layer t x -> has_nodes p x m ->
    nth_error col q = Some (MArr l) -> In (MInt i) l -> outside m i -> fault p IndexError
| fa_left f t q col x m i n r : has_cell p f t q col -> dt_name t = TNodeRefSpan -> targets_layer t x -> has_nodes p x m ->
    nth_error col q = Some (MArr (MInt i :: MInt n :: r)) -> outside m i \/ outside m (i + n) -> fault p IndexError
| fa_pair f t q col l : has_cell p f t q col -> dt_name t = TNodeRefSpan -> nth_error col q = Some (MArr l) -> (length l < 2)%nat -> fault p IndexError
(* not a list *)
| fa_list f t q col o : has_cell p f t q col -> In (dt_name t) [TNodeRefMany; TNodeRefSpan] -> nth_error col q = Some o -> no_list o -> fault p TypeError
(* the last node is before the first *)
| fa_order f t q col x m i n r a b : has_cell p f t q col -> dt_name t = TNodeRefSpan -> targets_layer t x -> has_nodes p x m ->
    nth_error col q = Some (MArr (MInt i :: MInt n :: r)) -> indexes m i a -> indexes m (i + n) b -> b < a -> fault p AssertionError
(* there is no such offset *)
| fa_offset f t q col c segs i o o' : has_cell p f t q col -> targets_text t c -> dget (pd_texts p) c = Some segs ->
    nth_error col (2 * q) = Some o -> nth_error col (2 * q + 1) = Some o' -> o = MInt i \/ o <> MNil /\ o' = MInt i -> ~ 0 <= i <= zlen segs -> fault p KeyError
(* the end is before the start *)
| fa_reversed f t q col c segs i j a b : has_cell p f t q col -> targets_text t c -> dget (pd_texts p) c = Some segs ->
    nth_error col (2 * q) = Some (MInt i) -> nth_error col (2 * q + 1) = Some (MInt j) -> offset_of segs i a -> offset_of segs j b -> b < a -> fault p AssertionError.

(** ** Faults in the schema and in the layer data *)
Definition type_names : list pystr := map s ["i32"; "i64"; "f64"; "i1"; "str"; "bin"; "noderef"; "noderef_array"; "span"; "ext"; "nodespan"]%string.
(** a description of a field that can be read: options are simple values *)
Definition simple (o : mobj) : Prop := (forall l, o <> MArr l) /\ (forall m, o <> MMap m).
Definition good_args (f : efield) : Prop := forall a, ef_args f = Some a -> python_value (MMap a) /\ forall k o, In (k, o) a -> simple o.
Definition good_field (f : efield) : Prop := In (ef_type f) type_names /\ good_args f.
Definition good_layer (l : elayer) : Prop :=
  Forall good_field (el_fields l) /\ NoDup (map ef_name (el_fields l)) /\ Forall (fun f => Forall python_value (ef_col f)) (el_fields l).
Definition false_value (o : mobj) : Prop :=
  o = MNil \/ o = MBool false \/ o = MInt 0 \/ o = MFloat 0 \/ o = MFloat 9223372036854775808 \/ o = MStr [] \/ o = MBin [] \/ o = MArr [] \/ o = MMap [].
(** the bytes of a file up to the columns of fields fs of layer l, where the layers before l are ls1 and there are more layers ls2 *)
Definition file_front (props : mobj) (texts : dict (list pystr)) (ls1 : list elayer) (l : elayer) (ls2 : list elayer) (fs : list efield) (b : list N) : Prop :=
  exists p sc tx d1 k n nb cols,
    section [props] = Ok p /\ pack_all (MArr (map (fun l => MStr (el_name l)) (ls1 ++ l :: ls2)) :: schema_objs (ls1 ++ l :: ls2)) = Ok sc /\
    section [texts_obj texts] = Ok tx /\ concatM (fun l => section (layer_objs l)) ls1 = Ok d1 /\
    pack (MInt k) = Ok n /\ pack (MInt (el_num l)) = Ok nb /\ pack_all (flat_map (fun f => [MBool false; MArr (ef_col f)]) fs) = Ok cols /\
    b = magic ++ p ++ sc ++ tx ++ d1 ++ n ++ nb ++ cols.
