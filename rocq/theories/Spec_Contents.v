(** What a file says about a document: the values of the file in terms of the document, apart from the encoder. *)
From Verif Require Import PyBase Model_Heap Model_Layer Model_Types Model_Msgpack Model_Document Model_Codec Spec_Layer Spec_Types Spec_Msgpack Spec_Document Spec_Codec Spec_Spell.
Local Open Scope Z_scope.

(** the names of the types *)
Definition type_names : list (tname * pystr) :=
  [(TI32, s "i32"); (TI64, s "i64"); (TF64, s "f64"); (TBool, s "i1"); (TString, s "str"); (TBinary, s "bin");
   (TSpan, s "span"); (TNodeRef, s "noderef"); (TNodeRefMany, s "noderef_array"); (TNodeRefSpan, s "nodespan")].

(** part i of a text begins at offset x; the end of the text counts as the beginning of a part *)
Definition part_at (ps : list pystr) (i : nat) (x : Z) : Prop := (i <= length ps)%nat /\ x = zlen (List.concat (firstn i ps)).

(** a simple value *)
Inductive plain : value -> mobj -> Prop :=
| pl_none : plain VNone MNil
| pl_bool b : plain (VBool b) (MBool b)
| pl_int i : plain (VInt i) (MInt i)
| pl_float b : plain (VFloat b) (MFloat b)
| pl_str x : plain (VStr x) (MStr x)
| pl_bytes x : plain (VBytes x) (MBin x).

(** n is at position p of the layer that the type names *)
Definition number_of (h : heap) (d : doc) (t : dtype) (n : nid) (p : nat) : Prop :=
  exists x l, targets_layer t x /\ dget (d_layers d) x = Some l /\ at_pos h l p n.

(** what a column has for the value of one node ([None]: the field is not set); [parts] are the texts of the file *)
Inductive written (h : heap) (d : doc) (parts : dict (list pystr)) (t : dtype) : option value -> list mobj -> Prop :=
| wr_unset : dt_name t <> TSpan -> written h d parts t None [MNil]
| wr_unset_span : dt_name t = TSpan -> written h d parts t None [MNil; MNil]
| wr_none : dt_name t <> TSpan -> written h d parts t (Some VNone) [MNil]
| wr_int i : In (dt_name t) [TI32; TI64] -> written h d parts t (Some (VInt i)) [MInt i]
| wr_intbool (b : bool) : In (dt_name t) [TI32; TI64] -> written h d parts t (Some (VBool b)) [MInt (if b then 1 else 0)]
| wr_float b : dt_name t = TF64 -> written h d parts t (Some (VFloat b)) [MFloat b]
| wr_bool b : dt_name t = TBool -> written h d parts t (Some (VBool b)) [MBool b]
| wr_str x : dt_name t = TString -> written h d parts t (Some (VStr x)) [MStr x]
| wr_bytes x : dt_name t = TBinary -> written h d parts t (Some (VBytes x)) [MBin x]
(** two cells: the parts of the text that begin where the span begins and where it ends *)
| wr_span c txt a b ps i j : targets_text t c -> dget parts c = Some ps -> part_at ps i a -> part_at ps j b ->
    written h d parts t (Some (VSpan c txt a b)) [MInt (Z.of_nat i); MInt (Z.of_nat j)]
(** a node: its position *)
| wr_node n p : dt_name t = TNodeRef -> number_of h d t n p -> written h d parts t (Some (VNode n)) [MInt (Z.of_nat p)]
| wr_nobody : dt_name t = TNodeRefMany -> written h d parts t (Some (VNodeList [])) [MNil]
| wr_many ns ps : dt_name t = TNodeRefMany -> ns <> [] -> Forall2 (number_of h d t) ns ps ->
    written h d parts t (Some (VNodeList (map Some ns))) [MArr (map (fun p => MInt (Z.of_nat p)) ps)]
(** a range of nodes where an array is due: all positions from the first to the last *)
| wr_range a b p q : dt_name t = TNodeRefMany -> number_of h d t a p -> number_of h d t b q -> (p <= q)%nat ->
    written h d parts t (Some (VNodeSpan a b)) [MArr (map (fun i => MInt (Z.of_nat i)) (seq p (S q - p)))]
(** a range of nodes: the position of the first, and how far behind it the last is *)
| wr_nodespan a b p q : dt_name t = TNodeRefSpan -> number_of h d t a p -> number_of h d t b q -> (p <= q)%nat ->
    written h d parts t (Some (VNodeSpan a b)) [MArr [MInt (Z.of_nat p); MInt (Z.of_nat (q - p))]].

(** a field: its name, the name of its type, the options if there are any, and node after node what it holds *)
Record field_written (h : heap) (d : doc) (parts : dict (list pystr)) (l : lid) (ft : pystr * dtype) (ef : efield) : Prop := {
  fw_name : ef_name ef = fst ft;
  fw_type : In (dt_name (snd ft), ef_type ef) type_names;
  fw_none : ef_args ef = None <-> dt_opts (snd ft) = [];
  fw_args : forall a, ef_args ef = Some a -> Forall2 (fun kv ko => fst ko = fst kv /\ plain (snd kv) (snd ko)) (dt_opts (snd ft)) a;
  fw_col : exists ns cs, layer_iter h l = map Some ns /\ ef_col ef = List.concat cs /\
    Forall2 (fun n c => written h d parts (snd ft) (dget (n_fieldsof h n) (fst ft)) c) ns cs }.
(** the offsets inside a text at which a part begins: both ends of the spans into it *)
Definition span_end (h : heap) (d : doc) (c : pystr) (x : Z) : Prop :=
  exists k l n f t tn txt a b, doc_node h d k l n /\ In (f, t) (l_fields (h_layer h l)) /\ targets_text t c /\
    dget (n_fieldsof h n) f = Some (VSpan tn txt a b) /\ (x = a \/ x = b).
Record contents (h : heap) (d : doc) (e : edoc) : Prop := {
  ct_props : ed_props e = d_props d;
  ct_texts : Forall2 (fun kt kp => fst kp = fst kt /\ List.concat (snd kp) = snd kt /\ (forall p, In p (snd kp) -> p <> []) /\
               forall x, (exists i, part_at (snd kp) i x) <-> x = 0 \/ x = zlen (snd kt) \/ span_end h d (fst kt) x) (d_texts d) (ed_texts e);
  ct_layers : Forall2 (fun kl el => el_name el = fst kl /\ el_num el = zlen (layer_iter h (snd kl)) /\
                Forall2 (field_written h d (ed_texts e) (snd kl)) (l_fields (h_layer h (snd kl))) (el_fields el)) (d_layers d) (ed_layers e) }.

(** bytes preceded by their number *)
Definition sized (b out : list N) : Prop := exists a, out = a ++ b /\ spells a (MInt (zlen b)).
(** the sections of a file: the properties, the schema, the texts, and every layer; all but the schema say how long they are *)
Definition sections (e : edoc) (bs : list N) : Prop := exists (p sp sc t st : list N) (ls : list (list N)),
  bs = ([68; 77; 95; 49]%N ++ sp ++ sc ++ st ++ List.concat ls)%list /\
  sized p sp /\ spells p (ed_props e) /\
  stream sc (Some (MArr (map (fun l => MStr (el_name l)) (ed_layers e))) ::
             flat_map (fun l => Some (MInt (zlen (el_fields l))) :: flat_map field_values (el_fields l)) (ed_layers e)) /\
  sized t st /\ spells t (MMap (map (fun kt => (fst kt, MArr (map MStr (snd kt)))) (ed_texts e))) /\
  Forall2 (fun l out => exists b, sized b out /\
             stream b (Some (MInt (el_num l)) :: flat_map (fun f => [Some (MBool false); Some (MArr (ef_col f))]) (el_fields l))) (ed_layers e) ls.

(** ** JSON *)
(** o is a dictionary in which k has the value v *)
Definition at_key (o : mobj) (k : pystr) (v : mobj) : Prop := exists dct, o = MMap dct /\ dget dct k = Some v.
(** the type of a field: its name alone, or a dictionary with its name and its options *)
Definition json_typed (f : efield) (o : mobj) : Prop :=
  match ef_args f with
  | None => o = MStr (ef_type f)
  | Some a => at_key o (s "type") (MStr (ef_type f)) /\ at_key o (s "args") (MMap a)
  end.
(** the JSON object of a document with the contents e: dictionaries of the texts by name, of the number of nodes and the columns
    by layer, and of the schema; only the order of the texts, layers and fields counts *)
Definition json_says (e : edoc) (o : mobj) : Prop := exists b tx nums types sch,
  at_key o (s "DM10") b /\ at_key b (s "props") (ed_props e) /\ at_key b (s "texts") (MMap tx) /\ at_key b (s "num_nodes") nums /\
  at_key b (s "types") types /\ at_key b (s "schema") (MMap sch) /\
  Forall2 (fun kt kv => fst kv = fst kt /\ snd kv = MArr (map MStr (snd kt))) (ed_texts e) tx /\
  Forall2 (fun l kv => fst kv = el_name l /\ exists fs, snd kv = MMap fs /\
             Forall2 (fun f kf => fst kf = ef_name f /\ json_typed f (snd kf)) (el_fields l) fs) (ed_layers e) sch /\
  forall l, In l (ed_layers e) -> at_key nums (el_name l) (MInt (el_num l)) /\
    exists cols, at_key types (el_name l) cols /\ forall f, In f (el_fields l) -> at_key cols (ef_name f) (MArr (ef_col f)).
