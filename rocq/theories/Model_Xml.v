(** XmlCodec.encode_intermediate and encode_tree (py/docria/codec.py 899-1106).
    Simplifications: str() of a float, of a property and of a type option that is not a string, number, boolean or None is a parameter;
    the bytes of a binary field are not put in base 64, since encode_tree refuses any bytes. *)
From Verif Require Import PyBase Model_Text Model_Heap Model_Layer Model_Types Model_Msgpack Model_Document Model_Coerce Model_Codec Model_XmlString.
From Verif Require Model_Printout.
Local Open Scope Z_scope.

(** str(i) for an int (codec.py 900-903) *)
Definition str_int : Z -> pystr := Model_Printout.str_int.
(** str(b) for a bool (codec.py 900-903) *)
Definition str_bool (b : bool) : pystr := if b then s "True" else s "False".

Section Xml.
Variable float_str : N -> pystr.
Variable obj_str : mobj -> pystr.
Variable val_str : value -> pystr.
(** str(v) for a property (codec.py 1024) *)
Definition str_obj (o : mobj) : pystr :=
  match o with
  | MNil => s "None" | MBool b => str_bool b | MInt i => str_int i | MFloat b => float_str b | MStr x => x
  | _ => obj_str o
  end.
(** str(argv) for a type option (codec.py 1033) *)
Definition str_value (v : value) : pystr :=
  match v with
  | VNone => s "None" | VBool b => str_bool b | VInt i => str_int i | VFloat b => float_str b | VStr x => x
  | _ => val_str v
  end.

(** ** encode_intermediate (929-977) *)
(** What an encoder gives: a string, a list of strings, a pair of an offset mapping and the value, or the value itself (or some bytes) (codec.py 899-930) *)
Inductive xval := XStr (x : pystr) | XList (l : list pystr) | XPair (offs : list Z) (v : value) | XRaw (v : value).
(** str(n._id) (codec.py 899-930) *)
Definition id_str (h : heap) (o : option nid) : res pystr :=
  match o with Some n => Ok (str_int (n_idof h n)) | None => Err AttributeError end.
(** [str(n._id) for n in v], where v has no nodes as elements: characters, keys and bytes have no attribute _id (codec.py 907) *)
Definition other_ids (h : heap) (v : value) : res xval :=
  match v with
  | VStr [] | VBytes [] => Ok (XList [])
  | VSpan _ t a b => match span_str (mkSpan t a b) with [] => Ok (XList []) | _ => Err AttributeError end
  | VNode n => match n_fieldsof h n with [] => Ok (XList []) | _ => Err AttributeError end
  | VStr _ | VBytes _ => Err AttributeError
  | VOther _ => Err Unmodelled
  | _ => Err TypeError
  end.
(** 899-927: the encoders, for a value that is not None *)
Definition xml_encode (h : heap) (offs : list Z) (t : tname) (v : value) : res xval :=
  match t with
  | TI32 | TI64 =>
      match v with
      | VInt i => Ok (XStr (str_int i))
      | VBool b => Ok (XStr (str_int (if b then 1 else 0)))
      | _ => let* i := py_int v in Ok (XStr (str_int i))
      end
  | TF64 => match v with VFloat b => Ok (XStr (float_str b)) | _ => let* b := py_float v in Ok (XStr (float_str b)) end
  | TBool =>
      match v with
      | VBool b => Ok (XStr (str_bool b))
      | VInt i => Ok (XStr (str_bool (negb (i =? 0))))
      | _ => let* b := py_bool h v in Ok (XStr (str_bool b))
      end
  | TString => match v with VStr x => Ok (XStr (xml_string x)) | _ => Err TypeError end
  | TBinary => match v with VBytes x => Ok (XRaw (VBytes x)) | _ => let* x := py_bytes h v in Ok (XRaw (VBytes x)) end
  | TNodeRef => match v with VNode n => let* x := id_str h (Some n) in Ok (XStr x) | _ => Err AttributeError end
  | TNodeRefMany =>
      match value_elems h v with
      | Some r => let* l := r in let* xs := mapM (id_str h) l in Ok (XList xs)
      | None => other_ids h v
      end
  | TSpan => Ok (XPair offs v)
  | TNodeRefSpan => Ok (XRaw v)
  | TExt => match v with VBytes x => Ok (XRaw (VBytes x)) | VExt _ x => Ok (XRaw (VBytes x)) | _ => Err ValueError end
  | TUnknown => Err KeyError
  end.
(** 949-957: the encoder of a field, with its offset mapping; UNKNOWN has no type string *)
Definition field_encoder (offsets : dict (list Z)) (ft : pystr * dtype) : res (pystr * (tname * list Z)) :=
  let t := snd ft in
  let* _ := type_string (dt_name t) in
  let* offs := match dt_name t with TSpan => let* c := opt_name t (s "context") in dgetE offsets c | _ => Ok [] end in
  Ok (fst ft, (dt_name t, offs)).
(** 964-969: one node *)
Fixpoint node_values (h : heap) (encs : list (pystr * (tname * list Z))) (n : nid) : res (dict xval) :=
  match encs with
  | [] => Ok []
  | (f, (t, offs)) :: r =>
      let* a := match dget (n_fieldsof h n) f with
                | None | Some VNone => Ok []
                | Some v => let* x := xml_encode h offs t v in Ok [(f, x)]
                end in
      let* b := node_values h r n in Ok (a ++ b)
  end.
Record xlayer := mkXL { xl_name : pystr; xl_schema : list (pystr * (pystr * dict value)); xl_nodes : list (dict xval) }.
(** 905-912 of model.py (DataType.encode) and 946-975 *)
Definition xml_layer (h : heap) (offsets : dict (list Z)) (kl : pystr * lid) : res xlayer :=
  let fs := l_fields (h_layer h (snd kl)) in
  let* encs := mapM (field_encoder offsets) fs in
  let* sch := mapM (fun ft => let* ts := type_string (dt_name (snd ft)) in Ok (fst ft, (ts, dt_opts (snd ft)))) fs in
  let* ns := mapM (fun o => match o with Some n => node_values h encs n | None => Err TypeError end) (layer_iter h (snd kl)) in
  Ok (mkXL (fst kl) sch ns).
Definition encode_intermediate (h : heap) (d : doc) (extra_fields_ok type_validation : bool) : hres (dict (list pystr) * list xlayer) :=
  match compile h d extra_fields_ok type_validation with
  | (h1, Err e) => (h1, Err e)
  | (h1, Ok offsets) =>
      (h1, let* ts := mapM (fun kt => let* o := dgetE offsets (fst kt) in Ok (fst kt, text_compile (snd kt) o)) (d_texts d) in
           let* ls := mapM (xml_layer h1 offsets) (d_layers d) in
           Ok (ts, ls))
  end.

(** ** encode_tree (995-1106) *)
(** xml.etree.ElementTree.Element: tag, attributes, children (codec.py 999-1105) *)
Inductive xml := Elem (tag : pystr) (attrs : dict pystr) (kids : list xml).
(** codec.py 999-1105 *)
Definition xid : pystr := s "{http://www.w3.org/XML/1998/namespace}id".
(** an entry of a node: an attribute, an array, or the attributes of a d element but for its name (codec.py 999-1105) *)
Inductive entry := ESimple (x : pystr) | EArray (l : list pystr) | EEmbed (attrs : dict pystr).
(** codec.py 1069-1070, 1079-1080 *)
Definition node_name (h : heap) (n : nid) : res pystr :=
  match n_collof h n with Some l => Ok (l_nameof h l) | None => Err AttributeError end.
(** offset_mapping[o] (codec.py 1069-1070, 1079-1080) *)
Definition offset_str (offs : list Z) (o : Z) : res pystr :=
  match offset_id offs o with Some i => Ok (str_int i) | None => Err KeyError end.
(** 1061-1087.  (Simplification: a list that is not empty in a node span field, which puts nodes where strings are expected, is not modelled.)
    The message of 1087 shows the value. *)
Definition tree_entry (h : heap) (verbose_node_spans : bool) (x : xval) : res entry :=
  match x with
  | XPair offs (VSpan _ _ a b) =>
      let* i := offset_str offs a in let* j := offset_str offs b in
      if verbose_node_spans then Err TypeError   (* 1073: the string encoder is applied to the pair *)
      else Ok (EEmbed [(s "from", i); (s "until", j)])
  | XPair _ _ => Err AttributeError
  | XRaw (VNodeSpan a b) =>
      let* x := node_name h a in let* i := node_i h a in let* j := node_i h b in
      Ok (EEmbed [(s "from", x ++ s "." ++ str_int i); (s "to", x ++ s "." ++ str_int j)])
  | XRaw (VNodeList []) => Ok (EArray [])
  | XRaw (VNodeList _) => Err Unmodelled
  | XRaw (VStr x) => Ok (ESimple x)
  | XRaw v => let* _ := value_repr h v in Err ValueError
  | XList l => Ok (EArray l)
  | XStr x => Ok (ESimple x)
  end.
Definition simple_of (es : dict entry) : dict pystr := flat_map (fun fe => match snd fe with ESimple x => [(fst fe, x)] | _ => [] end) es.
Definition embedded_of (es : dict entry) : list xml :=
  flat_map (fun fe => match snd fe with EEmbed a => [Elem (s "d") ((s "name", fst fe) :: a) []] | _ => [] end) es.
Definition arrays_of (es : dict entry) : list xml :=
  flat_map (fun fe => match snd fe with EArray l => [Elem (s "a") [(s "name", fst fe)] (map (fun x => Elem (s "e") [(s "v", x)] []) l)] | _ => [] end) es.
(** 1055-1104: one node; its fields are distinct, so the dictionaries of entries are in field order *)
Definition node_tree (h : heap) (vns : bool) (prefix layerk : pystr) (i : Z) (n : dict xval) : res xml :=
  let* es := mapM (fun fx => let* e := tree_entry h vns (snd fx) in Ok (fst fx, e)) n in
  Ok (Elem (s "n") (dset (simple_of es) xid (prefix ++ layerk ++ s "." ++ str_int i)) (embedded_of es ++ arrays_of es)).
Fixpoint nodes_tree (h : heap) (vns : bool) (prefix layerk : pystr) (i : Z) (ns : list (dict xval)) : res (list xml) :=
  match ns with
  | [] => Ok []
  | n :: r => let* x := node_tree h vns prefix layerk i n in let* q := nodes_tree h vns prefix layerk (i + 1) r in Ok (x :: q)
  end.
Definition layer_tree (h : heap) (vns : bool) (prefix : pystr) (l : xlayer) : res xml :=
  let* ns := nodes_tree h vns prefix (xl_name l) 0 (xl_nodes l) in Ok (Elem (s "layer") [(s "name", xl_name l)] ns).
(** 1036-1049 *)
Fixpoint seps_tree (verbose : bool) (i pos : Z) (segs : list pystr) : list xml :=
  match segs with
  | [] => []
  | x :: r => Elem (s "s") ((s "v", x) :: if verbose then [(s "id", str_int i); (s "start", str_int pos); (s "stop", str_int (pos + zlen x))] else []) []
              :: seps_tree verbose (i + 1) (pos + zlen x) r
  end.
Definition text_tree (verbose : bool) (kt : pystr * list pystr) : xml :=
  Elem (s "text") [(s "name", fst kt)]
    (Elem (s "sep") [] (seps_tree verbose 0 0 (snd kt)) :: if verbose then [Elem (s "raw") [(s "value", join_segs (snd kt))] []] else []).
(** 1022-1031 *)
Definition field_tree (f : pystr * (pystr * dict value)) : xml :=
  Elem (s "field") [(s "name", fst f); (s "type", fst (snd f))]
    (map (fun kv => Elem (s "arg") [(s "key", fst kv); (s "value", str_value (snd kv))] []) (snd (snd f))).
Definition schema_tree (l : xlayer) : xml := Elem (s "define") [(s "layer", xl_name l)] (map field_tree (xl_schema l)).
(** 1018-1020: doc.props.items() *)
Definition props_tree (o : mobj) : res (list xml) :=
  match o with
  | MMap l => Ok (map (fun kv => Elem (s "prop") [(s "key", fst kv); (s "value", str_obj (snd kv))] []) l)
  | _ => Err AttributeError
  end.
Definition encode_tree (h : heap) (d : doc) (verbose verbose_node_spans : bool) (document_id : pystr) (extra_fields_ok type_validation : bool) : hres xml :=
  match encode_intermediate h d extra_fields_ok type_validation with
  | (h1, Err e) => (h1, Err e)
  | (h1, Ok (ts, ls)) =>
      let '(attrs, prefix) := match document_id with [] => ([], []) | _ => ([(xid, document_id)], document_id ++ s ".") end in
      (h1, let* ps := props_tree (d_props d) in
           let* lt := mapM (layer_tree h1 verbose_node_spans prefix) ls in
           Ok (Elem (s "document") attrs
                 [Elem (s "props") [] ps; Elem (s "schema") [] (map schema_tree ls);
                  Elem (s "texts") [] (map (text_tree verbose) ts); Elem (s "layers") [] lt]))
  end.
End Xml.
