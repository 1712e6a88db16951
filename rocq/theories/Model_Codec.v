(** The codecs: columns, MessagePack layout, JSON objects, and building a document from them
    (py/docria/codec.py 33-175, 523-885).
    Simplifications: extension types are not modelled; [decode] resolves node numbers while it makes the
    nodes (the code writes the numbers first and replaces them in a second pass, commit_layers), so for
    malformed input the exception may be another one. *)
From Verif Require Import PyBase Model_Text Model_Heap Model_Layer Model_Types Model_Msgpack Model_Document Model_Coerce.
Local Open Scope Z_scope.

(** model.py 861-875: DataType2String; UNKNOWN has no entry *)
Definition type_string (t : tname) : res pystr :=
  match t with
  | TI32 => Ok (s "i32") | TI64 => Ok (s "i64") | TF64 => Ok (s "f64") | TBool => Ok (s "i1")
  | TString => Ok (s "str") | TBinary => Ok (s "bin") | TNodeRef => Ok (s "noderef")
  | TNodeRefMany => Ok (s "noderef_array") | TSpan => Ok (s "span") | TExt => Ok (s "ext")
  | TNodeRefSpan => Ok (s "nodespan") | TUnknown => Err KeyError
  end.
(** model.py 889: String2DataType *)
Definition all_types : list tname :=
  [TI32; TI64; TF64; TBool; TString; TBinary; TNodeRef; TNodeRefMany; TSpan; TExt; TNodeRefSpan].
Definition string_type (x : pystr) : res tname :=
  match find (fun t => match type_string t with Ok y => str_eqb x y | Err _ => false end) all_types with
  | Some t => Ok t
  | None => Err KeyError
  end.

(** a value as a packable object, for type options and simple columns (model.py 905-912; codec.py 637-641) *)
Definition value_obj (v : value) : res mobj :=
  match v with
  | VNone => Ok MNil | VBool b => Ok (MBool b) | VInt i => Ok (MInt i) | VFloat b => Ok (MFloat b)
  | VStr x => Ok (MStr x) | VBytes x => Ok (MBin x)
  | _ => Err Unmodelled
  end.
(** codec.py 704-712 *)
Definition obj_value (o : mobj) : res value :=
  match o with
  | MNil => Ok VNone | MBool b => Ok (VBool b) | MInt i => Ok (VInt i) | MFloat b => Ok (VFloat b)
  | MStr x => Ok (VStr x) | MBin x => Ok (VBytes x)
  | _ => Err Unmodelled
  end.
(** model.py 905-912; codec.py 637-641 *)
Definition dict_objs (d : dict value) : res (dict mobj) :=
  mapM (fun kv => let* o := value_obj (snd kv) in Ok (fst kv, o)) d.
(** codec.py 704-712 *)
Definition dict_values (d : dict mobj) : res (dict value) :=
  mapM (fun kv => let* v := obj_value (snd kv) in Ok (fst kv, v)) d.

(** codec.py 35-43, 48-59: the encoders.  The result is what is appended to the column.
    [offs] are the sorted offsets of the text of a span field. *)
Definition elem_i (h : heap) (o : option nid) : res Z :=
  match o with Some n => node_i h n | None => Err AttributeError end.
(** len(v) == 0 and the numbers of the elements of v, where v has no nodes as elements: characters, keys and bytes have no attribute i (codec.py 56) *)
Definition other_elems (h : heap) (v : value) : res (list mobj) :=
  match py_len h v with
  | Some r => let* k := r in
              if k =? 0 then Ok [MNil]
              else match v with
                   | VSpan _ t a b => match span_str (mkSpan t a b) with [] => Ok [MArr []] | _ => Err AttributeError end
                   | _ => Err AttributeError
                   end
  | None => match v with VOther _ => Err Unmodelled | _ => Err TypeError end
  end.
(** codec.py 35-59 *)
Definition encode_cell (h : heap) (offs : list Z) (t : tname) (v : value) : res (list mobj) :=
  match t with
  | TI32 | TI64 =>
      match v with
      | VNone => Ok [MNil]
      | VInt i => Ok [MInt i]
      | VBool b => Ok [MInt (if b then 1 else 0)]
      | _ => let* i := py_int v in Ok [MInt i]
      end
  | TF64 => match v with VNone => Ok [MNil] | VFloat b => Ok [MFloat b] | _ => let* b := py_float v in Ok [MFloat b] end
  | TBool =>
      match v with
      | VNone => Ok [MNil]
      | VBool b => Ok [MBool b]
      | VInt i => Ok [MBool (negb (i =? 0))]
      | _ => let* b := py_bool h v in Ok [MBool b]
      end
  | TString => match v with VNone => Ok [MNil] | VStr x => Ok [MStr x] | _ => let* x := py_str v in Ok [MStr x] end
  | TBinary => match v with VNone => Ok [MNil] | VBytes x => Ok [MBin x] | _ => let* x := py_bytes h v in Ok [MBin x] end
  | TNodeRef =>
      match v with
      | VNone => Ok [MNil]
      | VNode n => let* i := node_i h n in Ok [MInt i]
      | _ => Err AttributeError
      end
  | TNodeRefMany =>
      match v with
      | VNone => Ok [MNil]
      | _ => match value_elems h v with
             | Some r => let* l := r in
                         match l with
                         | [] => Ok [MNil]
                         | _ => let* is := mapM (elem_i h) l in Ok [MArr (map MInt is)]
                         end
             | None => other_elems h v
             end
      end
  | TNodeRefSpan =>
      match v with
      | VNone => Ok [MNil]
      | _ => let* a := value_left h v in
             let* ia := elem_i h a in
             let* b := value_right h v in
             let* ib := elem_i h b in
             Ok [MArr [MInt ia; MInt (ib - ia)]]
      end
  | TSpan =>
      match v with
      | VNone => Ok [MNil; MNil]
      | VSpan _ _ a b =>
          match offset_id offs a, offset_id offs b with
          | Some ia, Some ib => Ok [MInt ia; MInt ib]
          | _, _ => Err KeyError
          end
      | _ => Err AttributeError
      end
  | TExt | TUnknown => Err KeyError   (* codec.py 48-59: no encoder *)
  end.
Fixpoint encode_column (h : heap) (offs : list Z) (t : tname) (f : pystr) (ns : list (option nid)) : res (list mobj) :=
  match ns with
  | [] => Ok []
  | None :: _ => Err TypeError
  | Some n :: r =>
      let* a := encode_cell h offs t (match dget (n_fieldsof h n) f with Some v => v | None => VNone end) in
      let* b := encode_column h offs t f r in Ok (a ++ b)
  end.

(** one field: name, type string, options (if any), column (what codec.py 61-113 returns) *)
Record efield := mkEF { ef_name : pystr; ef_type : pystr; ef_args : option (dict mobj); ef_col : list mobj }.
(** what codec.py 61-113 returns *)
Record elayer := mkEL { el_name : pystr; el_num : Z; el_fields : list efield }.
(** what codec.py 61-113 returns *)
Record edoc := mkED { ed_props : mobj; ed_texts : dict (list pystr); ed_layers : list elayer }.

(** model.py 905-912: DataType.encode, and codec.py 79-106: one field *)
Definition encode_field (h : heap) (offsets : dict (list Z)) (l : lid) (f : pystr) (t : dtype) : res efield :=
  let* ts := type_string (dt_name t) in
  let* args := match dt_opts t with [] => Ok None | o => let* a := dict_objs o in Ok (Some a) end in
  let* offs := match dt_name t with
               | TSpan => let* c := opt_name t (s "context") in dgetE offsets c
               | TExt => Err KeyError
               | _ => Ok []
               end in
  let* col := encode_column h offs (dt_name t) f (layer_iter h l) in
  Ok (mkEF f ts args col).
(** codec.py 76-111 *)
Definition encode_layer (h : heap) (offsets : dict (list Z)) (kl : pystr * lid) : res elayer :=
  let* fs := mapM (fun ft => encode_field h offsets (snd kl) (fst ft) (snd ft)) (l_fields (h_layer h (snd kl))) in
  Ok (mkEL (fst kl) (l_numof h (snd kl)) fs).
(** codec.py 61-113: Codec.encode, with the properties added *)
Definition codec_encode (h : heap) (d : doc) (extra_fields_ok type_validation : bool) : hres edoc :=
  match compile h d extra_fields_ok type_validation with
  | (h1, Err e) => (h1, Err e)
  | (h1, Ok offsets) =>
      (h1, let* ts := mapM (fun kt => let* o := dgetE offsets (fst kt) in Ok (fst kt, text_compile (snd kt) o)) (d_texts d) in
           let* ls := mapM (encode_layer h1 offsets) (d_layers d) in
           Ok (mkED (d_props d) ts ls))
  end.

(** ** MessagePack layout (codec.py 593-666) *)
Definition magic : list N := [68; 77; 95; 49]%N.
Definition field_objs (f : efield) : list mobj :=
  match ef_args f with
  | None => [MStr (ef_name f); MBool false; MStr (ef_type f)]
  | Some a => [MStr (ef_name f); MBool true; MStr (ef_type f); MMap a]
  end.
Definition schema_objs (ls : list elayer) : list mobj :=
  flat_map (fun l => MInt (zlen (el_fields l)) :: flat_map field_objs (el_fields l)) ls.
Definition pack_all (os : list mobj) : res (list N) := concatM pack os.
(** a section: its length, then its bytes (codec.py 610-616, 648-651, 663-664) *)
Definition section (os : list mobj) : res (list N) :=
  let* b := pack_all os in let* n := pack (MInt (zlen b)) in Ok (n ++ b).
(** codec.py 656-661 *)
Definition layer_objs (l : elayer) : list mobj :=
  MInt (el_num l) :: flat_map (fun f => [MBool false; MArr (ef_col f)]) (el_fields l).
(** codec.py 646 *)
Definition texts_obj (ts : dict (list pystr)) : mobj := MMap (map (fun kt => (fst kt, MArr (map MStr (snd kt)))) ts).
(** codec.py 605-666 *)
Definition layout (e : edoc) : res (list N) :=
  let* p := section [ed_props e] in
  let* sc := pack_all (MArr (map (fun l => MStr (el_name l)) (ed_layers e)) :: schema_objs (ed_layers e)) in
  let* tx := section [texts_obj (ed_texts e)] in
  let* ls := concatM (fun l => section (layer_objs l)) (ed_layers e) in
  Ok (magic ++ p ++ sc ++ tx ++ ls).
(** codec.py 593-666: MsgpackCodec.encode *)
Definition msgpack_encode (h : heap) (d : doc) (extra_fields_ok type_validation : bool) : hres (list N) :=
  match codec_encode h d extra_fields_ok type_validation with
  | (h1, Err e) => (h1, Err e)
  | (h1, Ok e) => (h1, layout e)
  end.

(** ** reading the layout *)
(** the objects that codec.py 688-885 takes for names and numbers *)
Definition as_str (o : mobj) : res pystr := match o with MStr x => Ok x | _ => Err Unmodelled end.
(** the objects that codec.py 688-885 takes for names and numbers *)
Definition as_strs (o : mobj) : res (list pystr) := match o with MArr l => mapM as_str l | _ => Err Unmodelled end.
(** the objects that codec.py 688-885 takes for names and numbers *)
Definition as_num (o : mobj) : res Z := match o with MInt i => Ok i | _ => Err Unmodelled end.
(** codec.py 700-712: one field of the schema: name, has_args, type, options.  (An option called self or typename, which no DataType can have,
    would make the constructor raise; not modelled.) *)
Definition read_field (bs : list N) : res (pystr * dtype * list N) :=
  let* (o1, r1) := unpack1 bs in
  let* name := as_str o1 in
  let* (o2, r2) := unpack1 r1 in
  let* (o3, r3) := unpack1 r2 in
  let* ts := as_str o3 in
  let* t := string_type ts in
  match o2 with
  | MBool false => Ok (name, mkDT KBase t [], r3)
  | MBool true =>
      let* (o4, r4) := unpack1 r3 in
      match o4 with
      | MMap a => let* opts := dict_values a in Ok (name, mkDT KBase t opts, r4)
      | _ => Err Unmodelled
      end
  | _ => Err Unmodelled
  end.
(** model.py 1228-1236: NodeLayerSchema.add raises when the field exists already *)
Fixpoint read_fields (n : nat) (acc : dict dtype) (bs : list N) : res (dict dtype * list N) :=
  match n with
  | O => Ok (acc, bs)
  | S n' => let* (ft, r) := read_field bs in
            if dmem acc (fst ft) then Err ValueError else read_fields n' (acc ++ [ft]) r
  end.
Fixpoint read_schemas (names : list pystr) (bs : list N) : res (list (pystr * dict dtype) * list N) :=
  match names with
  | [] => Ok ([], bs)
  | x :: r =>
      let* (o, r1) := unpack1 bs in
      let* k := as_num o in
      let* (fs, r2) := read_fields (Z.to_nat k) [] r1 in
      let* (q, r3) := read_schemas r r2 in
      Ok ((x, fs) :: q, r3)
  end.
(** codec.py 688-716: decode_schema.  (Two layers of one name in the file are not modelled.) *)
Fixpoint names_nodup (l : list pystr) : bool :=
  match l with [] => true | x :: r => negb (existsb (str_eqb x) r) && names_nodup r end.
Definition decode_schema (bs : list N) : res (list (pystr * dict dtype) * list N) :=
  let* (o, r) := unpack1 bs in
  let* names := as_strs o in
  if names_nodup names then read_schemas names r else Err Unmodelled.
(** codec.py 718-721: decode_texts without names *)
Definition as_texts (o : mobj) : res (dict (list pystr)) :=
  match o with
  | MMap d => mapM (fun kv => let* l := as_strs (snd kv) in Ok (fst kv, l)) d
  | _ => Err Unmodelled
  end.
(** codec.py 820-824 *)
Fixpoint read_columns (fs : dict dtype) (bs : list N) : res (list (list mobj) * list N) :=
  match fs with
  | [] => Ok ([], bs)
  | _ :: r =>
      let* (o1, r1) := unpack1 bs in
      if truthy o1 then Err NotImplementedError else
      let* (o2, r2) := unpack1 r1 in
      match o2 with
      | MArr col => let* (q, r3) := read_columns r r2 in Ok (col :: q, r3)
      | _ => Err Unmodelled
      end
  end.
(** codec.py 760 and 767-825: number of nodes and columns of a layer *)
Definition read_layer (fs : dict dtype) (bs : list N) : res (Z * list (list mobj) * list N) :=
  let* (o, r) := unpack1 bs in
  let* n := as_num o in
  let* (cols, r1) := read_columns fs r in
  Ok (n, cols, r1).
Fixpoint read_layers (sch : list (pystr * dict dtype)) (bs : list N) : res (list (Z * list (list mobj)) * list N) :=
  match sch with
  | [] => Ok ([], bs)
  | (_, fs) :: r =>
      let* (_, r1) := skip1 bs in
      let* (nc, r2) := read_layer fs r1 in
      let* (q, r3) := read_layers r r2 in
      Ok (nc :: q, r3)
  end.

(** ** building the document *)
(** What was read: properties, schema, text segments, and per layer the number of nodes and the columns (codec.py 836-885) *)
Record pdoc := mkPD { pd_props : mobj; pd_schema : list (pystr * dict dtype); pd_texts : dict (list pystr);
                      pd_layers : list (Z * list (list mobj)) }.
(** codec.py 738-756: text and offsets of a text *)
Definition text_entry (kt : pystr * list pystr) : pystr * (pystr * list Z) :=
  (fst kt, (join_segs (snd kt), seg_offsets 0 (snd kt))).
(** where the nodes of a layer are: first node number and how many (codec.py 759-762, 873-880) *)
Definition bases := dict (nid * nat).
(** codec.py 759-762, 873-880 *)
Fixpoint layer_bases (first : nid) (sch : list (pystr * dict dtype)) (nums : list Z) : bases :=
  match sch, nums with
  | (k, _) :: r, n :: ns => (k, (first, Z.to_nat n)) :: layer_bases (first + Z.to_nat n)%nat r ns
  | _, _ => []
  end.
(** target_nodes[i] (codec.py 150-172) *)
Definition target (b : nid * nat) (o : mobj) : res nat :=
  let* i := as_num o in
  match py_index (Z.of_nat (snd b)) i with Some k => Ok k | None => Err IndexError end.
(** codec.py 150-172 *)
Definition node_at (b : nid * nat) (k : nat) : nid := (fst b + k)%nat.
(** offsets[i] of the dict {0: ..., 1: ...} (codec.py 745-756, 804) *)
Definition offset_at (offs : list Z) (o : mobj) : res Z :=
  let* i := as_num o in
  if i <? 0 then Err KeyError else match nth_error offs (Z.to_nat i) with Some x => Ok x | None => Err KeyError end.
(** codec.py 767-825 and 144-173: the value of node number p in a column; [None]: the field is not set *)
Definition decode_cell (texts : dict (pystr * list Z)) (bs : bases) (t : dtype) (col : list mobj) (p : nat) : res (option value) :=
  match dt_name t with
  | TSpan =>
      let* c := opt_name t (s "context") in
      match dget texts c with
      | None => Ok None
      | Some (txt, offs) =>
          match nth_error col (2 * p), nth_error col (2 * p + 1) with
          | Some MNil, Some _ => Ok None
          | Some a, Some b =>
              let* x := offset_at offs a in
              let* y := offset_at offs b in
              if x <=? y then Ok (Some (VSpan c txt x y)) else Err AssertionError
          | _, _ => Ok None
          end
      end
  | TNodeRef =>
      let* c := opt_name t (s "layer") in
      let* b := dgetE bs c in
      match nth_error col p with
      | None | Some MNil => Ok None
      | Some o => let* k := target b o in Ok (Some (VNode (node_at b k)))
      end
  | TNodeRefMany =>
      let* c := opt_name t (s "layer") in
      let* b := dgetE bs c in
      match nth_error col p with
      | None | Some MNil => Ok None
      | Some (MArr l) => let* ks := mapM (target b) l in Ok (Some (VNodeList (map (fun k => Some (node_at b k)) ks)))
      | Some (MInt _) | Some (MBool _) | Some (MFloat _) => Err TypeError
      | Some _ => Err Unmodelled
      end
  | TNodeRefSpan =>
      let* c := opt_name t (s "layer") in
      let* b := dgetE bs c in
      match nth_error col p with
      | None | Some MNil => Ok None
      | Some (MArr (o1 :: o2 :: _)) =>
          let* i := as_num o1 in
          let* n := as_num o2 in
          let* k1 := target b (MInt i) in
          let* k2 := target b (MInt (i + n)) in
          if (k1 <=? k2)%nat then Ok (Some (VNodeSpan (node_at b k1) (node_at b k2))) else Err AssertionError
      | Some (MArr _) => Err IndexError
      | Some (MInt _) | Some (MBool _) | Some (MFloat _) => Err TypeError
      | Some _ => Err Unmodelled
      end
  | TExt | TUnknown => Err Unmodelled
  | _ =>
      match nth_error col p with
      | None | Some MNil => Ok None
      | Some o => let* v := obj_value o in Ok (Some v)
      end
  end.
(** the dictionary of node number p: the columns in order (codec.py 767-832) *)
Fixpoint decode_row (texts : dict (pystr * list Z)) (bs : bases) (fs : dict dtype) (cols : list (list mobj)) (p : nat) : res (dict value) :=
  match fs, cols with
  | (f, t) :: r, col :: cs =>
      let* o := decode_cell texts bs t col p in
      let* q := decode_row texts bs r cs p in
      Ok (match o with Some v => (f, v) :: q | None => q end)
  | _, _ => Ok []
  end.
(** codec.py 761, 139-140: the nodes of a layer, numbered and bound to it *)
Definition decode_nodes (texts : dict (pystr * list Z)) (bs : bases) (l : lid) (fs : dict dtype) (nc : Z * list (list mobj)) : res (list node) :=
  mapM (fun p => let* row := decode_row texts bs fs (snd nc) p in Ok (mkNode row (Z.of_nat p) (Some l))) (seq 0 (Z.to_nat (fst nc))).
(** n new nodes / layers at once (codec.py 116-174, 762) *)
Definition alloc_nodes (h : heap) (ns : list node) : heap :=
  mkHeap (fun n => if (n <? h_nnext h)%nat then h_node h n else nth (n - h_nnext h) ns (h_node h n))
         (h_nnext h + length ns)%nat (h_layer h) (h_lnext h).
(** codec.py 116-174, 762 *)
Definition alloc_layers (h : heap) (ls : list layer) : heap :=
  mkHeap (h_node h) (h_nnext h)
         (fun l => if (l <? h_lnext h)%nat then h_layer h l else nth (l - h_lnext h) ls (h_layer h l)) (h_lnext h + length ls)%nat.
(** codec.py 116-174, 762 *)
Fixpoint build_nodes (texts : dict (pystr * list Z)) (bs : bases) (l : lid) (sch : list (pystr * dict dtype)) (data : list (Z * list (list mobj))) : res (list (list node)) :=
  match sch, data with
  | (_, fs) :: r, nc :: ds =>
      let* ns := decode_nodes texts bs l fs nc in
      let* q := build_nodes texts bs (S l) r ds in Ok (ns :: q)
  | _, _ => Ok []
  end.
(** model.py 1292-1299, 1359-1371: a layer initialised with its nodes (unsafe_initialize) *)
Fixpoint build_layers (first : nid) (sch : list (pystr * dict dtype)) (nodes : list (list node)) : list layer :=
  match sch, nodes with
  | (k, fs) :: r, ns :: q =>
      mkLayer k fs (map Some (seq first (length ns))) (zlen ns) (defaults_of fs) :: build_layers (first + length ns)%nat r q
  | _, _ => []
  end.
(** codec.py 806-814 and 145-166: the options and targets of a field are looked up once per column, even if there is no node.
    (An ext field without nodes reads nothing; with nodes decode_cell does not cover it.) *)
Definition check_field (bs : bases) (ft : pystr * dtype) : res unit :=
  match dt_name (snd ft) with
  | TSpan => let* _ := opt_name (snd ft) (s "context") in Ok tt
  | TNodeRef | TNodeRefMany | TNodeRefSpan =>
      let* c := opt_name (snd ft) (s "layer") in
      let* _ := dgetE bs c in Ok tt
  | TExt => let* _ := dgetE (dt_opts (snd ft)) (s "type") in Ok tt
  | _ => Ok tt
  end.
Definition check_fields (bs : bases) (sch : list (pystr * dict dtype)) : res unit :=
  let* _ := mapM (check_field bs) (flat_map snd sch) in Ok tt.
(** codec.py 738-756, 115-173, 872-885.  Fresh nodes and layers; the rest of the heap is untouched. *)
Definition build (h : heap) (p : pdoc) : hres doc :=
  let texts := map text_entry (pd_texts p) in
  let bs := layer_bases (h_nnext h) (pd_schema p) (map fst (pd_layers p)) in
  match (let* _ := check_fields bs (pd_schema p) in build_nodes texts bs (h_lnext h) (pd_schema p) (pd_layers p)) with
  | Err e => (h, Err e)
  | Ok nodes =>
      let h1 := alloc_nodes h (List.concat nodes) in
      let h2 := alloc_layers h1 (build_layers (h_nnext h) (pd_schema p) nodes) in
      (h2, Ok (mkDoc (pd_props p)
                     (map (fun kt => (fst kt, fst (snd kt))) texts)
                     (combine (map fst (pd_schema p)) (seq (h_lnext h) (length (pd_schema p))))))
  end.

(** codec.py 835-885: MsgpackCodec.decode *)
Definition parse (bs : list N) : res pdoc :=
  if list_eqb N.eqb (firstn 4 bs) magic then
    let* (_, r1) := skip1 (skipn 4 bs) in
    let* (props, r2) := unpack1 r1 in
    let* (sch, r3) := decode_schema r2 in
    let* (_, r4) := skip1 r3 in
    let* (tx, r5) := unpack1 r4 in
    let* texts := as_texts tx in
    let* (ls, _) := read_layers sch r5 in
    Ok (mkPD props sch texts ls)
  else Err ValueError.
Definition msgpack_decode (h : heap) (bs : list N) : hres doc :=
  match parse bs with
  | Err e => (h, Err e)
  | Ok p => build h p
  end.
