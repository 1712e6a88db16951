(** Data types, validation, and the layer operations that validate
    (py/docria/model.py 892-1248, 1311-1357, 1373-1510). *)
From Verif Require Import PyBase Model_Text Model_Heap Model_Layer.
Local Open Scope Z_scope.

(** self.options[key] == name, for a string name (model.py 1019-1066); an option that is a TextSpan is compared by
    its string (model.py 606-610) *)
Definition opt_is (d : dtype) (key name : pystr) : res bool :=
  let* v := dgetE (dt_opts d) key in
  match v with
  | VStr x => Ok (str_eqb name x)
  | VSpan _ t a b => Ok (str_eqb name (span_str (mkSpan t a b)))
  | _ => Ok false
  end.

(** n.collection is not None and n.collection.name == options["layer"] (model.py 1019-1066) *)
Definition coll_is (h : heap) (d : dtype) (n : nid) : res bool :=
  match n_collof h n with
  | None => Ok false
  | Some l => opt_is d (s "layer") (l_nameof h l)
  end.

(** model.py 975-986 *)
Definition i32_min : Z := -0x80000000.
(** model.py 975-986 *)
Definition i32_max : Z := 0x7FFFFFFF.
(** model.py 975-986 *)
Definition i64_min : Z := -0x8000000000000000.
(** model.py 975-986 *)
Definition i64_max : Z := 0x7FFFFFFFFFFFFFFF.
(** model.py 975-986 *)
Definition in_range (lo hi i : Z) : bool := (lo <=? i) && (i <=? hi).
(** bool is a subclass of int in Python (model.py 975-986) *)
Definition as_int (v : value) : option Z :=
  match v with VInt i => Some i | VBool b => Some (if b then 1 else 0) | _ => None end.

(** the elements of a value that is a list or a NodeCollection (model.py 1063-1066) *)
Definition value_elems (h : heap) (v : value) : option (res (list (option nid))) :=
  match v with
  | VNodeList l => Some (Ok l)
  | VNodeSpan a b => Some (let* l := nodespan_iter h a b in Ok (map Some l))
  | _ => None
  end.

(** model.py 943-944 and 965-1066: is_valid of each data type class *)
Definition is_valid (h : heap) (d : dtype) (v : value) : res bool :=
  match dt_class d with
  | KBase => Ok true
  | KBool => Ok (match v with VBool _ => true | _ => false end)
  | KInt32 => Ok (match as_int v with Some i => in_range i32_min i32_max i | None => false end)
  | KInt64 => Ok (match as_int v with Some i => in_range i64_min i64_max i | None => false end)
  | KFloat => Ok (match v with VFloat _ => true | _ => false end)
  | KString => Ok (match v with VStr x => zlen x <? 2 ^ 31 | _ => false end)
  | KBinary => Ok (match v with VBytes x => zlen x <? 2 ^ 31 | _ => false end)
  | KNodespan =>
      match v with
      | VNodeSpan a b =>
          match n_collof h a, n_collof h b with
          | Some la, Some lb =>
              let* x := opt_is d (s "layer") (l_nameof h la) in
              if negb x then Ok false else
              let* y := opt_is d (s "layer") (l_nameof h lb) in
              if negb y then Ok false else
              let* ia := node_i h a in
              let* ib := node_i h b in
              Ok (ia <=? ib)
          | _, _ => Ok false
          end
      | _ => Ok false
      end
  | KTextspan =>
      match v with
      | VSpan name _ _ _ => opt_is d (s "context") name
      | _ => Ok false
      end
  | KNoderef =>
      match v with VNode n => coll_is h d n | _ => Ok false end
  | KNoderefList =>
      let* _ := dgetE (dt_opts d) (s "layer") in
      match value_elems h v with
      | Some r => let* l := r in
                  allM (fun o => match o with None => Err AttributeError | Some n => coll_is h d n end) l
      | None => Ok false
      end
  end.

(** repr(value) as used in assertion messages: it can raise on dangling nodes (model.py 195-196)
    and on node spans (model.py 450-457). *)
Definition span_text_value (v1 v2 : value) : res unit :=
  match v1, v2 with
  | VSpan _ _ _ _, VSpan _ _ _ _ => Ok tt
  | _, _ => Err AttributeError
  end.
Definition value_repr (h : heap) (v : value) : res unit :=
  match v with
  | VNode n => if node_repr_ok h n then Ok tt else Err AttributeError
  | VNodeList l =>
      if forallb (fun o => match o with None => true | Some n => node_repr_ok h n end) l then Ok tt else Err AttributeError
  | VNodeSpan a b =>
      match n_collof h a with
      | None => Err AttributeError
      | Some l =>
          let* _ := node_i h a in
          let* _ := node_i h b in
          match dget (l_fields (h_layer h l)) (s "text") with
          | Some d => if tname_eqb (dt_name d) TSpan
                      then let* x := dgetE (n_fieldsof h a) (s "text") in
                           let* y := dgetE (n_fieldsof h b) (s "text") in span_text_value x y
                      else Ok tt
          | None => Ok tt
          end
      end
  | _ => Ok tt
  end.
(** assert cond, message: the message is only computed when the condition is false (model.py 1373-1443) *)
Definition assert_msg (cond : bool) (msg : res unit) : res unit :=
  if cond then Ok tt else let* _ := msg in Err AssertionError.

(** fieldvalue.left / fieldvalue.right (model.py 1382-1405): attributes of a NodeSpan, or the
    neighbour properties when the value is a Node *)
Definition value_left (h : heap) (v : value) : res (option nid) :=
  match v with
  | VNodeSpan a _ => Ok (Some a)
  | VNode n => node_left h n
  | _ => Err AttributeError
  end.
Definition value_right (h : heap) (v : value) : res (option nid) :=
  match v with
  | VNodeSpan _ b => Ok (Some b)
  | VNode n => node_right h n
  | _ => Err AttributeError
  end.
Definition assert_coll (h : heap) (ty : dtype) (n : nid) : res unit :=
  match n_collof h n with
  | None => Err AssertionError
  | Some l => let* b := opt_is ty (s "layer") (l_nameof h l) in
              if b then Ok tt else Err AssertionError
  end.
(** model.py 1381-1440: the assertions made when a field is not valid.  [Ok tt] means that all of
    them held, and validate returns False. *)
Definition invalid_asserts (h : heap) (ty : dtype) (v : value) : res unit :=
  match dt_name ty with
  | TNodeRefSpan =>
      let* lo := value_left h v in
      match lo with
      | None => Err AssertionError
      | Some a =>
          let* ro := value_right h v in
          match ro with
          | None => Err AssertionError
          | Some b =>
              match n_collof h a, n_collof h b with
              | Some _, Some _ =>
                  let* _ := assert_coll h ty a in
                  let* _ := assert_coll h ty b in
                  let* ia := node_i h a in
                  let* ib := node_i h b in
                  if ia <=? ib then Ok tt else Err AssertionError
              | _, _ => Err AssertionError
              end
          end
      end
  | TNodeRef =>
      match v with
      | VNode n => assert_coll h ty n
      | _ => Err AttributeError
      end
  | TNodeRefMany =>
      match v with
      | VNodeList l =>
          (fix go (l : list (option nid)) : res unit :=
             match l with
             | [] => Ok tt
             | None :: _ => Err AssertionError
             | Some n :: r => let* _ := assert_coll h ty n in go r
             end) l
      | _ => Err AssertionError
      end
  | TSpan =>
      match v with
      | VSpan name _ _ _ =>
          let* b := opt_is ty (s "context") name in if b then Ok tt else Err AssertionError
      | _ => assert_msg false (value_repr h v)
      end
  | _ => assert_msg false (value_repr h v)
  end.

(** model.py 1373-1443: validate.  The type used for the check is the one of node.collection. *)
Fixpoint validate_fields (h : heap) (fs : dict dtype) (n : nid) : res bool :=
  match fs with
  | [] => Ok true
  | (f, ty) :: r =>
      match dget (n_fieldsof h n) f with
      | None => validate_fields h r n
      | Some v =>
          match n_collof h n with
          | None => Err AttributeError
          | Some c =>
              let* ty' := dgetE (l_fields (h_layer h c)) f in
              let* ok := is_valid h ty' v in
              if ok then validate_fields h r n
              else let* _ := invalid_asserts h ty v in Ok false
          end
      end
  end.
Definition validate (h : heap) (l : lid) (n : nid) : res bool :=
  validate_fields h (l_fields (h_layer h l)) n.
(** model.py 122-139: Node.is_valid(noexcept=True): AssertionError becomes False, other exceptions
    (SchemaValidationError is never raised by validate) propagate *)
Definition node_is_valid (h : heap) (n : nid) : res bool :=
  match n_collof h n with
  | None => Err AttributeError
  | Some c => match validate h c n with Err AssertionError => Ok false | r => r end
  end.

(** model.py 902-903: DataType.default; a stored None default counts as none *)
Definition dt_default (d : dtype) : option value :=
  match dget (dt_opts d) (s "default") with Some VNone => None | r => r end.
(** model.py 1311-1313: _update_default_values *)
Fixpoint defaults_of (fs : dict dtype) : dict value :=
  match fs with
  | [] => []
  | (f, d) :: r => match dt_default d with Some v => (f, v) :: defaults_of r | None => defaults_of r end
  end.
(** model.py 1292-1299: NodeLayerCollection(schema) *)
Definition new_layer (name : pystr) (fs : dict dtype) : layer := mkLayer name fs [] 0 (defaults_of fs).

(** model.py 1470-1477: add with keyword arguments.  When validation raises, the freshly made node is unreachable, so
    the heap is returned unchanged. *)
Definition layer_add_kw (h : heap) (l : lid) (kw : dict value) : hres nid :=
  let f := dupdate (l_defaults (h_layer h l)) kw in
  let '(h1, n) := alloc_node h (mkNode f (zlen (l_nodesof h l)) (Some l)) in
  match validate h1 l n with
  | Ok true => (append_node h1 l n, Ok n)
  | Ok false => (h, Err AssertionError)
  | Err e => (h, Err e)
  end.

(** model.py 1492-1500: first loop of add_many *)
Fixpoint add_many_loop (h : heap) (l : lid) (ns : list (option nid)) : hres unit :=
  match ns with
  | [] => (h, Ok tt)
  | None :: _ => (h, Err AssertionError)
  | Some n :: r =>
      match n_collof h n with
      | Some _ => (h, Err AssertionError)
      | None => add_many_loop (append_node (bind_node h l n) l n) l r
      end
  end.
(** model.py 1502-1504 *)
Fixpoint validate_all (h : heap) (l : lid) (ns : list (option nid)) : res unit :=
  match ns with
  | [] => Ok tt
  | None :: r => validate_all h l r
  | Some n :: r => let* b := validate h l n in if b then validate_all h l r else Err AssertionError
  end.
(** model.py 1508-1510: fill the missing keys of one node.  The code runs through a set of keys;
    the model uses the order of the defaults dictionary. *)
Fixpoint fill_missing (f : dict value) (ds : dict value) : dict value :=
  match ds with
  | [] => f
  | (k, v) :: r => fill_missing (if dmem f k then f else dset f k v) r
  end.
Fixpoint fill_nodes (h : heap) (ds : dict value) (ns : list (option nid)) : hres unit :=
  match ns with
  | [] => (h, Ok tt)
  | None :: _ => (h, Err AttributeError)
  | Some n :: r => fill_nodes (set_fields h n (fill_missing (n_fieldsof h n) ds)) ds r
  end.
(** model.py 1479-1510: add_many.  [one_shot]: the argument is an iterator, exhausted by the first loop. *)
Definition layer_add_many (h : heap) (l : lid) (one_shot : bool) (ns : list (option nid))
    (default_fill full_validation : bool) : hres unit :=
  let start_pos := length (l_nodesof h l) in
  match add_many_loop h l ns with
  | (h1, Err e) => (h1, Err e)
  | (h1, Ok _) =>
      match (if full_validation then validate_all h1 l (if one_shot then [] else ns) else Ok tt) with
      | Err e => (h1, Err e)
      | Ok _ =>
          if default_fill && negb (match l_defaults (h_layer h1 l) with [] => true | _ => false end)
          then fill_nodes h1 (l_defaults (h_layer h1 l)) (skipn start_pos (l_nodesof h1 l))
          else (h1, Ok tt)
      end
  end.

(** for n in self: n[name] = v (model.py 1315-1336) *)
Fixpoint set_field_all (h : heap) (name : pystr) (v : value) (ns : list (option nid)) : hres unit :=
  match ns with
  | [] => (h, Ok tt)
  | None :: _ => (h, Err TypeError)
  | Some n :: r => set_field_all (set_fields h n (dset (n_fieldsof h n) name v)) name v r
  end.
(** for n in self: if name in n: del n[name] (model.py 1338-1357) *)
Fixpoint del_field_all (h : heap) (name : pystr) (ns : list (option nid)) : hres unit :=
  match ns with
  | [] => (h, Ok tt)
  | None :: _ => (h, Err TypeError)
  | Some n :: r => del_field_all (set_fields h n (ddel (n_fieldsof h n) name)) name r
  end.
(** model.py 1315-1336: add_field with a DataType object.  SchemaValidationError needs two arguments
    but gets one, so an existing field raises TypeError. *)
Definition layer_add_field (h : heap) (l : lid) (name : pystr) (d : dtype) (init : bool) : hres unit :=
  if dmem (l_fields (h_layer h l)) name then (h, Err TypeError)
  else
    let fs := dset (l_fields (h_layer h l)) name d in
    let h1 := set_schema h l fs (defaults_of fs) in
    if init then
      match dt_default d with
      | Some v => set_field_all h1 name v (layer_iter h1 l)
      | None => (h1, Ok tt)
      end
    else (h1, Ok tt).
(** model.py 1338-1357: remove_field *)
Definition layer_remove_field (h : heap) (l : lid) (name : pystr) (leave_data : bool) : hres bool :=
  if negb (dmem (l_fields (h_layer h l)) name) then (h, Ok false)
  else
    match (if leave_data then (h, Ok tt) else del_field_all h name (layer_iter h l)) with
    | (h1, Err e) => (h1, Err e)
    | (h1, Ok _) =>
        let fs := ddel (l_fields (h_layer h1 l)) name in
        (set_schema h1 l fs (defaults_of fs), Ok true)
    end.

(** model.py 893-894, 914-941: cast_up_possible, cast_up *)
Definition type_priority (t : tname) : option Z :=
  match t with TBool => Some 0 | TI32 => Some 1 | TI64 => Some 2 | TF64 => Some 3 | _ => None end.
Definition is_numeric (t : tname) : bool :=
  match t with TBool | TI32 | TI64 | TF64 => true | _ => false end.
Definition cast_up_possible (a b : dtype) : bool :=
  if tname_eqb (dt_name a) (dt_name b) then true
  else if is_numeric (dt_name a) then is_numeric (dt_name b) else false.
Definition cast_up (a b : dtype) : res dtype :=
  match type_priority (dt_name a), type_priority (dt_name b) with
  | Some pa, Some pb => Ok (if pb <=? pa then a else b)
  | _, _ => Err AssertionError
  end.

(** default == 0 for a Python default value: 0, False, 0.0 and -0.0 (model.py 1084-1128) *)
Definition value_is_zero (v : value) : bool :=
  match v with
  | VInt i => i =? 0
  | VBool b => negb b
  | VFloat bits => (N.eqb bits 0) || (N.eqb bits 0x8000000000000000)
  | _ => false
  end.
(** model.py 1084-1128 *)
Definition opt_default (v : value) : dict value := [(s "default", v)].
(** model.py 1071-1090: int32(default) *)
Definition T_int32 (default : value) : dtype :=
  if value_is_zero default then mkDT KInt32 TI32 (opt_default (VInt 0))
  else match default with
       | VNone => mkDT KInt32 TI32 []
       | _ => mkDT KInt32 TI32 (opt_default default)
       end.
(** model.py 1092-1099 *)
Definition T_int64 (default : value) : dtype :=
  if value_is_zero default then mkDT KInt64 TI64 (opt_default (VInt 0))
  else match default with
       | VNone => mkDT KInt64 TI64 []
       | _ => mkDT KInt64 TI64 (opt_default default)
       end.
(** model.py 1071, 1101-1108: the shared float type has the integer 0 as default, and a non-zero
    default is replaced by 0.0 *)
Definition T_float64 (default : value) : dtype :=
  if value_is_zero default then mkDT KFloat TF64 (opt_default (VInt 0))
  else match default with
       | VNone => mkDT KFloat TF64 []
       | _ => mkDT KFloat TF64 (opt_default (VFloat 0))
       end.
(** model.py 1110-1117: a non-empty default gives the base class *)
Definition T_string (default : value) : dtype :=
  match default with
  | VStr [] => mkDT KString TString (opt_default (VStr []))
  | VNone => mkDT KString TString []
  | _ => mkDT KBase TString (opt_default default)
  end.
(** model.py 1119-1126 *)
Definition T_bool (default : value) : dtype :=
  match default with
  | VStr [] => mkDT KString TString (opt_default (VStr []))
  | VNone => mkDT KBool TBool []
  | _ => mkDT KBase TBool (opt_default default)
  end.
(** model.py 1081 *)
Definition T_binary : dtype := mkDT KBinary TBinary [].
(** model.py 1130-1137 *)
Definition T_span (context : pystr) : dtype := mkDT KTextspan TSpan [(s "context", VStr context)].
(** model.py 1141-1166 *)
Definition T_noderef (l : pystr) : dtype := mkDT KNoderef TNodeRef [(s "layer", VStr l)].
Definition T_noderef_many (l : pystr) : dtype := mkDT KNoderefList TNodeRefMany [(s "layer", VStr l)].
Definition T_nodespan (l : pystr) : dtype := mkDT KNodespan TNodeRefSpan [(s "layer", VStr l)].
(** model.py 1168-1170 *)
Definition T_ext (ty : pystr) : dtype := mkDT KBase TExt [(s "type", VStr ty)].

(** model.py 1176-1214: typeof *)
Definition typeof (h : heap) (v : value) (cmp : option dtype) : res dtype :=
  match v with
  | VStr _ => Ok (T_string (VStr []))
  | VInt _ | VBool _ =>
      match cmp, as_int v with
      | Some c, Some i =>
          if tname_eqb (dt_name c) TI32 && in_range i32_min i32_max i then Ok (T_int32 (VInt 0)) else Ok (T_int64 (VInt 0))
      | _, _ => Ok (T_int64 (VInt 0))
      end
  | VFloat _ => Ok (T_float64 (VFloat 0))
  | VBytes _ => Ok T_binary
  | VSpan name _ _ _ => Ok (T_span name)
  | VNodeSpan a _ => match n_collof h a with None => Err AttributeError | Some l => Ok (T_nodespan (l_nameof h l)) end
  | VNode n => match n_collof h n with None => Err AttributeError | Some l => Ok (T_noderef (l_nameof h l)) end
  | VNodeList [] =>
      match cmp with
      | Some c => if tname_eqb (dt_name c) TNodeRefMany then Ok c else Ok (mkDT KBase TNodeRefMany [])
      | None => Ok (mkDT KBase TNodeRefMany [])
      end
  | VNodeList (None :: _) => Err ValueError
  | VNodeList ((Some n :: _) as l) =>
      (* collection of the first node; None compares equal to None, then None.name fails *)
      if forallb (fun o => match o with Some m => opt_lid_eqb (n_collof h m) (n_collof h n) | None => false end) l
      then match n_collof h n with Some c => Ok (T_noderef_many (l_nameof h c)) | None => Err AttributeError end
      else Err ValueError
  | VNone | VExt _ _ | VOther _ => Err ValueError
  end.
