(** Documents: texts, layers, removing a layer, compiling (py/docria/model.py 1752-2016).
    Simplification: a text is filed under its own name (true when texts are added with add_text or maintext). *)
From Verif Require Import PyBase Model_Text Model_Heap Model_Layer Model_Types Model_Msgpack.
Local Open Scope Z_scope.

(** model.py 1760-1768: Document.__init__.  Properties are packable objects (an [MMap] unless replaced);
    a text is its string; a layer is its object number. *)
Record doc := mkDoc { d_props : mobj; d_texts : dict pystr; d_layers : dict lid }.
Definition empty_doc : doc := mkDoc (MMap []) [] [].

(** model.py 1807-1817: add_text *)
Definition add_text (d : doc) (name t : pystr) : doc := mkDoc (d_props d) (dset (d_texts d) name t) (d_layers d).
(** model.py 1794-1806: maintext = str *)
Definition set_maintext (d : doc) (t : pystr) : res doc :=
  if dmem (d_texts d) (s "main") then Err AssertionError else Ok (add_text d (s "main") t).
(** model.py 1819-1835: add_layer(name, **fields) *)
Definition add_layer (h : heap) (d : doc) (name : pystr) (fs : dict dtype) : heap * doc * lid :=
  let '(h1, l) := alloc_layer h (new_layer name fs) in
  (h1, mkDoc (d_props d) (d_texts d) (dset (d_layers d) name l), l).

(** fv.options["layer"] == name for a field that is a node reference or a list of node references (model.py 1837-1866) *)
Definition refers (name : pystr) (t : dtype) : res bool :=
  match dt_name t with
  | TNodeRef | TNodeRefMany => opt_is t (s "layer") name
  | _ => Ok false
  end.
(** the field names of one layer that refer to the name (model.py 1837-1866) *)
Fixpoint refer_fields (name : pystr) (fs : dict dtype) : res (list pystr) :=
  match fs with
  | [] => Ok []
  | (f, t) :: r => let* b := refers name t in let* q := refer_fields name r in Ok (if b then f :: q else q)
  end.
(** model.py 1848-1855: layers other than [name] with fields that refer to it *)
Fixpoint referencing (h : heap) (name : pystr) (ls : dict lid) : res (list (pystr * list pystr)) :=
  match ls with
  | [] => Ok []
  | (k, l) :: r =>
      if str_eqb k name then referencing h name r
      else let* fs := refer_fields name (l_fields (h_layer h l)) in
           let* q := referencing h name r in
           Ok (match fs with [] => q | _ => (k, fs) :: q end)
  end.
(** model.py 1837-1866: remove_layer; the result is False or (falling off the end) None *)
Definition remove_layer (h : heap) (d : doc) (name : pystr) (fieldcascade : bool) : res (doc * option bool) :=
  if negb (dmem (d_layers d) name) then Ok (d, Some false)
  else let* q := referencing h name (d_layers d) in
       if negb fieldcascade && negb (match q with [] => true | _ => false end) then Err DataValidationError
       else Ok (mkDoc (d_props d) (d_texts d) (ddel (d_layers d) name), None).

(** ** compile *)
(** fieldtype.options[key], a name.  (Simplification: an option that is not a string is not modelled.) (model.py 1951-1956, 2000) *)
Definition opt_name (t : dtype) (key : pystr) : res pystr :=
  let* v := dgetE (dt_opts t) key in match v with VStr x => Ok x | _ => Err Unmodelled end.
(** model.py 1951-1956: the layer and text names that the fields refer to *)
Fixpoint field_refs (fs : dict dtype) : res (list pystr * list pystr) :=
  match fs with
  | [] => Ok ([], [])
  | (_, t) :: r =>
      let* (a, b) := match dt_name t with
                     | TNodeRef | TNodeRefMany | TNodeRefSpan => let* x := opt_name t (s "layer") in Ok ([x], [])
                     | TSpan => let* x := opt_name t (s "context") in Ok ([], [x])
                     | _ => Ok ([], [])
                     end in
      let* (a', b') := field_refs r in Ok (a ++ a', b ++ b')
  end.
Fixpoint layer_refs (h : heap) (ls : dict lid) : res (list pystr * list pystr) :=
  match ls with
  | [] => Ok ([], [])
  | (_, l) :: r => let* (a, b) := field_refs (l_fields (h_layer h l)) in
                   let* (a', b') := layer_refs h r in Ok (a ++ a', b ++ b')
  end.
(** model.py 1959-1968 *)
Definition check_refs (h : heap) (d : doc) : res unit :=
  let* (ls, ts) := layer_refs h (d_layers d) in
  if negb (forallb (fun x => dmem (d_layers d) x) ls) then Err SchemaError
  else if negb (forallb (fun x => dmem (d_texts d) x) ts) then Err SchemaError
  else Ok tt.
(** model.py 1985-1992: validate each node and look for undeclared fields.  The answer of validate is
    not looked at. *)
Fixpoint check_nodes (h : heap) (l : lid) (ns : list (option nid)) : res unit :=
  match ns with
  | [] => Ok tt
  | None :: _ => Err TypeError
  | Some n :: r =>
      let* _ := validate h l n in
      if forallb (fun kv => dmem (l_fields (h_layer h l)) (fst kv)) (n_fieldsof h n) then check_nodes h l r
      else Err SchemaValidationError
  end.
(** model.py 1999-2004: the offsets of one span field *)
Fixpoint field_offsets (h : heap) (f : pystr) (ns : list (option nid)) : res (list Z) :=
  match ns with
  | [] => Ok []
  | None :: _ => Err TypeError
  | Some n :: r =>
      match dget (n_fieldsof h n) f with
      | None => field_offsets h f r
      | Some (VSpan _ _ a b) => let* q := field_offsets h f r in Ok (a :: b :: q)
      | Some _ => Err AttributeError
      end
  end.
(** model.py 1995-2004; [acc] is text_offsets *)
Fixpoint collect_fields (h : heap) (ns : list (option nid)) (fs : dict dtype) (acc : dict (list Z)) : res (dict (list Z)) :=
  match fs with
  | [] => Ok acc
  | (f, t) :: r =>
      match dt_name t with
      | TSpan => let* c := opt_name t (s "context") in
                 let* old := dgetE acc c in
                 let* q := field_offsets h f ns in
                 collect_fields h ns r (dset acc c (old ++ q))
      | _ => collect_fields h ns r acc
      end
  end.
(** model.py 1974-2004: one layer *)
Definition compile_layer (h : heap) (l : lid) (check : bool) (acc : dict (list Z)) : hres (dict (list Z)) :=
  let h1 := layer_prepare h l in
  match (if check then check_nodes h1 l (layer_iter h1 l) else Ok tt) with
  | Err e => (h1, Err e)
  | Ok _ => (h1, collect_fields h1 (layer_iter h1 l) (l_fields (h_layer h1 l)) acc)
  end.
Fixpoint compile_layers (h : heap) (ls : dict lid) (check : bool) (acc : dict (list Z)) : hres (dict (list Z)) :=
  match ls with
  | [] => (h, Ok acc)
  | (_, l) :: r =>
      match compile_layer h l check acc with
      | (h1, Err e) => (h1, Err e)
      | (h1, Ok acc1) => compile_layers h1 r check acc1
      end
  end.
(** model.py 2006-2014: the sorted offsets of each text; the mapping from offset to id is
    [offset_id] of the sorted offsets *)
Fixpoint final_offsets (ts : dict pystr) (acc : dict (list Z)) : res (dict (list Z)) :=
  match ts with
  | [] => Ok []
  | (k, t) :: r => let* o := dgetE acc k in let* q := final_offsets r acc in Ok ((k, sorted_offsets t o) :: q)
  end.
(** model.py 1937-2016: compile *)
Definition compile (h : heap) (d : doc) (extra_fields_ok type_validation : bool) : hres (dict (list Z)) :=
  match check_refs h d with
  | Err e => (h, Err e)
  | Ok _ =>
      match compile_layers h (d_layers d) (type_validation && negb extra_fields_ok) (map (fun kt => (fst kt, [])) (d_texts d)) with
      | (h1, Err e) => (h1, Err e)
      | (h1, Ok acc) => (h1, final_offsets (d_texts d) acc)
      end
  end.
