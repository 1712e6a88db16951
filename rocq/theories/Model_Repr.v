(** Tables of nodes, collections and documents: what str() and _repr_html_() render.
    py/docria/printout.py 366-395; py/docria/model.py 150-219, 249-250, 370-388, 441-461, 543-549, 1279-1284, 1665-1669, 1874-1893. *)
From Verif Require Import PyBase Model_Heap Model_Layer Model_Types Model_Query Model_Nodes Model_Printout.
Local Open Scope Z_scope.

Section Repr.
(** repr() of strings, and of values other than nodes, node spans and lists; repr() of an element of a list that is no node *)
Variables (str_repr : pystr -> pystr) (obj_repr : value -> pystr) (elem_repr : pystr).
(** the order in which a set of layer names is joined; the names are given in order of insertion *)
Variable name_order : list pystr -> list pystr.

(** model.py 195-196 *)
Definition node_repr (h : heap) (n : nid) : res pystr :=
  match n_fieldsof h n with
  | [] => Ok []
  | _ => match n_collof h n with
         | None => Err AttributeError
         | Some l => Ok (s "Node<" ++ l_nameof h l ++ s "#" ++ str_int (n_idof h n) ++ s ">")
         end
  end.
(** model.py 450-457: repr of a NodeSpan *)
Definition span_repr (h : heap) (a b : nid) : res pystr :=
  match n_collof h a with
  | None => Err AttributeError
  | Some l =>
      let place ia ib := s "NodeSpan[" ++ l_nameof h l ++ s ": " ++ str_int ia ++ s " to incl. " ++ str_int ib ++ s "]" in
      let* ia := node_i h a in
      let* ib := node_i h b in
      match dget (l_fields (h_layer h l)) (s "text") with
      | Some d => if tname_eqb (dt_name d) TSpan
                  then let* x := nodespan_text h a b (s "text") in Ok (place ia ib ++ s " = " ++ str_repr x)
                  else Ok (place ia ib)
      | None => Ok (place ia ib)
      end
  end.
Definition elem_text (h : heap) (o : option nid) : res pystr := match o with Some n => node_repr h n | None => Ok elem_repr end.
(** printout.py 380-388: the layer names of the leading nodes (a set), and whether all elements are nodes *)
Fixpoint layer_names (h : heap) (seen : list pystr) (l : list (option nid)) : res (bool * list pystr) :=
  match l with
  | [] => Ok (true, seen)
  | None :: _ => Ok (false, seen)
  | Some n :: r => match n_collof h n with
                   | None => Err AttributeError
                   | Some c => let x := l_nameof h c in layer_names h (if existsb (str_eqb x) seen then seen else seen ++ [x]) r
                   end
  end.
(** printout.py 366, 369-395 *)
Definition nil_cell : cell := TCell (s "NIL") (s "<em>NIL</em>").
Definition get_representation (h : heap) (v : value) : res cell :=
  match v with
  | VNone => Ok nil_cell
  | VNodeList [] => Ok (CStr (s "[]"))
  | VNodeList [x] => let* t := elem_text h x in Ok (CStr (s "[" ++ t ++ s "]"))
  | VNodeList l =>
      let* (all_nodes, names) := layer_names h [] l in
      Ok (CStr (if (all_nodes : bool) then s "[" ++ str_int (zlen l) ++ s " nodes from layer: " ++ join (s ", ") (name_order names) ++ s "]"
                else s "[" ++ str_int (zlen l) ++ s " nodes from " ++ str_int (zlen names) ++ s " layers]"))
  | VNode n => let* t := node_repr h n in Ok (CStr t)
  | VNodeSpan a b => let* t := span_repr h a b in Ok (CStr t)
  | _ => Ok (CStr (obj_repr v))
  end.

(** title % k for an int k.  Conversions other than %d and %%: an unknown or missing conversion character is a ValueError; flags, widths
    and other conversions are not modelled.  A second %d has no argument (model.py 205-219) *)
Fixpoint format_int (x : pystr) (k : option Z) : res pystr :=
  match x with
  | [] => match k with None => Ok [] | Some _ => Err TypeError end
  | c :: r =>
      if N.eqb c 37 then
        match r with
        | [] => Err ValueError
        | d :: r' =>
            if N.eqb d 37 then let* y := format_int r' k in Ok (37%N :: y)
            else if N.eqb d 100 then match k with Some i => let* y := format_int r' None in Ok (str_int i ++ y) | None => Err TypeError end
            else if N.eqb d 39 then Err ValueError
            else Err Unmodelled
        end
      else let* y := format_int r k in Ok (c :: y)
  end.
(** model.py 1666: "Layer '%s' with %%d nodes." % name *)
Definition layer_title (name : pystr) : pystr := s "Layer '" ++ name ++ s "' with %d nodes.".
Definition default_title : pystr := s "Node collection with N=%d elements".
Definition query_title : pystr := s "Query with %d nodes.".
Definition span_title : pystr := s "Node span with N=%d elements".

(** sorted() of strings (model.py 208) *)
Definition str_leb (a b : pystr) : bool := match str_cmp a b with Gt => false | _ => true end.
(** model.py 212-217: the cells of a node *)
Definition node_cells (h : heap) (fields : list pystr) (o : option nid) : res (list cell) :=
  match o with
  | None => match fields with [] => Ok [] | _ => Err AttributeError end
  | Some n => mapM (fun k => get_representation h (fget h n k)) fields
  end.
Fixpoint node_rows (h : heap) (fields : list pystr) (offset : option Z) (i : Z) (ns : list (option nid)) : res (list row) :=
  match ns with
  | [] => Ok []
  | o :: r => let* cs := node_cells h fields o in
              let* rest := node_rows h fields offset (i + 1) r in
              Ok (mkRow (match offset with Some k => Some (str_int (i + k)) | None => None end) cs :: rest)
  end.
(** model.py 205-219; the padding of the default style is 2 (printout.py 108-109, 163) *)
Definition coll_table (h : heap) (c : coll) (title : pystr) (offset : option Z) : res table :=
  let fields := ssort (fun x => x) str_leb (dkeys (coll_fields h c)) in
  let* len := coll_len h c in
  let* caption := format_int title (Some len) in
  let* ns := coll_iter h c in
  let* body := node_rows h fields offset 0 ns in
  Ok (mkTable (Some caption) 2 (Some (mkRow (Some (s "#")) (map CStr fields))) body true false).
(** str(collection): 459-461, 547-549, 1282-1283, 1668-1669 *)
Definition coll_str_table (h : heap) (c : coll) : res table :=
  coll_table h c (match c with CLayer l => layer_title (l_nameof h l) | CQuery _ _ _ => query_title | _ => default_title end) None.
(** collection._repr_html_(): 249-250, 441-442, 543-545, 1279-1280, 1665-1666 *)
Definition coll_html_table (h : heap) (c : coll) : res table :=
  match c with
  | CSpan a _ => let* i := node_i h a in coll_table h c span_title (Some i)
  | _ => coll_str_table h c
  end.
Definition coll_str (o : options) (h : heap) (c : coll) : res pystr := let* t := coll_str_table h c in render_text o t.

(** model.py 179-189: the table of a node *)
Definition node_table (h : heap) (n : nid) : res table :=
  let* caption := match n_fieldsof h n with
                  | [] => Ok []
                  | _ => match n_collof h n with
                         | None => Err AttributeError
                         | Some l => Ok (s "Node " ++ l_nameof h l ++ s "#" ++ str_int (n_idof h n))
                         end
                  end in
  let* body := mapM (fun kv => let* c := get_representation h (snd kv) in Ok (mkRow None [CStr (fst kv); c])) (n_fieldsof h n) in
  Ok (mkTable (Some caption) 2 (Some (mkRow (Some (s "#")) [CStr (s "field"); CStr (s "value")])) body true false).
Definition node_str (o : options) (h : heap) (n : nid) : res pystr := let* t := node_table h n in render_text o t.

(** model.py 1874-1893: the two tables of a document: texts and layers, given by name and content *)
Definition texts_table (texts : dict pystr) : table :=
  mkTable (Some (s "Texts")) 2 (Some (mkRow (Some (s "#")) [CStr (s "key"); CStr (s "value")]))
    (map (fun kv => mkRow None [CStr (fst kv); CStr (str_repr (snd kv))]) texts) true true.
Definition layers_table (h : heap) (layers : dict lid) : table :=
  mkTable (Some (s "Layers")) 2 (Some (mkRow (Some (s "#")) [CStr (s "key"); CStr (s "value")]))
    (map (fun kv => mkRow None [CStr (fst kv); CStr (s "N=" ++ str_int (layer_len h (snd kv)))]) layers) true true.
Definition document_str (o : options) (h : heap) (texts : dict pystr) (layers : dict lid) : res pystr :=
  let* a := render_text o (texts_table texts) in
  let* b := render_text o (layers_table h layers) in
  Ok (join [10%N] [s "== Document =="; a; b]).
End Repr.
