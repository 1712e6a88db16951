(** Node lists, node spans and the operations common to all node collections (py/docria/model.py 199-295, 391-549).
    Collections are those of Model_Query: layers, node spans, node lists, queries. *)
From Verif Require Import PyBase Model_Heap Model_Layer Model_Text Model_Types Model_Query.
Local Open Scope Z_scope.

Section Sets.
(** As in Model_Query: identity of unknown objects. *)
Variable same : value -> value -> bool.
(** The order in which Python iterates over a set: of the types found for a field, and of the layers of the nodes.
    The lists are in order of insertion. *)
Variable type_order : pystr -> list dtype -> list dtype.
Variable layer_order : list lid -> list lid.

(** model.py 952-956: two types are one element of a set if type name and options are equal (and hash equally) *)
Definition dt_same (a b : dtype) : bool :=
  tname_eqb (dt_name a) (dt_name b) && (zlen (dt_opts a) =? zlen (dt_opts b)) &&
  forallb (fun kv => match dget (dt_opts b) (fst kv) with Some v => hash_eq same (snd kv) v | None => false end) (dt_opts a).
(** fields.setdefault(fld, set()).add(dtype) (model.py 481, 487); an option that is a list cannot be hashed *)
Definition add_type (fs : dict (list dtype)) (f : pystr) (t : dtype) : res (dict (list dtype)) :=
  let ts := match dget fs f with Some ts => ts | None => [] end in
  if forallb (fun kv => hashable (snd kv)) (dt_opts t)
  then Ok (dset fs f (if existsb (dt_same t) ts then ts else ts ++ [t]))
  else Err TypeError.
(** 480-481: the fields of a node that is in no layer *)
Fixpoint add_values (h : heap) (fs : dict (list dtype)) (kvs : dict value) : res (dict (list dtype)) :=
  match kvs with
  | [] => Ok fs
  | (f, v) :: r => let* t := typeof h v None in let* fs := add_type fs f t in add_values h fs r
  end.
(** 478-483 *)
Fixpoint scan_nodes (h : heap) (fs : dict (list dtype)) (ls : list lid) (ns : list nid) : res (dict (list dtype) * list lid) :=
  match ns with
  | [] => Ok (fs, ls)
  | n :: r =>
      match n_collof h n with
      | None => let* fs := add_values h fs (n_fieldsof h n) in scan_nodes h fs ls r
      | Some l => scan_nodes h fs (if existsb (Nat.eqb l) ls then ls else ls ++ [l]) r
      end
  end.
(** 486-487 *)
Fixpoint add_fields (fs : dict (list dtype)) (kts : dict dtype) : res (dict (list dtype)) :=
  match kts with
  | [] => Ok fs
  | (f, t) :: r => let* fs := add_type fs f t in add_fields fs r
  end.
(** 485-487 *)
Fixpoint scan_layers (h : heap) (fs : dict (list dtype)) (ls : list lid) : res (dict (list dtype)) :=
  match ls with
  | [] => Ok fs
  | l :: r => let* fs := add_fields fs (l_fields (h_layer h l)) in scan_layers h fs r
  end.
(** 496-505 from the second type on *)
Fixpoint merge (cur : dtype) (ts : list dtype) : res dtype :=
  match ts with
  | [] => Ok cur
  | t :: r => if negb (cast_up_possible cur t) then Err ValueError else let* c := cast_up cur t in merge c r
  end.
(** 490-507.  The type computed by merge (resolved_type) is not stored anywhere. *)
Fixpoint output_types (fs : dict (list dtype)) : res (dict dtype) :=
  match fs with
  | [] => Ok []
  | (f, ts) :: r =>
      match type_order f ts with
      | [] => Err Unmodelled   (* sets are not empty *)
      | t :: more =>
          if 1 <? zlen ts then
            if forallb (fun u => tname_eqb (dt_name u) (dt_name t)) more
            then let* out := output_types r in Ok ((f, t) :: out)
            else let* _ := merge t more in output_types r
          else let* out := output_types r in Ok ((f, t) :: out)
      end
  end.
(** 470-511: NodeList(iterable, fieldtypes=...); None among the elements is an object that is no Node.
    The message of the assertion shows all elements. *)
Definition new_nodelist (h : heap) (elems : list (option nid)) (fieldtypes : option (dict dtype)) : res coll :=
  let ns := live elems in
  if negb (forallb (fun o => match o with Some _ => true | None => false end) elems)
  then Err (if forallb (node_repr_ok h) ns then AssertionError else AttributeError)
  else match fieldtypes with
       | Some fs => Ok (CList fs ns)
       | None =>
           let* (fs, ls) := scan_nodes h [] [] ns in
           let* fs := scan_layers h fs (layer_order ls) in
           let* out := output_types fs in
           Ok (CList out ns)
       end.
End Sets.

(** 516-526: nodelist[item] for an int, a slice (step 1) and a list of ints; other items: Model_Query.coll_field, Model_Query.query *)
Definition list_int (ns : list nid) (i : Z) : res nid := py_getitem ns i.
Definition list_slice (fs : dict dtype) (ns : list nid) (a b : option Z) : coll := CList fs (py_slice ns a b).
Definition list_indices (fs : dict dtype) (ns : list nid) (is : list Z) : res coll := let* r := mapM (py_getitem ns) is in Ok (CList fs r).

(** next(iter(self), None) and the loop of 240-247, on what the iteration yields *)
Definition iter_first (ns : list (option nid)) : option nid := match ns with o :: _ => o | [] => None end.
Fixpoint iter_last (last : option nid) (ns : list (option nid)) : option nid := match ns with [] => last | o :: r => iter_last o r end.
(** collection.first() (240-241, 435-436, 528-532, 1707-1708) *)
Definition coll_first (h : heap) (c : coll) : res (option nid) :=
  match c with
  | CLayer l => Ok (layer_first h l)
  | CSpan a _ => Ok (Some a)
  | CList _ ns => Ok (hd_error ns)
  | CQuery _ _ r => Ok (iter_first r)
  end.
(** collection.last() (243-247, 438-439, 534-538, 1710-1711) *)
Definition coll_last (h : heap) (c : coll) : res (option nid) :=
  match c with
  | CLayer l => Ok (layer_last h l)
  | CSpan _ b => Ok (Some b)
  | CList _ ns => Ok (match ns with [] => None | _ => match py_getitem ns (-1) with Ok n => Some n | Err _ => None end end)
  | CQuery _ _ r => Ok (iter_last None r)
  end.
(** 224-230: to_list *)
Definition coll_to_list (same : value -> value -> bool) (h : heap) (c : coll) : res coll :=
  let* ns := coll_iter h c in new_nodelist same (fun _ ts => ts) (fun ls => ls) h ns (Some (coll_fields h c)).
(** node in collection: 252-253 asks the field names of a node span or query; a list looks for an equal element;
    1748-1749 for layers *)
Definition coll_has (h : heap) (c : coll) (n : nid) : bool :=
  match c with
  | CLayer l => layer_contains h l n
  | CSpan _ _ => false
  | CList _ ns => existsb (Nat.eqb n) ns
  | CQuery _ _ _ => false
  end.
(** name in collection, for a string: 252-253; a list has no element equal to a string; a string has no collection (1749) *)
Definition coll_has_field (h : heap) (c : coll) (f : pystr) : res bool :=
  match c with
  | CLayer _ => Err AttributeError
  | CList _ _ => Ok false
  | _ => Ok (dmem (coll_fields h c) f)
  end.

(** 232-238: validate() of node spans, lists and queries; the message shows the value and the node *)
Fixpoint validate_types (h : heap) (n : nid) (fts : dict dtype) : res unit :=
  match fts with
  | [] => Ok tt
  | (f, t) :: r =>
      match dget (n_fieldsof h n) f with
      | None => validate_types h n r
      | Some v =>
          let* b := is_valid h t v in
          let* _ := assert_msg b (let* _ := value_repr h v in if node_repr_ok h n then Ok tt else Err AttributeError) in
          validate_types h n r
      end
  end.
Fixpoint validate_slots (h : heap) (fts : dict dtype) (ns : list (option nid)) : res unit :=
  match ns with
  | [] => Ok tt
  | Some n :: r => let* _ := validate_types h n fts in validate_slots h fts r
  | None :: r => match fts with [] => validate_slots h fts r | _ => Err TypeError end
  end.
Definition coll_validate (h : heap) (c : coll) : res unit :=
  match c with
  | CLayer _ => Err TypeError          (* NodeLayerCollection.validate needs a node *)
  | _ => let* ns := coll_iter h c in validate_slots h (coll_fields h c) ns
  end.

(** 286-290: collection[field] has the length of the collection; an index takes the node from the collection first.
    Layers and lists are indexed by int, node spans and queries are not (261-268). *)
Definition field_len (h : heap) (c : coll) : res Z := coll_len h c.
Definition field_int (h : heap) (c : coll) (f : pystr) (i : Z) : res value :=
  match c with
  | CLayer l => let* o := layer_getitem h l i in match o with Some n => dgetE (n_fieldsof h n) f | None => Err TypeError end
  | CList _ ns => let* n := list_int ns i in dgetE (n_fieldsof h n) f
  | _ => Err NotImplementedError
  end.

(** 415-433: NodeSpan.text(field) and NodeSpan.textspan(field), with text_to and span_to of Model_Text *)
Definition span_of_value (v : value) : res (pystr * span) :=
  match v with VSpan name t a b => Ok (name, mkSpan t a b) | _ => Err AttributeError end.
Definition nodespan_text (h : heap) (a b : nid) (f : pystr) : res pystr :=
  let* x := dgetE (n_fieldsof h a) f in
  let* y := dgetE (n_fieldsof h b) f in
  let* (_, p) := span_of_value x in
  let* (_, q) := span_of_value y in
  Ok (span_text_to p q).
Definition nodespan_textspan (h : heap) (a b : nid) (f : pystr) : res value :=
  let* x := dgetE (n_fieldsof h a) f in
  let* y := dgetE (n_fieldsof h b) f in
  let* (name, p) := span_of_value x in
  let* (_, q) := span_of_value y in
  let* r := span_to p q in
  Ok (VSpan name (sp_text r) (sp_start r) (sp_stop r)).
