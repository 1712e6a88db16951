(** GroupBySpan of the Java port (java/core algorithms/GroupBySpan.java 9-350).  Nodes and layers live in the same heap as Python's.  A Java
    String is its list of UTF-16 units; int is Z (offsets lie in 0..2^31-1). *)
From Verif Require Import PyBase Model_Heap Model_Layer Model_Text Model_Types Model_Document Model_Query Model_Algorithm.
Local Open Scope Z_scope.

(** Node.equals (java/core Node.java 168-175): same id and same layer.  Layer.equals (Layer.java 55-64) compares document and schema; two
    layers of a document differ in name, so it is identity here. *)
Definition same_node (h : heap) (a b : nid) : bool :=
  (n_idof h a =? n_idof h b) && match n_collof h a, n_collof h b with Some x, Some y => Nat.eqb x y | _, _ => false end.
(** Node.hashCode (Node.java 177-182) on a node without layer: NullPointerException *)
Definition hashed (h : heap) (n : nid) : res unit := match n_collof h n with Some _ => Ok tt | None => Err AttributeError end.
(** String.compareTo <= 0 (GroupBySpan.java 87) *)
Definition jstr_leb (a b : pystr) : bool := match str_cmp a b with Gt => false | _ => true end.
(** TreeMap.put (GroupBySpan.java 97-98, 112-116) *)
Fixpoint tm_put {V} (k : pystr) (v : V) (m : dict V) : dict V :=
  match m with
  | [] => [(k, v)]
  | (k', v') :: r => match str_cmp k k' with Lt => (k, v) :: m | Eq => (k', v) :: r | Gt => (k', v') :: tm_put k v r end
  end.

(** ** Builder (GroupBySpan.java 93-180) *)
Record gbuilder := mkBuilder { bg_groups : list nid; bg_field : pystr; bg_layers : dict (list nid); bg_fields : dict pystr;
                               bg_cover : bool; bg_empty : bool }.
(** 93-106 *)
Definition new_builder (gs : list nid) (f : pystr) : gbuilder := mkBuilder gs f [] [] false false.
(** 29-35: builder(List, spanfield); the argument is not used *)
Definition builder_list (gs : list nid) (f : pystr) : gbuilder := new_builder gs (s "text").
(** 49-59, 142-150: the field must be a span field of the layer (IllegalArgumentException) *)
Definition check_span_field (h : heap) (l : lid) (f : pystr) : res unit :=
  match dget (l_fields (h_layer h l)) f with
  | None => Err ValueError
  | Some t => if tname_eqb (dt_name t) TSpan then Ok tt else Err ValueError
  end.
(** Layer.iterator (Layer.java 84-87, 192-195) leaves out the gaps *)
Definition present (l : list (option nid)) : list nid := flat_map (fun o => match o with Some n => [n] | None => [] end) l.
(** 49-60 *)
Definition builder_layer (h : heap) (l : lid) (f : pystr) : res gbuilder :=
  let* _ := check_span_field h l f in Ok (new_builder (present (layer_iter h l)) f).
(** 112-116 *)
Definition add_group (b : gbuilder) (name : pystr) (ns : list nid) (f : pystr) : gbuilder :=
  mkBuilder (bg_groups b) (bg_field b) (tm_put name ns (bg_layers b)) (tm_put name f (bg_fields b)) (bg_cover b) (bg_empty b).
(** 142-152 *)
Definition add_group_layer (h : heap) (b : gbuilder) (name : pystr) (l : lid) (f : pystr) : res gbuilder :=
  let* _ := check_span_field h l f in Ok (add_group b name (present (layer_iter h l)) f).
(** 155-163 *)
Definition set_resolution (b : gbuilder) (cover : bool) : gbuilder := mkBuilder (bg_groups b) (bg_field b) (bg_layers b) (bg_fields b) cover (bg_empty b).
Definition set_include_empty (b : gbuilder) (e : bool) : gbuilder := mkBuilder (bg_groups b) (bg_field b) (bg_layers b) (bg_fields b) (bg_cover b) e.

(** ** Points (62-91, 165-207) *)
(** GroupBySpan.java 168, 191: get(f).spanValue(): throws for null and for other values *)
Definition jspan (h : heap) (n : nid) (f : pystr) : res (Z * Z) :=
  match dget (n_fieldsof h n) f with Some (VSpan _ _ a b) => Ok (a, b) | _ => Err NotImplementedError end.
(** 62-74: (offset, type), (layer, node) *)
Definition gpoint := ((Z * Z) * (option pystr * nid))%type.
(** 76-91 compareTo(o) <= 0 *)
Definition gpoint_leb (a b : gpoint) : bool :=
  if fst (fst a) =? fst (fst b) then
    if snd (fst a) =? snd (fst b) then
      match fst (snd a), fst (snd b) with
      | None, _ => true
      | Some _, None => false
      | Some x, Some y => jstr_leb x y
      end
    else snd (fst a) <? snd (fst b)
  else fst (fst a) <? fst (fst b).
(** 165-183, 190-204: start and stop types for spans with and without length *)
Fixpoint jpoints (h : heap) (f : pystr) (start stop estart estop : Z) (layer : option pystr) (ns : list nid) : res (list gpoint) :=
  match ns with
  | [] => Ok []
  | n :: r =>
      if dmem (n_fieldsof h n) f then
        let* p := jspan h n f in
        let* q := jpoints h f start stop estart estop layer r in
        Ok ((if negb (fst p =? snd p) then [((fst p, start), (layer, n)); ((snd p, stop), (layer, n))]
             else [((fst p, estart), (layer, n)); ((snd p, estop), (layer, n))]) ++ q)
      else jpoints h f start stop estart estop layer r
  end.
(** 165-183 *)
Definition group_points (h : heap) (b : gbuilder) : res (list gpoint) := jpoints h (bg_field b) 0 (-2) 3 5 None (bg_groups b).
(** 185-207: TreeMap.forEach goes through the names in order *)
Fixpoint layer_points (h : heap) (fields : dict pystr) (layers : dict (list nid)) : res (list gpoint) :=
  match layers with
  | [] => Ok []
  | (name, ns) :: r =>
      let* f := dgetE fields name in
      let* a := jpoints h f 1 (-1) 4 6 (Some name) ns in
      let* c := layer_points h fields r in Ok (a ++ c)
  end.

(** ** The sweep (242-323) *)
Section Sweep.
(** HashSets may be iterated in any order *)
Variables (order_groups : nat -> list nid -> list nid) (order_layer : nat -> pystr -> list nid -> list nid).
Variables (h : heap) (b : gbuilder).
(** 243-246: open_nodes, open_groups, node2group (last put first), group objects, groups *)
Record jstate := mkJS { js_nodes : dict (list nid); js_opens : list nid; js_groups : list (nid * nat);
                        js_objs : nat -> dict (list nid); js_list : list (nid * nat) }.
(** HashMap.get (GroupBySpan.java 246, 298, 304) *)
Fixpoint node_get (m : list (nid * nat)) (n : nid) : option nat :=
  match m with [] => None | (k, v) :: r => if same_node h n k then Some v else node_get r n end.
(** 271, 297 *)
Definition covers (p q : Z * Z) : bool := (fst p <=? fst q) && (snd q <=? snd p).
(** 269-274 *)
Fixpoint pick (gp : Z * Z) (f : pystr) (ns : list nid) : res (list nid) :=
  match ns with
  | [] => Ok []
  | n :: r => let* p := jspan h n f in let* q := pick gp f r in Ok (if covers gp p then n :: q else q)
  end.
(** 255-286: the content of a new group *)
Fixpoint new_content (k : nat) (n : nid) (nodes : dict (list nid)) : res (dict (list nid)) :=
  match nodes with
  | [] => Ok []
  | (layer, l) :: r =>
      let* xs := (if bg_cover b then let* gp := jspan h n (bg_field b) in let* f := dgetE (bg_fields b) layer in pick gp f (order_layer k layer l)
                  else Ok (order_layer k layer l)) in
      let* q := new_content k n r in Ok ((layer, xs) :: q)
  end.
(** 292-306: a node is added to the open groups *)
Fixpoint to_groups (groups : list (nid * nat)) (layer : pystr) (n : nid) (gs : list nid) (objs : nat -> dict (list nid)) : res (nat -> dict (list nid)) :=
  match gs with
  | [] => Ok objs
  | g :: r =>
      let* take := (if bg_cover b then let* gp := jspan h g (bg_field b) in let* f := dgetE (bg_fields b) layer in let* p := jspan h n f in Ok (covers gp p)
                    else Ok true) in
      if take then
        match node_get groups g with
        | None => Err AttributeError
        | Some i => let* l := dgetE (objs i) layer in to_groups groups layer n r (upd objs i (dset (objs i) layer (l ++ [n])))
        end
      else to_groups groups layer n r objs
  end.
(** 250-319 *)
Definition js_step (k : nat) (st : jstate) (e : gpoint) : res jstate :=
  let '((_, type), (layer, n)) := e in
  let* _ := hashed h n in
  if (type =? 0) || (type =? 3) then
    let i := length (js_list st) in
    let* o := new_content k n (js_nodes st) in
    Ok (mkJS (js_nodes st) (set_add (same_node h) n (js_opens st)) ((n, i) :: js_groups st) (upd (js_objs st) i o) (js_list st ++ [(n, i)]))
  else if (type =? 1) || (type =? 4) then
    match layer with
    | None => Err AttributeError
    | Some name =>
        let* l := dgetE (js_nodes st) name in
        let* objs := to_groups (js_groups st) name n (order_groups k (js_opens st)) (js_objs st) in
        Ok (mkJS (dset (js_nodes st) name (set_add (same_node h) n l)) (js_opens st) (js_groups st) objs (js_list st))
    end
  else if (type =? -2) || (type =? 5) then
    Ok (mkJS (js_nodes st) (filter (fun y => negb (same_node h n y)) (js_opens st)) (js_groups st) (js_objs st) (js_list st))
  else if (type =? -1) || (type =? 6) then
    match layer with
    | None => Err AttributeError
    | Some name =>
        let* l := dgetE (js_nodes st) name in
        Ok (mkJS (dset (js_nodes st) name (filter (fun y => negb (same_node h n y)) l)) (js_opens st) (js_groups st) (js_objs st) (js_list st))
    end
  else Err RuntimeError.
Fixpoint js_loop (k : nat) (st : jstate) (es : list gpoint) : res jstate :=
  match es with [] => Ok st | e :: r => let* st1 := js_step k st e in js_loop (S k) st1 r end.
(** 23-25 *)
Definition group_void (o : dict (list nid)) : bool := forallb (fun kv => match snd kv with [] => true | _ => false end) o.
(** 325-344 *)
Definition java_solve : res (list (nid * dict (list nid))) :=
  let* a := group_points h b in
  let* c := layer_points h (bg_fields b) (bg_layers b) in
  let* st := js_loop 0 (mkJS (map (fun kv => (fst kv, [])) (bg_layers b)) [] [] (fun _ => []) []) (ssort (fun e => e) gpoint_leb (a ++ c)) in
  let gl := map (fun gi => (fst gi, js_objs st (snd gi))) (js_list st) in
  Ok (if bg_empty b then gl else filter (fun g => negb (group_void (snd g))) gl).
End Sweep.
