(** Declaring layers (py/docria/model.py 1217-1248, 1293-1357, 1819-1835), a document as a mapping from names to layers
    (1770-1805, 1925-1935), and its repr (1868-1873).
    Simplification: repr(v) in the message of an assertion is taken not to raise. *)
From Verif Require Import PyBase Model_Text Model_Heap Model_Layer Model_Types Model_Msgpack Model_Document Model_Printout.
Local Open Scope Z_scope.

(** ** types as given by the caller *)
(** what is given as the type of a field: a DataType, something that can be called (which answers a DataType, answers
    something else or raises), or anything else (model.py 1232, 1240) *)
Inductive given := GType (t : dtype) | GCall (r : res (option dtype)) | GOther.
(** model.py 1232-1234, 1240-1241 *)
Definition given_type (g : given) : res dtype :=
  match g with
  | GType t => Ok t
  | GCall (Ok (Some t)) => Ok t
  | GCall (Ok None) => Err AssertionError
  | GCall (Err e) => Err e
  | GOther => Err AssertionError
  end.
(** model.py 1228-1236: add *)
Definition schema_add (fs : dict dtype) (name : pystr) (g : given) : dict dtype * res unit :=
  if dmem fs name then (fs, Err ValueError)
  else match given_type g with Ok t => (dset fs name t, Ok tt) | Err e => (fs, Err e) end.
(** model.py 1238-1248: set; the fields before the one that raises stay *)
Fixpoint schema_set (fs : dict dtype) (kw : dict given) : dict dtype * res unit :=
  match kw with
  | [] => (fs, Ok tt)
  | (k, g) :: r =>
      match given_type g with
      | Err e => (fs, Err e)
      | Ok t => if dmem fs k then (fs, Err ValueError) else schema_set (dset fs k t) r
      end
  end.

(** ** schema objects, which layers may share *)
(** model.py 1224-1226 *)
Record schema := mkSchema { sch_name : pystr; sch_fields : dict dtype }.
(** model.py 1293-1299: a layer, its schema by number, and its default values *)
Record slayer := mkSL { sl_schema : nat; sl_defaults : dict value }.
(** the objects made so far (model.py 1224-1299) *)
Record store := mkStore { st_schemas : list schema; st_layers : list slayer }.
(** the calls (model.py 1224, 1228, 1238, 1293, 1315, 1337) *)
Inductive dcall :=
| DSchema (name : pystr)
| DAdd (i : nat) (name : pystr) (g : given)
| DSet (i : nat) (kw : dict given)
| DLayer (i : nat)
| DField (l : nat) (name : pystr) (t : dtype)
| DRemove (l : nat) (name : pystr).
(** the schema object with a number, the layer with a number (model.py 1224-1299) *)
Definition schema_at (st : store) (i : nat) : schema := nth i (st_schemas st) (mkSchema [] []).
(** (model.py 1293-1299) *)
Definition slayer_at (st : store) (l : nat) : slayer := nth l (st_layers st) (mkSL 0 []).
(** layer.schema.fields (model.py 1302-1309) *)
Definition declared_by (st : store) (l : nat) : dict dtype := sch_fields (schema_at st (sl_schema (slayer_at st l))).
(** assignment to an attribute of one object (model.py 1236, 1246, 1312) *)
Fixpoint at_put {A} (l : list A) (i : nat) (x : A) : list A :=
  match l, i with [], _ => [] | _ :: r, O => x :: r | y :: r, S i' => y :: at_put r i' x end.
(** the field dictionary of a schema object is changed in place (model.py 1235, 1246, 1354) *)
Definition put_fields (st : store) (i : nat) (fs : dict dtype) : store :=
  mkStore (at_put (st_schemas st) i (mkSchema (sch_name (schema_at st i)) fs)) (st_layers st).
(** model.py 1311-1313: _update_default_values *)
Definition refresh (st : store) (l : nat) : store :=
  mkStore (st_schemas st) (at_put (st_layers st) l (mkSL (sl_schema (slayer_at st l)) (defaults_of (declared_by st l)))).
(** one call; calls on objects that do not exist are not modelled (model.py 1224-1357) *)
Definition dstep (st : store) (c : dcall) : store * res unit :=
  match c with
  | DSchema name => (mkStore (st_schemas st ++ [mkSchema name []]) (st_layers st), Ok tt)
  | DAdd i name g =>
      if (i <? length (st_schemas st))%nat then let (fs, r) := schema_add (sch_fields (schema_at st i)) name g in (put_fields st i fs, r) else (st, Err Unmodelled)
  | DSet i kw =>
      if (i <? length (st_schemas st))%nat then let (fs, r) := schema_set (sch_fields (schema_at st i)) kw in (put_fields st i fs, r) else (st, Err Unmodelled)
  | DLayer i =>
      if (i <? length (st_schemas st))%nat then (mkStore (st_schemas st) (st_layers st ++ [mkSL i (defaults_of (sch_fields (schema_at st i)))]), Ok tt) else (st, Err Unmodelled)
  | DField l name t =>
      if (l <? length (st_layers st))%nat then
        let i := sl_schema (slayer_at st l) in
        if dmem (declared_by st l) name then (st, Err TypeError)
        else (refresh (put_fields st i (dset (declared_by st l) name t)) l, Ok tt)
      else (st, Err Unmodelled)
  | DRemove l name =>
      if (l <? length (st_layers st))%nat then
        let i := sl_schema (slayer_at st l) in
        if dmem (declared_by st l) name then (refresh (put_fields st i (ddel (declared_by st l) name)) l, Ok tt) else (st, Ok tt)
      else (st, Err Unmodelled)
  end.
(** calls one after the other, whatever they raise (model.py 1224-1357) *)
Fixpoint drun (st : store) (cs : list dcall) : store := match cs with [] => st | c :: r => drun (fst (dstep st c)) r end.

(** ** a document as a mapping *)
(** model.py 1819-1835: add_layer(name, **fields); a layer of that name is replaced *)
Definition declare_layer (h : heap) (d : doc) (name : pystr) (kw : dict given) : heap * doc * res lid :=
  match schema_set [] kw with
  | (fs, Ok _) => let '(h1, d1, l) := add_layer h d name fs in (h1, d1, Ok l)
  | (_, Err e) => (h, d, Err e)
  end.
(** model.py 1925-1926: d[name] *)
Definition doc_getitem (d : doc) (name : pystr) : res lid := dgetE (d_layers d) name.
(** model.py 1934-1935: name in d *)
Definition doc_contains (d : doc) (name : pystr) : bool := dmem (d_layers d) name.
(** model.py 1931-1932: del d[name] *)
Definition doc_delitem (h : heap) (d : doc) (name : pystr) : res doc := let* (d', _) := remove_layer h d name false in Ok d'.
(** model.py 1790-1792: d.maintext *)
Definition get_maintext (d : doc) : res pystr := dgetE (d_texts d) (s "main").
(** what is assigned to maintext: a string, a Text with its name, anything else (model.py 1794-1805) *)
Inductive main_given := MGStr (x : pystr) | MGText (name x : pystr) | MGOther.
(** model.py 1794-1805: d.maintext = ... *)
Definition assign_maintext (d : doc) (m : main_given) : res doc :=
  if dmem (d_texts d) (s "main") then Err AssertionError
  else match m with
       | MGStr x => Ok (add_text d (s "main") x)
       | MGText name x => if str_eqb name (s "main") then Ok (add_text d (s "main") x) else Err AssertionError
       | MGOther => Err ValueError
       end.

(** ** repr *)
(** str() of a property (model.py 1872); other values are not modelled *)
Definition prop_str (o : mobj) : res pystr :=
  match o with
  | MStr x => Ok x
  | MInt i => if 4300 <? zlen (str_int (Z.abs i)) then Err ValueError else Ok (str_int i)
  | MBool b => Ok (if b then s "True" else s "False")
  | MNil => Ok (s "None")
  | _ => Err Unmodelled
  end.
(** ", ".join(...) (model.py 1872) *)
Fixpoint comma_join (l : list pystr) : pystr := match l with [] => [] | [x] => x | x :: r => x ++ s ", " ++ comma_join r end.
(** model.py 1868-1873: repr(document); properties are a dict *)
Definition doc_repr (d : doc) : res pystr :=
  match d_props d with
  | MMap ps =>
      let* l := mapM (fun kv => let* v := prop_str (snd kv) in Ok (fst kv ++ s "=" ++ v)) ps in
      Ok (s "Document(" ++ str_int (zlen (d_layers d)) ++ s " layers, " ++ str_int (zlen (d_texts d)) ++ s " texts" ++
          (match ps with [] => [] | _ => s ", " ++ comma_join l end) ++ s ")")
  | _ => Err Unmodelled
  end.
