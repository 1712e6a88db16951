(** Editing a document of the Java port: java/core/src/main/java/se/lth/cs/docria/Document.java 65-238,
    Layer.java 105-127, Schema.java 56-92, Node.java 56-116, 209-301 and the types of values.
    A document is a value as in Model_JCodec.v: a reference is the name of a layer and the position of a node
    (C93), which is what is written for it, also when the layer of that name has been replaced.
    Exceptions as in Model_JCodec.v.  An operation that fails half way leaves what it has done: the document
    is returned with the result.
    Simplifications: maps are lists in the order of insertion (a TreeMap iterates in the order of keys); an
    array of nodes of several layers, which the constructor with a List does not refuse, is not represented. *)
From Verif Require Import PyBase Model_Text Model_Heap Model_Layer Model_Types Model_JUnits Model_JCodec.
Local Open Scope Z_scope.

(** ** types of values *)
(** DataTypes.java 18-45: a type with one argument *)
Definition ty1 (t : tname) (key x : pystr) : jdtype := mkJT (JT t) [(key, JStr x)].
(** the methods type(): DataTypes.java 20-45; Node.java 162-165, NodeSpan.java 67-70, Span.java 43-46,
    values/NodeArrayValue.java 45-48: nodes[0] of an empty array; the placeholders are not seen by users *)
Definition jv_type (v : jv) : res jdtype :=
  match v with
  | JInt _ => Ok (mkJT (JT TI32) [])
  | JLong _ => Ok (mkJT (JT TI64) [])
  | JDouble _ => Ok (mkJT (JT TF64) [])
  | JBool _ => Ok (mkJT (JT TBool) [])
  | JStr _ => Ok (mkJT (JT TString) [])
  | JBin _ => Ok (mkJT (JT TBinary) [])
  | JExt y _ => Ok (ty1 TExt (s "type") y)
  | JSpan c _ _ => Ok (ty1 TSpan (s "context") c)
  | JNode x _ => Ok (ty1 TNodeRef (s "layer") x)
  | JNodes x [] => Err IndexError
  | JNodes x (_ :: _) => Ok (ty1 TNodeRefMany (s "layer") x)
  | JNodeSpan x _ _ => Ok (ty1 TNodeRefSpan (s "layer") x)
  | JHold _ | JHoldSpan _ _ => Err Unmodelled
  end.
(** DataTypeName.java 20-32: names are compared as objects *)
Definition jname_eqb (a b : jname) : bool :=
  match a, b with
  | JTNil, JTNil => true
  | JTMissing, JTMissing => true
  | JT t, JT u =>
      match t, u with
      | TI32, TI32 | TI64, TI64 | TF64, TF64 | TBool, TBool | TString, TString | TBinary, TBinary | TSpan, TSpan | TExt, TExt
      | TNodeRef, TNodeRef | TNodeRefMany, TNodeRefMany | TNodeRefSpan, TNodeRefSpan => true
      | _, _ => false
      end
  | _, _ => false
  end.
(** DataType.java 99-108 with values/StringValue.java 46-54; only strings occur among the arguments of the type of a value (the left one) *)
Definition jt_equals (t u : jdtype) : bool :=
  jname_eqb (ty_name t) (ty_name u) && (zlen (ty_args t) =? zlen (ty_args u)) &&
  forallb (fun kv => match snd kv, dget (ty_args u) (fst kv) with JStr x, Some (JStr y) => str_eqb x y | _, _ => false end) (ty_args t).

(** ** nodes *)
(** Node.java 56-73: Builder.put; the values put so far are in the order of the calls *)
Definition builder_put (fs : dict jdtype) (vals : dict jv) (f : pystr) (v : jv) : res (dict jv) :=
  match dget fs f with
  | Some t =>
      let* u := jv_type v in
      if negb (jt_equals u t) then Err ValueError
      else if dmem vals f then Err ValueError
      else Ok (vals ++ [(f, v)])
  | None => Err ValueError
  end.
(** Node.java 56-116: several calls of put, then build *)
Fixpoint builder_puts (fs : dict jdtype) (vals : dict jv) (l : list (pystr * jv)) : res (dict jv) :=
  match l with
  | [] => Ok vals
  | (f, v) :: r => let* vals' := builder_put fs vals f v in builder_puts fs vals' r
  end.
(** Node.java 76-81, 111-116: Node.builder(layer).put(...)...build() *)
Definition node_build (fs : dict jdtype) (l : list (pystr * jv)) : res (dict jv) := builder_puts fs [] l.
(** Node.java 209-212: put, which checks nothing *)
Definition node_put (row : dict jv) (f : pystr) (v : jv) : dict jv := dset row f v.
(** Node.java 295-301: get with a default *)
Definition node_get (row : dict jv) (f : pystr) (d : jv) : jv := match dget row f with Some v => v | None => d end.
(** Node.java 267-269: remove *)
Definition node_remove (row : dict jv) (f : pystr) : dict jv := ddel row f.

(** ** documents *)
(** Document.java 24-47 *)
Definition jd_empty : jdoc := mkJDoc [] [] [].
(** Document.java 24-39: the maps of a document, one replaced *)
Definition with_layers (j : jdoc) (ls : dict (dict jdtype * list (dict jv))) : jdoc := mkJDoc (jd_props j) (jd_texts j) ls.
(** Document.java 245-247: props().put *)
Definition jd_set_prop (j : jdoc) (k : pystr) (v : jv) : jdoc := mkJDoc (dset (jd_props j) k v) (jd_texts j) (jd_layers j).
(** Document.java 74-80: add(Text) *)
Definition jd_add_text (j : jdoc) (c : pystr) (u : list N) : jdoc * res unit :=
  if dmem (jd_texts j) c then (j, Err ValueError) else (mkJDoc (jd_props j) (dset (jd_texts j) c u) (jd_layers j), Ok tt).
(** Schema.java 85-92: the fields of a LayerBuilder *)
Fixpoint schema_build (acc : dict jdtype) (l : list (pystr * jdtype)) : res (dict jdtype) :=
  match l with
  | [] => Ok acc
  | (f, t) :: r => if dmem acc f then Err ValueError else schema_build (acc ++ [(f, t)]) r
  end.
(** Document.java 89-94: add(Schema.Layer); a layer of that name is replaced *)
Definition jd_add_layer (j : jdoc) (x : pystr) (l : list (pystr * jdtype)) : jdoc * res unit :=
  match schema_build [] l with
  | Err e => (j, Err e)
  | Ok fs => (with_layers j (dset (jd_layers j) x (fs, [])), Ok tt)
  end.
(** Layer.java 105-111 with Schema.java 56-61: addField of document.layer(x), which may be null *)
Definition jd_add_field (j : jdoc) (x f : pystr) (t : jdtype) : jdoc * res unit :=
  match dget (jd_layers j) x with
  | None => (j, Err AttributeError)
  | Some (fs, rows) => if dmem fs f then (j, Err ValueError) else (with_layers j (dset (jd_layers j) x (dset fs f t, rows)), Ok tt)
  end.
(** Layer.java 113-127: what removeField makes of a layer *)
Definition drop_field (f : pystr) (l : dict jdtype * list (dict jv)) : dict jdtype * list (dict jv) :=
  if dmem (fst l) f then (ddel (fst l) f, map (fun row => node_remove row f) (snd l)) else l.
(** Layer.java 113-127: removeField of document.layer(x) *)
Definition jd_remove_field (j : jdoc) (x f : pystr) : jdoc * res unit :=
  match dget (jd_layers j) x with
  | None => (j, Err AttributeError)
  | Some l => (with_layers j (dset (jd_layers j) x (drop_field f l)), Ok tt)
  end.
(** Node.java 76-81, 111-116 and Layer.java 150-158: a node is built for document.layer(x) and added *)
Definition jd_add_node (j : jdoc) (x : pystr) (l : list (pystr * jv)) : jdoc * res unit :=
  match dget (jd_layers j) x with
  | None => (j, Err AttributeError)
  | Some (fs, rows) => match node_build fs l with
                       | Err e => (j, Err e)
                       | Ok row => (with_layers j (dset (jd_layers j) x (fs, rows ++ [row])), Ok tt)
                       end
  end.

(** ** removing a text or a layer *)
(** dt.name() == ... && dt.args().get(key).stringValue().equals(x), Document.java 122, 152, 191, 221-224 *)
Definition t_refers (names : list tname) (key x : pystr) (t : jdtype) : res bool :=
  if existsb (fun n => jname_eqb (ty_name t) (JT n)) names
  then let* y := arg_name t key in Ok (str_eqb y x)
  else Ok false.
(** anyMatch, Document.java 118-122, 187-191 *)
Fixpoint any_refers (names : list tname) (key x : pystr) (fs : dict jdtype) : res bool :=
  match fs with
  | [] => Ok false
  | (_, t) :: r => let* b := t_refers names key x t in if (b : bool) then Ok true else any_refers names key x r
  end.
(** filter on the entries and map on the keys, Document.java 131-139, 149-155, 200-209, 219-227 *)
Fixpoint ref_fields (names : list tname) (key x : pystr) (fs : dict jdtype) : res (list pystr) :=
  match fs with
  | [] => Ok []
  | (f, t) :: r => let* b := t_refers names key x t in
                   let* q := ref_fields names key x r in
                   Ok (if (b : bool) then f :: q else q)
  end.
(** the layers that have such a field, Document.java 116-124, 185-193 *)
Fixpoint ref_layers (names : list tname) (key x : pystr) (ls : dict (dict jdtype * list (dict jv))) : res (list (pystr * (dict jdtype * list (dict jv)))) :=
  match ls with
  | [] => Ok []
  | kl :: r => let* b := any_refers names key x (fst (snd kl)) in
               let* q := ref_layers names key x r in
               Ok (if (b : bool) then kl :: q else q)
  end.
(** fields.forEach(layer::removeField), Document.java 157, 229 *)
Definition drop_fields (fields : list pystr) (l : dict jdtype * list (dict jv)) : dict jdtype * list (dict jv) :=
  fold_left (fun l f => drop_field f l) fields l.
(** Document.java 147-160, 217-232 *)
Fixpoint cascade (names : list tname) (key x : pystr) (ls : list (pystr * (dict jdtype * list (dict jv)))) (j : jdoc) : jdoc * res unit :=
  match ls with
  | [] => (j, Ok tt)
  | (k, l) :: r =>
      match ref_fields names key x (fst l) with
      | Err e => (j, Err e)
      | Ok fields => cascade names key x r (with_layers j (dset (jd_layers j) k (drop_fields fields l)))
      end
  end.
(** Document.java 111-163 and 180-237: [names] and [key] are the types and the argument that decide which fields are listed and removed *)
Definition jd_remove (names : list tname) (key : pystr) (j : jdoc) (x : pystr) (fieldcascade : bool) : jdoc * res unit :=
  match ref_layers [TSpan] (s "context") x (jd_layers j) with
  | Err e => (j, Err e)
  | Ok ls =>
      if fieldcascade then cascade names key x ls j
      else match ls with
           | [] => (j, Ok tt)
           | _ => match mapM (fun kl => ref_fields names key x (fst (snd kl))) ls with
                  | Err e => (j, Err e)
                  | Ok _ => (j, Err DataError)
                  end
           end
  end.
(** Document.java 111-163: remove(Text, boolean) *)
Definition jd_remove_text (j : jdoc) (c : pystr) (fieldcascade : bool) : jdoc * res unit := jd_remove [TSpan] (s "context") j c fieldcascade.
(** Document.java 180-237: remove(Layer, boolean) *)
Definition jd_remove_layer (j : jdoc) (x : pystr) (fieldcascade : bool) : jdoc * res unit := jd_remove [TNodeRef; TNodeRefMany] (s "layer") j x fieldcascade.

(** ** histories *)
(** calls of Document.java 65-238, Layer.java 105-127, Node.java 56-116; texts are sequences of code points *)
Inductive edit :=
| SetProp (k : pystr) (v : jv)
| AddText (c x : pystr)
| AddLayer (x : pystr) (l : list (pystr * jdtype))
| AddField (x f : pystr) (t : jdtype)
| RemoveField (x f : pystr)
| AddNode (x : pystr) (l : list (pystr * jv))
| RemoveText (c : pystr) (fieldcascade : bool)
| RemoveLayer (x : pystr) (fieldcascade : bool).
(** Document.java 65-238, Layer.java 105-127, Node.java 56-116 *)
Definition run_edit (e : edit) (j : jdoc) : jdoc * res unit :=
  match e with
  | SetProp k v => (jd_set_prop j k v, Ok tt)
  | AddText c x => jd_add_text j c (utf16 x)
  | AddLayer x l => jd_add_layer j x l
  | AddField x f t => jd_add_field j x f t
  | RemoveField x f => jd_remove_field j x f
  | AddNode x l => jd_add_node j x l
  | RemoveText c b => jd_remove_text j c b
  | RemoveLayer x b => jd_remove_layer j x b
  end.
