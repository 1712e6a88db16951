(** MsgpackCodec.encode of the Java port (java/core/src/main/java/se/lth/cs/docria/MsgpackCodec.java 33-415,
    with Document.validateSchema and Document.compile, Document.java 290-356).
    A document is a value as in Model_JCodec.v; its lists are in the order in which the maps of the document
    iterate (a TreeMap: sorted; the properties are a HashMap: any order).  The nodes of a layer are numbered by
    position (Layer.compact, C93).  The offset objects of a span are those that its text hands out for its
    positions (C95).  packString of names and string values writes code points; an unpaired surrogate, for
    which the library writes a question mark, is an error here (texts are cut in units, C97).
    Simplifications: a value NullValue stored in a node is not modelled; an extension value among the
    properties is not modelled. *)
From Verif Require Import PyBase Model_Text Model_Heap Model_Layer Model_Types Model_Msgpack Model_Codec Model_JUnits Model_JLayer Model_JStream Model_JText Model_JCodec.
Local Open Scope Z_scope.

(** ** the schema is checked (Document.java 290-324) *)
(** Document.java 297-321: one field *)
Definition jvalid_field (j : jdoc) (t : jdtype) : res unit :=
  match ty_name t with
  | JT TSpan => let* c := arg_name t (s "context") in if dmem (jd_texts j) c then Ok tt else Err DataError
  | JT TNodeRef | JT TNodeRefMany => let* x := arg_name t (s "layer") in if dmem (jd_layers j) x then Ok tt else Err DataError
  | _ => Ok tt
  end.
(** Document.java 294-324: validateSchema *)
Definition jvalidate (j : jdoc) : res unit :=
  let* _ := mapM (fun kl => mapM (fun ft => jvalid_field j (snd ft)) (fst (snd kl))) (jd_layers j) in Ok tt.

(** ** the texts are cut (Document.java 329-356) *)
(** Document.java 337-340 *)
Definition is_span_field (t : jdtype) : bool := match ty_name t with JT TSpan => true | _ => false end.
(** Document.java 343-348: the spans of one node; spanValue() of another value is unsupported (Value.java) *)
Fixpoint row_spans (fs : dict jdtype) (row : dict jv) : res (list (pystr * (Z * Z))) :=
  match fs with
  | [] => Ok []
  | (f, t) :: r =>
      let* here := if is_span_field t
                   then match dget row f with
                        | None => Ok []
                        | Some (JSpan c a b) => Ok [(c, (a, b))]
                        | Some _ => Err NotImplementedError
                        end
                   else Ok [] in
      let* q := row_spans r row in Ok (here ++ q)
  end.
(** Document.java 333-350: the spans of all nodes of all layers *)
Definition all_spans (j : jdoc) : res (list (pystr * (Z * Z))) :=
  let* l := mapM (fun kl => let* rows := mapM (row_spans (fst (snd kl))) (snd (snd kl)) in Ok (List.concat rows)) (jd_layers j) in
  Ok (List.concat l).
(** the offset objects of these spans in a text (Text.java 145-157, without the check) *)
Fixpoint hand_out (t : jtext) (l : list (Z * Z)) : jtext * list jspan :=
  match l with
  | [] => (t, [])
  | (a, b) :: r =>
      let (t1, x) := jt_place t a in
      let (t2, y) := jt_place t1 b in
      let (t3, q) := hand_out t2 r in (t3, (x, y) :: q)
  end.
(** the spans of the text called c (Document.java 346-348) *)
Definition spans_in (c : pystr) (l : list (pystr * (Z * Z))) : list (Z * Z) := map snd (filter (fun x => str_eqb (fst x) c) l).
(** Document.java 331, 346-353: one text, after compile, and its parts *)
Definition jcut (c : pystr) (u : list N) (l : list (Z * Z)) : res (jtext * list (list N)) :=
  let (t, q) := hand_out (jt_new c u) l in
  let (t', r) := jt_prepare t q in
  let* parts := r in Ok (t', parts).
(** Document.java 329-356: compile *)
Definition jcompile (j : jdoc) : res (dict (jtext * list (list N))) :=
  let* l := all_spans j in
  mapM (fun kt => let* x := jcut (fst kt) (snd kt) (spans_in (fst kt) l) in Ok (fst kt, x)) (jd_texts j).

(** ** writing *)
(** packString of units (MsgpackCodec.java 322-327) *)
Definition pack_units (u : list N) : res (list N) :=
  let* b := java_utf8 u in let* hd := str_head (zlen b) in Ok (hd ++ b).
(** packArrayHeader (MsgpackCodec.java 160, 172, 276, 325, 352, 365); the argument is an int *)
Definition pack_arr (n : Z) : res (list N) := if 2147483647 <? n then Err ValueError else arr_head n.
(** packMapHeader (MsgpackCodec.java 254, 302, 320) *)
Definition pack_map (n : Z) : res (list N) := if 2147483647 <? n then Err ValueError else map_head n.
(** one after the other (MsgpackCodec.java 385-415) *)
Definition then_ (a b : res (list N)) : res (list N) := let* x := a in let* y := b in Ok (x ++ y).
(** the number of a position in a compiled text (Span.startOffset().id, MsgpackCodec.java 113-114, 359-360); spans of texts that are not
    part of the document, or that were not counted, are not modelled *)
Definition jnumber (texts : dict (jtext * list (list N))) (c : pystr) (p : Z) : res Z :=
  match dget texts c with
  | Some (t, _) => match zget (jt_map t) p with Some o => Ok (o_num (jt_obj t o)) | None => Err Unmodelled end
  | None => Err Unmodelled
  end.
(** MsgpackCodec.java 33-179: ValueWriter; [schemaless] for properties *)
Definition jwrite (schemaless : bool) (texts : dict (jtext * list (list N))) (v : jv) : res (list N) :=
  match v with
  | JBool b => pack (MBool b)
  | JInt i | JLong i => pack (MInt i)
  | JDouble b => pack (MFloat b)
  | JStr x => pack (MStr x)
  | JBin x => pack (MBin x)
  | JExt _ x => if schemaless then Err Unmodelled else pack (MBin x)
  | JSpan c a b => let* i := jnumber texts c a in let* k := jnumber texts c b in then_ (pack (MInt i)) (pack (MInt k))
  | JNode _ i => pack (MInt (Z.of_nat i))
  | JNodes _ is => then_ (pack_arr (zlen is)) (concatM (fun i => pack (MInt (Z.of_nat i))) is)
  | JNodeSpan _ a b => then_ (pack_arr 2) (then_ (pack (MInt (Z.of_nat a))) (pack (MInt (Z.of_nat b - Z.of_nat a))))
  | JHold _ | JHoldSpan _ _ => Err NotImplementedError
  end.
(** a buffer of its own, its length first (MsgpackCodec.java 267-268, 331-332, 378-379); no array is longer than an int *)
Definition sized (body : res (list N)) : res (list N) :=
  let* b := body in
  if 2147483647 <? zlen b then Err ValueError else
  let* n := pack (MInt (zlen b)) in Ok (n ++ b).
(** MsgpackCodec.java 250-269: encodeProperties *)
Definition jwrite_props (texts : dict (jtext * list (list N))) (ps : dict jv) : res (list N) :=
  sized (then_ (pack_map (zlen ps)) (concatM (fun kv => then_ (pack (MStr (fst kv))) (jwrite true texts (snd kv))) ps)).
(** MsgpackCodec.java 181-248: SchemaArgWriter *)
Definition jwrite_arg (v : jv) : res (list N) :=
  match v with
  | JBool b => pack (MBool b)
  | JInt i | JLong i => pack (MInt i)
  | JDouble b => pack (MFloat b)
  | JStr x => pack (MStr x)
  | JBin x => pack (MBin x)
  | _ => Err NotImplementedError
  end.
(** DataTypeName.java 20-41: getName *)
Definition jname_string (t : jname) : res pystr :=
  match t with JTNil => Ok (s "nil") | JT t => type_string t | JTMissing => Err AttributeError end.
(** MsgpackCodec.java 289-309: one field *)
Definition jwrite_field (ft : pystr * jdtype) : res (list N) :=
  let* x := jname_string (ty_name (snd ft)) in
  match ty_args (snd ft) with
  | [] => then_ (pack (MStr (fst ft))) (then_ (pack (MBool false)) (pack (MStr x)))
  | args => then_ (pack (MStr (fst ft))) (then_ (pack (MBool true)) (then_ (pack (MStr x))
              (then_ (pack_map (zlen args)) (concatM (fun kv => then_ (pack (MStr (fst kv))) (jwrite_arg (snd kv))) args))))
  end.
(** MsgpackCodec.java 271-314: encodeSchema *)
Definition jwrite_schema (ls : dict (dict jdtype * list (dict jv))) : res (list N) :=
  then_ (then_ (pack_arr (zlen ls)) (concatM (fun kl => pack (MStr (fst kl))) ls))
        (concatM (fun kl => then_ (pack (MInt (zlen (fst (snd kl))))) (concatM jwrite_field (fst (snd kl)))) ls).
(** MsgpackCodec.java 316-336: encodeTexts *)
Definition jwrite_texts (texts : dict (jtext * list (list N))) : res (list N) :=
  sized (then_ (pack_map (zlen texts))
               (concatM (fun kt => then_ (pack (MStr (fst kt))) (then_ (pack_arr (zlen (snd (snd kt)))) (concatM pack_units (snd (snd kt))))) texts)).
(** MsgpackCodec.java 353-362: a value of a span field *)
Definition jwrite_span (texts : dict (jtext * list (list N))) (o : option jv) : res (list N) :=
  match o with
  | None => then_ (pack MNil) (pack MNil)
  | Some (JSpan c a b) => let* i := jnumber texts c a in let* k := jnumber texts c b in then_ (pack (MInt i)) (pack (MInt k))
  | Some _ => Err NotImplementedError
  end.
(** MsgpackCodec.java 347-376: one column; node.get(field) of an absent field is NullValue (Node.java) *)
Definition jwrite_column (texts : dict (jtext * list (list N))) (rows : list (dict jv)) (ft : pystr * jdtype) : res (list N) :=
  then_ (pack (MBool false))
        (if is_span_field (snd ft)
         then then_ (pack_arr (2 * zlen rows)) (concatM (fun row => jwrite_span texts (dget row (fst ft))) rows)
         else then_ (pack_arr (zlen rows))
                    (concatM (fun row => match dget row (fst ft) with None => pack MNil | Some v => jwrite false texts v end) rows)).
(** MsgpackCodec.java 338-383: encodeLayerData *)
Definition jwrite_layer (texts : dict (jtext * list (list N))) (kl : pystr * (dict jdtype * list (dict jv))) : res (list N) :=
  sized (then_ (pack (MInt (zlen (snd (snd kl))))) (concatM (jwrite_column texts (snd (snd kl))) (fst (snd kl)))).
(** MsgpackCodec.java 385-415: encode; all bytes are put in one buffer *)
Definition java_encode (j : jdoc) : res (list N) :=
  let* _ := jvalidate j in
  let* texts := jcompile j in
  let* b := then_ (Ok magic) (then_ (jwrite_props texts (jd_props j)) (then_ (jwrite_schema (jd_layers j))
    (then_ (jwrite_texts texts) (concatM (jwrite_layer texts) (jd_layers j))))) in
  if 2147483647 <? zlen b then Err ValueError else Ok b.
