(** JsonCodec.encode_object and decode_object (codec.py 176-345).  The object is the dict that json.dumps
    writes; its text is in Model_JsonText.v.  Python dicts with string keys are [MMap]. *)
From Verif Require Import PyBase Model_Text Model_Heap Model_Layer Model_Types Model_Msgpack Model_Document Model_Codec.
Local Open Scope Z_scope.

(** model.py 905-912: DataType.encode *)
Definition json_type (f : efield) : mobj :=
  match ef_args f with
  | None => MStr (ef_type f)
  | Some a => MMap [(s "type", MStr (ef_type f)); (s "args", MMap a)]
  end.
(** codec.py 183-193 *)
Definition json_object (e : edoc) : mobj :=
  MMap [(s "DM10", MMap
    [(s "props", ed_props e);
     (s "texts", texts_obj (ed_texts e));
     (s "num_nodes", MMap (map (fun l => (el_name l, MInt (el_num l))) (ed_layers e)));
     (s "types", MMap (map (fun l => (el_name l, MMap (map (fun f => (ef_name f, MArr (ef_col f))) (el_fields l)))) (ed_layers e)));
     (s "schema", MMap (map (fun l => (el_name l, MMap (map (fun f => (ef_name f, json_type f)) (el_fields l)))) (ed_layers e)))])].
(** encode_object passes no options on: compile's defaults (codec.py 183-193) *)
Definition json_encode (h : heap) (d : doc) : hres mobj :=
  match codec_encode h d false true with
  | (h1, Err e) => (h1, Err e)
  | (h1, Ok e) => (h1, Ok (json_object e))
  end.

(** codec.py 207-255 *)
Definition as_map (o : mobj) : res (dict mobj) := match o with MMap d => Ok d | _ => Err Unmodelled end.
(** codec.py 207-255 *)
Definition item (o : mobj) (k : pystr) : res mobj := let* d := as_map o in dgetE d k.
(** codec.py 220-232: a field type; NodeLayerSchema.add cannot find the field twice, the keys of a dict differ *)
Definition json_field (kv : pystr * mobj) : res (pystr * dtype) :=
  match snd kv with
  | MStr ts => let* t := string_type ts in Ok (fst kv, mkDT KBase t [])
  | MMap _ =>
      let* ty := item (snd kv) (s "type") in
      let* ts := as_str ty in
      let* t := string_type ts in
      let* a := item (snd kv) (s "args") in
      let* m := as_map a in
      let* opts := dict_values m in
      Ok (fst kv, mkDT KBase t opts)
  | _ => Err DataError
  end.
(** codec.py 215-234 *)
Definition json_schema (kv : pystr * mobj) : res (pystr * dict dtype) :=
  let* d := as_map (snd kv) in
  let* fs := mapM json_field d in Ok (fst kv, fs).
(** codec.py 260-299: the columns of a layer; a span field needs its text *)
Definition json_column (texts : dict (list pystr)) (cols : mobj) (ft : pystr * dtype) : res (list mobj) :=
  let* _ := match dt_name (snd ft) with
            | TSpan => let* c := opt_name (snd ft) (s "context") in dgetE texts c
            | TExt => Err Unmodelled
            | _ => Ok []
            end in
  let* col := item cols (fst ft) in
  match col with MArr l => Ok l | _ => Err Unmodelled end.
(** codec.py 255-259 *)
Definition json_layer (texts : dict (list pystr)) (nums types : mobj) (kf : pystr * dict dtype) : res (Z * list (list mobj)) :=
  let* o := item nums (fst kf) in
  let* n := as_num o in
  let* cols := match snd kf with
               | [] => Ok []
               | fs => let* t := item types (fst kf) in mapM (json_column texts t) fs
               end in
  Ok (n, cols).
(** codec.py 206-299 *)
Definition json_parse (o : mobj) : res pdoc :=
  let* b := item o (s "DM10") in
  let* props := item b (s "props") in
  let* so := item b (s "schema") in
  let* sd := as_map so in
  let* sch := mapM json_schema sd in
  let* tx := item b (s "texts") in
  let* texts := as_texts tx in
  let* nums := item b (s "num_nodes") in
  let* types := match sch with [] => Ok (MMap []) | _ => item b (s "types") end in
  let* ls := mapM (json_layer texts nums types) sch in
  Ok (mkPD props sch texts ls).
(** codec.py 206-345; the rest is the same as in commit_layers *)
Definition json_decode (h : heap) (o : mobj) : hres doc :=
  match json_parse o with
  | Err e => (h, Err e)
  | Ok p => build h p
  end.
