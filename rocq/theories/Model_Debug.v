(** MsgpackCodec.debug (py/docria/codec.py 525-591), which prints what is in a document's bytes,
    and NodeLayerCollection.to_pandas (py/docria/model.py 1713-1746).
    Simplifications: a printed line is its format string and the objects put in it, not their representation;
    a float where a number is printed with %d, and names of layers that are no strings, are not modelled;
    a data frame is its columns, before pandas picks a type for each. *)
From Verif Require Import PyBase Model_Text Model_Heap Model_Layer Model_Types Model_Msgpack Model_Codec Model_Coerce.
Local Open Scope Z_scope.

(** ** debug *)
(** one call of print (codec.py 525-591) *)
Record line := mkLine { ln_format : pystr; ln_args : list mobj }.
(** a program that prints and takes objects from the unpacker, one after the other (codec.py 532-591) *)
Inductive prog :=
| Done
| Raise (e : exn)
| Print (l : line) (k : prog)
| Next (k : mobj -> prog).
(** running it on bytes: what was printed, and how it ended; next(unpacker) at the end raises StopIteration (codec.py 532-591) *)
Fixpoint run (p : prog) (bs : list N) : list line * res unit :=
  match p with
  | Done => ([], Ok tt)
  | Raise e => ([], Err e)
  | Print l k => let (o, r) := run k bs in (l :: o, r)
  | Next k => match unpack1 bs with Ok (o, r) => run (k o) r | Err e => ([], Err e) end
  end.
(** %d of an object (codec.py 572, 584-585) *)
Definition print_number (f : pystr) (o : mobj) (k : prog) : prog :=
  match o with
  | MInt _ | MBool _ => Print (mkLine f [o]) k
  | MFloat _ => Raise Unmodelled
  | _ => Raise TypeError
  end.
(** for x in o (codec.py 549, 579) *)
Definition elements (o : mobj) : res (list mobj) :=
  match o with
  | MArr l => Ok l
  | MMap d => Ok (map (fun kv => MStr (fst kv)) d)
  | MStr x => Ok (map (fun c => MStr [c]) x)
  | MBin x => Ok (map (fun c => MInt (Z.of_N c)) x)
  | _ => Err TypeError
  end.
(** codec.py 555-565: the fields of a layer; [acc] has their names, for codec.py 587 *)
Fixpoint debug_fields (n : nat) (acc : list mobj) (k : list mobj -> prog) : prog :=
  match n with
  | O => k acc
  | S n' => Next (fun name => Next (fun has_args => Next (fun ty =>
      if truthy has_args
      then Next (fun args => Print (mkLine (s "  - %s = %s") [name; MMap [(s "type", ty); (s "args", args)]]) (debug_fields n' (acc ++ [name]) k))
      else Print (mkLine (s "  - %s = %s") [name; ty]) (debug_fields n' (acc ++ [name]) k))))
  end.
(** codec.py 549-568: the schema; schema[typename] = fields *)
Fixpoint debug_schema (types : list mobj) (schema : dict (list mobj)) (k : dict (list mobj) -> prog) : prog :=
  match types with
  | [] => k schema
  | ty :: r => Print (mkLine (s " * %s") [ty]) (Next (fun num =>
      match num with
      | MInt _ | MBool _ =>
          let n := match num with MInt i => i | MBool true => 1 | _ => 0 end in
          debug_fields (Z.to_nat n) [] (fun fs =>
            match ty with
            | MStr x => debug_schema r (dset schema x fs) k
            | MArr _ | MMap _ => Raise TypeError
            | _ => Raise Unmodelled
            end)
      | _ => Raise TypeError
      end))
  end.
(** codec.py 587-591: the columns of a layer *)
Fixpoint debug_columns (cols : list mobj) (k : prog) : prog :=
  match cols with
  | [] => k
  | c :: r => Print (mkLine (s "  - %s") [c]) (Next (fun sp => Print (mkLine (s "  - Special encoding: %s") [sp])
      (Next (fun col => Print (mkLine (s " ==> %s") [col]) (debug_columns r k)))))
  end.
(** codec.py 579-591: the layers *)
Fixpoint debug_layers (types : list mobj) (schema : dict (list mobj)) : prog :=
  match types with
  | [] => Done
  | ty :: r => Print (mkLine (s "[%s]") [ty]) (Next (fun size => Next (fun num =>
      print_number (s " * Segment length: %d ") size (print_number (s " * Num nodes: %d") num
        match ty with
        | MStr x => match dget schema x with Some cols => debug_columns cols (debug_layers r schema) | None => Raise KeyError end
        | _ => Raise Unmodelled
        end))))
  end.
(** codec.py 575-576: the texts *)
Fixpoint debug_texts (d : dict mobj) (k : prog) : prog :=
  match d with [] => k | (x, v) :: r => Print (mkLine (s "%s = %s") [MStr x; v]) (debug_texts r k) end.
(** a title (codec.py 535-578) *)
Definition title (x : pystr) (k : prog) : prog := Print (mkLine x []) k.
(** codec.py 535-591 *)
Definition debug_prog (header : list N) : prog :=
  title (s "-- Content --") (Print (mkLine (s "Magic: %s") [MBin header])
  (title (s "Document properties:") (Next (fun _ => Next (fun props => Print (mkLine (s "%s") [props])
  (title (s "Types:") (Next (fun types => Print (mkLine (s "%s") [types])
  (title (s "Schema: ")
  (match elements types with
   | Err e => Raise e
   | Ok l => debug_schema l [] (fun schema =>
       title (s "Texts: ") (Next (fun size => print_number (s " * Length: %d bytes") size (Next (fun texts =>
         match texts with
         | MMap d => debug_texts d (title (s "Types data:") (debug_layers l schema))
         | _ => Raise AttributeError
         end)))))
   end)))))))))).
(** codec.py 525-591: MsgpackCodec.debug; read_bytes gives what there is *)
Definition debug (bs : list N) : list line * res unit := run (debug_prog (firstn 4 bs)) (skipn 4 bs).

(** ** to_pandas *)
(** model.py 1728-1731: the fields *)
Definition pandas_fields (h : heap) (l : lid) (fields : option (list pystr)) : res (dict dtype) :=
  match fields with
  | None => Ok (l_fields (h_layer h l))
  | Some fs => mapM (fun f => let* t := dgetE (l_fields (h_layer h l)) f in Ok (f, t)) fs
  end.
(** model.py 1737, 1739: one cell; n.get(field) of an absent field is None *)
Definition pandas_cell (h : heap) (materialize : bool) (ft : pystr * dtype) (n : nid) : res value :=
  if materialize && tname_eqb (dt_name (snd ft)) TSpan
  then match dget (n_fieldsof h n) (fst ft) with
       | Some v => let* x := py_str v in Ok (VStr x)
       | None => Ok VNone
       end
  else Ok (match dget (n_fieldsof h n) (fst ft) with Some v => v | None => VNone end).
(** model.py 1733-1741: data[field] = ..., for each field *)
Fixpoint pandas_columns (h : heap) (ns : list nid) (materialize : bool) (fs : dict dtype) (data : dict (list value)) : res (dict (list value)) :=
  match fs with
  | [] => Ok data
  | ft :: r => let* col := mapM (pandas_cell h materialize ft) ns in pandas_columns h ns materialize r (dset data (fst ft) col)
  end.
(** model.py 1713-1746: to_pandas *)
Definition to_pandas (h : heap) (l : lid) (fields : option (list pystr)) (materialize include_ref : bool) : res (dict (list value)) :=
  let* fs := pandas_fields h l fields in
  let ns := live (l_nodesof h l) in
  let* data := pandas_columns h ns materialize fs [] in
  Ok (if include_ref then dset data (s "__ref") (map VNode ns) else data).
