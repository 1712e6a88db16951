(** The blocked document file format and its reader, writer and index (py/docria/collection.py).
    Not modelled: opening and closing files, the buffer limits of msgpack.Unpacker, the third-party
    compressors (a codec is any pair of functions). *)
From Verif Require Import PyBase Model_Text Model_Heap Model_Layer Model_Types Model_Msgpack Model_Document Model_Codec Model_Lazy.
Local Open Scope Z_scope.

(** ** codecs: collection.py 238-262 *)
Record codec := mkCodec { c_name : pystr; c_comp : list N -> list N; c_decomp : list N -> res (list N) }.
Definition registry := dict codec.
(** 254-258; codec_name defaults to name *)
Definition register_codec (g : registry) (name : pystr) (comp : list N -> list N) (decomp : list N -> res (list N)) (codec_name : option pystr) : registry * res unit :=
  if dmem g name then (g, Err ValueError)
  else (dset g name (mkCodec (match codec_name with Some x => x | None => name end) comp decomp), Ok tt).
(** 261-262 *)
Definition unregister_codec (g : registry) (name : pystr) : registry * res unit :=
  if dmem g name then (ddel g name, Ok tt) else (g, Err KeyError).
(** 265-270 *)
Definition get_codec (g : registry) (name : pystr) (no_except : bool) : res (option codec) :=
  if negb no_except && negb (dmem g name) then Err NotImplementedError else Ok (dget g name).

(** ** writer: collection.py 440-528 *)
(** what the writer asks of its output; split only reaches a _BoundaryWriter (472-473, 520-521) *)
Inductive oev := OWrite (b : list N) | OSplit.
Record writer := mkW { w_out : list oev; w_block : list N; w_count : Z; w_comp : list N -> list N; w_per : Z }.
Definition dmf1 : list N := s "Dmf1".
(** 464-479 *)
Definition writer_open (c : codec) (num_docs_per_block : Z) : res writer :=
  let* a := pack (MStr (c_name c)) in
  let* b := pack (MInt num_docs_per_block) in
  let* d := pack (MBool false) in
  Ok (mkW [OWrite dmf1; OWrite a; OWrite b; OWrite d; OSplit] [] 0 (c_comp c) num_docs_per_block).
(** 509-524: flush *)
Definition writer_flush (w : writer) : writer * res unit :=
  if w_count w >? 0 then
    match pack (MBin (w_comp w (w_block w))) with
    | Err e => (w, Err e)
    | Ok p => (mkW (w_out w ++ [OWrite p; OSplit]) [] 0 (w_comp w) (w_per w), Ok tt)
    end
  else (w, Ok tt).
(** 503-507: the encoded document goes to the current block *)
Definition writer_add (w : writer) (data : list N) : writer * res unit :=
  match pack (MBin data) with
  | Err e => (w, Err e)
  | Ok p =>
      let w1 := mkW (w_out w) (w_block w ++ p) (w_count w + 1) (w_comp w) (w_per w) in
      if w_count w1 =? w_per w1 then writer_flush w1 else (w1, Ok tt)
  end.
(** 487-501: what may be written: a document with the options of encode, or an encoded document *)
Inductive wdoc := WDocument (d : doc) (extra_ok verify : bool) | WMsgpack (m : mdoc) | WOther.
Definition wdoc_data (h : heap) (x : wdoc) : hres (list N) :=
  match x with
  | WDocument d ex tv => msgpack_encode h d ex tv
  | WMsgpack m => (h, Ok (md_raw m))
  | WOther => (h, Err ValueError)
  end.
Definition writer_write (h : heap) (w : writer) (x : wdoc) : heap * writer * res unit :=
  match wdoc_data h x with
  | (h1, Err e) => (h1, w, Err e)
  | (h1, Ok data) => let (w1, r) := writer_add w data in (h1, w1, r)
  end.
(** the bytes of a plain file (collection.py 464-468) *)
Definition out_bytes (es : list oev) : list N := List.concat (map (fun e => match e with OWrite b => b | OSplit => [] end) es).
(** a program: writes and explicit flushes, then close (526-529); an exception ends it *)
Inductive wop := WWrite (x : wdoc) | WFlush.
Fixpoint writer_run (h : heap) (w : writer) (ops : list wop) : heap * writer * res unit :=
  match ops with
  | [] => let (w1, r) := writer_flush w in (h, w1, r)
  | WFlush :: ops' => let (w1, r) := writer_flush w in
                      match r with Err e => (h, w1, Err e) | Ok _ => writer_run h w1 ops' end
  | WWrite x :: ops' => let '(h1, w1, r) := writer_write h w x in
                        match r with Err e => (h1, w1, Err e) | Ok _ => writer_run h1 w1 ops' end
  end.

(** ** msgpack.Unpacker over a stream: the bytes not yet consumed and tell().
    When the data ends inside an object, next raises StopIteration; tell() is then left before that object
    (the C code may have moved it into the object; nothing reads it afterwards). *)
(** msgpack.Unpacker as used in collection.py 195-241, 383-414 *)
Record unp := mkU { u_rest : list N; u_tell : Z }.
(** msgpack.Unpacker as used in collection.py 195-241, 383-414 *)
Definition u_open (bs : list N) : unp := mkU bs 0.
(** next(unpacker) (msgpack.Unpacker as used in collection.py 195-241, 383-414) *)
Definition u_next1 (u : unp) : unp * res mobj :=
  match unpack1 (u_rest u) with
  | Ok (o, r) => (mkU r (u_tell u + (zlen (u_rest u) - zlen r)), Ok o)
  | Err e => (u, Err e)
  end.
(** next(unpacker, None): the end of the data and a packed None look the same (msgpack.Unpacker as used in collection.py 195-241, 383-414) *)
Definition u_next (u : unp) : unp * res (option mobj) :=
  match u_next1 u with
  | (u1, Ok MNil) => (u1, Ok None)
  | (u1, Ok o) => (u1, Ok (Some o))
  | (u1, Err StopIteration) => (u1, Ok None)
  | (u1, Err e) => (u1, Err e)
  end.
(** codec.py 371-395; collection.py 232-241 *)
Definition as_bytes (e : exn) (o : mobj) : res (list N) := match o with MBin x => Ok x | _ => Err e end.

(** ** MsgpackDocumentBlock: collection.py 178-235 *)
Record block := mkB { b_data : list N; b_pos : Z; b_read : Z; b_unp : unp }.
(** 195-199 *)
Definition block_open (position : Z) (raw : list N) : block := mkB raw position 0 (u_open raw).
(** 206-208 *)
Definition block_tell (b : block) : Z := u_tell (b_unp b) + b_read b.
(** 210-214 *)
Definition block_seek (b : block) (p : Z) : block * res unit :=
  match seek (b_data b) p with
  | Err e => (b, Err e)
  | Ok bs => (mkB (b_data b) (b_pos b) p (u_open bs), Ok tt)
  end.
(** the next raw object of the block (collection.py 232-241) *)
Definition block_raw (b : block) : block * res (option mobj) :=
  let (u, r) := u_next (b_unp b) in (mkB (b_data b) (b_pos b) (b_read b) u, r).
(** MsgpackDocument(data, ref=...) (codec.py 371-395; collection.py 232-241) *)
Definition document_of (o : mobj) (ref : Z * Z) : res mdoc := let* x := as_bytes ValueError o in md_open x (Some ref).
(** 232-241: __next__; None stands for StopIteration *)
Definition block_next (b : block) : block * res (option mdoc) :=
  let start := block_tell b in
  match block_raw b with
  | (b1, Err e) => (b1, Err e)
  | (b1, Ok None) => (b1, Ok None)
  | (b1, Ok (Some o)) => (b1, let* d := document_of o (b_pos b1, start) in Ok (Some d))
  end.
(** for doc in block, with the positions before each (222-224) *)
Fixpoint block_iter (fuel : nat) (b : block) : block * res (list (Z * mdoc)) :=
  match fuel with
  | O => (b, Err OutOfFuel)
  | S f =>
      let start := block_tell b in
      match block_next b with
      | (b1, Err e) => (b1, Err e)
      | (b1, Ok None) => (b1, Ok [])
      | (b1, Ok (Some d)) => let (b2, r) := block_iter f b1 in (b2, let* l := r in Ok ((start, d) :: l))
      end
  end.
Definition block_docs (b : block) : block * res (list (Z * mdoc)) := block_iter (S (length (u_rest (b_unp b)))) b.
(** 216-226: documents().  The position of the first document is the constant 0, of the others tell(). *)
Definition block_documents (b : block) : block * res (list (Z * mdoc)) :=
  match block_seek b 0 with
  | (b1, Err e) => (b1, Err e)
  | (b1, Ok _) => block_docs b1
  end.

(** ** MsgpackDocumentReader: collection.py 291-416 *)
Record reader := mkR { r_file : list N; r_read : Z; r_unp : unp; r_codec : list N -> res (list N); r_per : mobj;
                       r_block : option block; r_last : Z }.
(** truth value of a Python object (collection.py 305-331) *)
Definition truth (o : mobj) : bool :=
  match o with
  | MNil => false | MBool b => b | MInt i => negb (i =? 0)
  | MFloat b => negb (N.eqb b 0 || N.eqb b 9223372036854775808)
  | MStr x => negb (zlen x =? 0) | MBin x => negb (zlen x =? 0) | MArr l => negb (zlen l =? 0) | MMap d => negb (zlen d =? 0)
  end.
(** get_codec of what the file has in the place of the name (265-270, 320-321): only strings are names, and a list or a map cannot be looked up *)
Definition codec_of (g : registry) (o : mobj) : res (option codec) :=
  match o with MStr x => get_codec g x false | MArr _ | MMap _ => Err TypeError | _ => Err NotImplementedError end.
(** 305-331.  The initial _lastblockpos (the position of the underlying file, read ahead by the unpacker) is never
    used before readblock sets it; 0 here. *)
Definition reader_open (g : registry) (file : list N) : res reader :=
  let header := firstn 4 file in
  if negb (list_eqb N.eqb header dmf1) then Err IOError else
  let u0 := u_open (skipn 4 file) in
  let (u1, r1) := u_next1 u0 in
  let* o := r1 in
  let* c := codec_of g o in
  match c with
  | None => Err AttributeError
  | Some c =>
      let (u2, r2) := u_next1 u1 in
      let* per := r2 in
      let (u3, r3) := u_next1 u2 in
      let* advanced := r3 in
      if truth advanced then Err NotImplementedError
      else Ok (mkR file 4 u3 (c_decomp c) per None 0)
  end.
(** 360-372: seek *)
Definition reader_seek (r : reader) (position : Z) : reader * res unit :=
  match seek (r_file r) position with
  | Err e => (mkR (r_file r) (r_read r) (r_unp r) (r_codec r) (r_per r) None (r_last r), Err e)
  | Ok bs => (mkR (r_file r) position (u_open bs) (r_codec r) (r_per r) None (r_last r), Ok tt)
  end.
(** 383-392: readblock *)
Definition readblock (r : reader) : reader * res (option block) :=
  let last := u_tell (r_unp r) + r_read r in
  let (u, x) := u_next (r_unp r) in
  let r1 := mkR (r_file r) (r_read r) u (r_codec r) (r_per r) (r_block r) last in
  (r1, let* o := x in
       match o with
       | None => Ok None
       | Some o => let* data := as_bytes TypeError o in let* buf := r_codec r data in Ok (Some (block_open last buf))
       end).
(** 342-358: get *)
Definition set_block (r : reader) (b : option block) : reader :=
  mkR (r_file r) (r_read r) (r_unp r) (r_codec r) (r_per r) b (r_last r).
Definition reader_get (r : reader) (ref : Z * Z) : reader * res mdoc :=
  let finish (r1 : reader) (b : block) :=
    match block_seek b (snd ref) with
    | (b1, Err e) => (set_block r1 (Some b1), Err e)
    | (b1, Ok _) => let (b2, x) := block_next b1 in
                    (set_block r1 (Some b2), let* d := x in match d with Some d => Ok d | None => Err StopIteration end)
    end in
  let fetch :=
    match reader_seek r (fst ref) with
    | (r1, Err e) => (r1, Err e)
    | (r1, Ok _) => match readblock r1 with
                    | (r2, Err e) => (r2, Err e)
                    | (r2, Ok None) => (set_block r2 None, Err AttributeError)
                    | (r2, Ok (Some b)) => finish (set_block r2 (Some b)) b
                    end
    end in
  match r_block r with
  | Some b => if b_pos b =? fst ref then finish r b else fetch
  | None => fetch
  end.
(** 403-414: the loop over blocks without documents *)
Fixpoint next_block (fuel : nat) (r : reader) : reader * res (option mdoc) :=
  match fuel with
  | O => (r, Err OutOfFuel)
  | S f =>
      match readblock r with
      | (r1, Err e) => (r1, Err e)
      | (r1, Ok None) => (r1, Ok None)
      | (r1, Ok (Some b)) =>
          let start := block_tell b in
          match block_raw b with
          | (b1, Err e) => (set_block r1 (Some b1), Err e)
          | (b1, Ok None) => next_block f (set_block r1 None)
          | (b1, Ok (Some o)) => (set_block r1 (Some b1), let* d := document_of o (r_last r1, start) in Ok (Some d))
          end
      end
  end.
(** 394-414: __next__; None stands for StopIteration *)
Definition reader_next (r : reader) : reader * res (option mdoc) :=
  let search r := next_block (S (length (u_rest (r_unp r)))) r in
  match r_block r with
  | None => search r
  | Some b =>
      let start := block_tell b in
      match block_raw b with
      | (b1, Err e) => (set_block r (Some b1), Err e)
      | (b1, Ok None) => search (set_block r None)
      | (b1, Ok (Some o)) => (set_block r (Some b1), let* d := document_of o (r_last r, start) in Ok (Some d))
      end
  end.
(** list(reader) (collection.py 333-334, 394-414) *)
Fixpoint reader_iter (fuel : nat) (r : reader) : reader * res (list mdoc) :=
  match fuel with
  | O => (r, Err OutOfFuel)
  | S f =>
      match reader_next r with
      | (r1, Err e) => (r1, Err e)
      | (r1, Ok None) => (r1, Ok [])
      | (r1, Ok (Some d)) => let (r2, x) := reader_iter f r1 in (r2, let* l := x in Ok (d :: l))
      end
  end.
(** 374-381: list(reader.blocks()) *)
Fixpoint blocks_iter (fuel : nat) (r : reader) : reader * res (list block) :=
  match fuel with
  | O => (r, Err OutOfFuel)
  | S f =>
      match readblock r with
      | (r1, Err e) => (r1, Err e)
      | (r1, Ok None) => (r1, Ok [])
      | (r1, Ok (Some b)) => let (r2, x) := blocks_iter f r1 in (r2, let* l := x in Ok (b :: l))
      end
  end.
(** 434-439: DocumentReader.__next__ *)
Definition docreader_next (h : heap) (r : reader) : heap * reader * res (option doc) :=
  match reader_next r with
  | (r1, Err e) => (h, r1, Err e)
  | (r1, Ok None) => (h, r1, Ok None)
  | (r1, Ok (Some m)) => let (_, hr) := md_document h m [] in
                         (fst hr, r1, match snd hr with
                                      | Err StopIteration => Ok None (* raised while decoding, it looks like the end *)
                                      | x => rmap Some x
                                      end)
  end.
(** list(DocumentReader(reader)) (collection.py 431-439) *)
Fixpoint docreader_iter (fuel : nat) (h : heap) (r : reader) : heap * reader * res (list doc) :=
  match fuel with
  | O => (h, r, Err OutOfFuel)
  | S f =>
      match docreader_next h r with
      | (h1, r1, Err e) => (h1, r1, Err e)
      | (h1, r1, Ok None) => (h1, r1, Ok [])
      | (h1, r1, Ok (Some d)) => let '(h2, r2, x) := docreader_iter f h1 r1 in (h2, r2, let* l := x in Ok (d :: l))
      end
  end.
(** sequences of calls on a reader (calls of collection.py 342-414) *)
Inductive rcall := RNext | RGet (ref : Z * Z) | RSeek (position : Z) | RBlock.
(** calls of collection.py 342-414 *)
Inductive ranswer := ADoc (r : res (option mdoc)) | ADone (r : res unit) | ABlock (r : res (option block)).
(** calls of collection.py 342-414 *)
Definition rstep (r : reader) (c : rcall) : reader * ranswer :=
  match c with
  | RNext => let (r1, x) := reader_next r in (r1, ADoc x)
  | RGet ref => let (r1, x) := reader_get r ref in (r1, ADoc (rmap Some x))
  | RSeek p => let (r1, x) := reader_seek r p in (r1, ADone x)
  | RBlock => let (r1, x) := readblock r in (r1, ABlock x)
  end.
(** calls of collection.py 342-414 *)
Fixpoint rcalls (r : reader) (cs : list rcall) : list ranswer :=
  match cs with
  | [] => []
  | c :: cs' => let (r1, a) := rstep r c in a :: rcalls r1 cs'
  end.
