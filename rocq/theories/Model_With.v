(** Files of documents by their path, and the with statement (py/docria/collection.py 440-529, 628-672).
    The file system is a map from paths to bytes.  FileExistsError and FileNotFoundError are IOError.
    Simplifications: what is written is in the file at once (the code writes through a buffer that close empties); what a constructor that
    raises has left in the file is not followed. *)
From Verif Require Import PyBase Model_Text Model_Heap Model_Layer Model_Types Model_Msgpack Model_Document Model_Codec Model_Lazy Model_Collection.
Local Open Scope Z_scope.

Definition files := dict (list N).
(** open(path, mode): xb, wb, ab (collection.py 460-461, 634-635) *)
Inductive omode := ModeX | ModeW | ModeA.
(** collection.py 460-461, 634-635: the files, and what the file holds then *)
Definition open_out (fs : files) (p : pystr) (m : omode) : res (files * list N) :=
  match m, dget fs p with
  | ModeX, Some _ => Err IOError
  | ModeA, Some old => Ok (fs, old)
  | _, _ => Ok (dset fs p [], [])
  end.
(** open(path, "rb") (collection.py 312-313, 642-643, 662) *)
Definition open_in (fs : files) (p : pystr) : res (list N) := match dget fs p with Some f => Ok f | None => Err IOError end.

(** a MsgpackDocumentWriter whose output is a file (collection.py 460-479): the writer, what the file held when it was opened, whether it is closed *)
Record fwriter := mkF { fw_w : writer; fw_old : list N; fw_closed : bool }.
(** what the file holds (collection.py 460-479) *)
Definition held (x : fwriter) : list N := fw_old x ++ out_bytes (w_out (fw_w x)).
(** collection.py 442-479: MsgpackDocumentWriter(path, num_docs_per_block, codec, mode) *)
Definition writer_at (fs : files) (p : pystr) (m : omode) (c : codec) (per : Z) : files * res fwriter :=
  match open_out fs p m with
  | Err e => (fs, Err e)
  | Ok (fs1, old) => (fs1, let* w := writer_open c per in Ok (mkF w old false))
  end.
(** collection.py 633-635: DocumentIO.write(filepath, **kwargs); the file is opened here, so the mode among kwargs is not looked at *)
Definition io_write (fs : files) (p : pystr) (mode_given : option omode) (c : codec) (per : Z) : files * res fwriter :=
  match open_out fs p ModeW with
  | Err e => (fs, Err e)
  | Ok (fs1, old) => (fs1, let* w := writer_open c per in Ok (mkF w old false))
  end.
(** collection.py 509-524: flush; writing to a closed file raises ValueError *)
Definition fw_flush (x : fwriter) : fwriter * res unit :=
  let w := fw_w x in
  if w_count w >? 0 then
    match pack (MBin (w_comp w (w_block w))) with
    | Err e => (x, Err e)
    | Ok _ => if fw_closed x then (x, Err ValueError)
              else let (w1, r) := writer_flush w in (mkF w1 (fw_old x) false, r)
    end
  else (x, Ok tt).
(** collection.py 503-507 *)
Definition fw_add (x : fwriter) (data : list N) : fwriter * res unit :=
  let w := fw_w x in
  match pack (MBin data) with
  | Err e => (x, Err e)
  | Ok p =>
      let x1 := mkF (mkW (w_out w) (w_block w ++ p) (w_count w + 1) (w_comp w) (w_per w)) (fw_old x) (fw_closed x) in
      if w_count w + 1 =? w_per w then fw_flush x1 else (x1, Ok tt)
  end.
(** collection.py 487-507: write *)
Definition fw_write (h : heap) (x : fwriter) (d : wdoc) : heap * fwriter * res unit :=
  match wdoc_data h d with
  | (h1, Err e) => (h1, x, Err e)
  | (h1, Ok data) => let (x1, r) := fw_add x data in (h1, x1, r)
  end.
(** collection.py 526-529: close; closing a closed file does nothing *)
Definition fw_close (x : fwriter) : fwriter * res unit :=
  match fw_flush x with
  | (x1, Err e) => (x1, Err e)
  | (x1, Ok _) => (mkF (fw_w x1) (fw_old x1) true, Ok tt)
  end.

(** ** programs *)
(** write, flush, close (collection.py 487-529) *)
Inductive fcall := FWrite (d : wdoc) | FFlush | FClose.
(** collection.py 487-529 *)
Definition fw_call (h : heap) (x : fwriter) (c : fcall) : heap * fwriter * res unit :=
  match c with
  | FWrite d => fw_write h x d
  | FFlush => let (x1, r) := fw_flush x in (h, x1, r)
  | FClose => let (x1, r) := fw_close x in (h, x1, r)
  end.
(** calls, exceptions being caught (collection.py 487-529) *)
Fixpoint fw_calls (h : heap) (x : fwriter) (cs : list fcall) : heap * fwriter * list (res unit) :=
  match cs with
  | [] => (h, x, [])
  | c :: r => let '(h1, x1, a) := fw_call h x c in let '(h2, x2, l) := fw_calls h1 x1 r in (h2, x2, a :: l)
  end.
(** collection.py 481-524: the body of a with statement: writes and flushes, ended by an exception of one of them or by [raised] *)
Fixpoint fw_body (h : heap) (x : fwriter) (ops : list wop) (raised : option exn) : heap * fwriter * res unit :=
  match ops with
  | [] => (h, x, match raised with Some e => Err e | None => Ok tt end)
  | o :: r => let '(h1, x1, a) := fw_call h x (match o with WWrite d => FWrite d | WFlush => FFlush end) in
              match a with Err e => (h1, x1, Err e) | Ok _ => fw_body h1 x1 r raised end
  end.
(** collection.py 481-485: with writer: body; __exit__ closes and lets the exception pass; one of its own takes its place *)
Definition with_writer (h : heap) (x : fwriter) (ops : list wop) (raised : option exn) : heap * fwriter * res unit :=
  let '(h1, x1, a) := fw_body h x ops raised in
  let (x2, r) := fw_close x1 in (h1, x2, match r with Err e => Err e | Ok _ => a end).
(** what is in the files then (collection.py 460-529) *)
Definition saved (fs : files) (p : pystr) (x : fwriter) : files := dset fs p (held x).
(** collection.py 306-331, 641-647, 654-672: MsgpackDocumentReader(path), MsgpackDocumentIO.read(path), DocumentIO.read(path); kwargs are not looked at *)
Definition reader_at (g : registry) (fs : files) (p : pystr) : res reader := let* f := open_in fs p in reader_open g f.
