(** Documents in Hadoop jobs: java/hadoop/src/main/java/se/lth/cs/docria/hadoop/DocumentWritable.java, DocriaInputFormat.java (its
    RecordReader), DocriaWriter.java, DocriaOutputFormat.java.
    A document is a value as in Model_JCodec.v.  A caller edits the document that getDocument has returned; edits of a
    document that the writable does not hold any more are nobody's here.  DataOutput and DataInput are as documented by java.io:
    big-endian ints; too few bytes: EOFException, OutOfData here.  Exceptions otherwise as in Model_JStream.v.
    Not modelled: getProgress, the configuration, threads, closing of streams. *)
From Verif Require Import PyBase Model_Text Model_Msgpack Model_Collection Model_JStream Model_JCodec Model_JEncode Model_JEdit.
Local Open Scope Z_scope.

(** ** DocumentWritable *)
(** DocumentWritable.java 12-25 *)
Record jwritable := mkW { w_doc : option jdoc; w_blob : option (list N) }.
(** DocumentWritable.java 27-32: getDocument; the bytes are kept *)
Definition w_get_document (w : jwritable) : jwritable * res (option jdoc) :=
  match w_doc w, w_blob w with
  | None, Some b => match java_decode b with
                    | Ok d => (mkW (Some d) (Some b), Ok (Some d))
                    | Err e => (w, Err e)
                    end
  | d, _ => (w, Ok d)
  end.
(** DocumentWritable.java 43-53: getMsgpackBlob; the document is let go when it has been encoded *)
Definition w_get_blob (w : jwritable) : jwritable * res (option (list N)) :=
  match w_blob w, w_doc w with
  | None, None => (w, Ok None)
  | None, Some d => match java_encode d with
                    | Ok b => (mkW None (Some b), Ok (Some b))
                    | Err e => (w, Err e)
                    end
  | Some b, _ => (w, Ok (Some b))
  end.
(** DocumentWritable.java 38-41: setDocument *)
Definition w_set_document (d : option jdoc) : jwritable := mkW d None.
(** DocumentWritable.java 55-58: setMsgpackBlob *)
Definition w_set_blob (b : option (list N)) : jwritable := mkW None b.
(** DocumentWritable.java 60-69, 81-84: write, writeExternal *)
Definition w_write (w : jwritable) : jwritable * res (list N) :=
  match w_doc w, w_blob w with
  | None, None => (w, Err RuntimeError)
  | _, _ => match w_get_blob w with
            | (w1, Err e) => (w1, Err e)
            | (w1, Ok None) => (w1, Err AttributeError)
            | (w1, Ok (Some b)) => (w1, Ok (be 4 (zlen b) ++ b))
            end
  end.
(** DocumentWritable.java 71-79, 86-89: readFields, readExternal; the bytes that are left *)
Definition w_read (w : jwritable) (bs : list N) : jwritable * res (list N) :=
  match mu_uint 4 bs with
  | Err e => (w, Err e)
  | Ok (u, r) =>
      let n := to_signed 4 u in
      if n <? 0 then (w, Err ValueError) else
      match mu_payload n r with
      | Err e => (w, Err e)
      | Ok (blob, r1) => (mkW None (Some blob), Ok r1)
      end
  end.
(** getDocument() and one operation of Model_JEdit.v on what it returns (DocumentWritable.java 27-32) *)
Definition w_edit (w : jwritable) (e : edit) : jwritable * res unit :=
  match w_get_document w with
  | (w1, Err x) => (w1, Err x)
  | (w1, Ok None) => (w1, Err AttributeError)
  | (w1, Ok (Some d)) => let (d1, r) := run_edit e d in (mkW (Some d1) (w_blob w1), r)
  end.
(** calls of DocumentWritable.java 27-89 that give the writable no other document *)
Inductive wcall := WGetDocument | WGetBlob | WEdit (e : edit) | WWrite.
(** DocumentWritable.java 27-69: the writable after the call *)
Definition w_call (w : jwritable) (c : wcall) : jwritable :=
  match c with
  | WGetDocument => fst (w_get_document w)
  | WGetBlob => fst (w_get_blob w)
  | WEdit e => fst (w_edit w e)
  | WWrite => fst (w_write w)
  end.
(** several writables, one after the other, into one DataOutput (DocumentWritable.java 60-69) *)
Fixpoint w_write_all (ws : list jwritable) : res (list N) :=
  match ws with
  | [] => Ok []
  | w :: r => let* a := snd (w_write w) in let* q := w_write_all r in Ok (a ++ q)
  end.
(** one writable is filled n times from one DataInput, as Hadoop does: what it holds each time (DocumentWritable.java 71-79) *)
Fixpoint w_read_all (n : nat) (w : jwritable) (bs : list N) : res (list jwritable * list N) :=
  match n with
  | O => Ok ([], bs)
  | S n' => match w_read w bs with
            | (_, Err e) => Err e
            | (w1, Ok r) => let* (q, r1) := w_read_all n' w1 r in Ok (w1 :: q, r1)
            end
  end.

(** ** DocriaWriter *)
(** DocriaWriter.java 10-16; rw_closed: the field writer is null *)
Record rwriter := mkRW { rw_dw : dwriter; rw_closed : bool }.
(** DocriaWriter.java 18-25: write *)
Definition rw_write (wr : rwriter) (k : jwritable) : rwriter * jwritable * res unit :=
  match w_get_blob k with
  | (k1, Err e) => (wr, k1, Err e)
  | (k1, Ok ob) =>
      if rw_closed wr then (wr, k1, Err AttributeError) else
      match ob with
      | None => (wr, k1, Err AttributeError)
      | Some b => let (d1, r) := dw_write (rw_dw wr) b in (mkRW d1 false, k1, r)
      end
  end.
(** DocriaWriter.java 27-34: close *)
Definition rw_close (wr : rwriter) : rwriter * res unit :=
  if rw_closed wr then (wr, Ok tt) else
  match dw_flush (rw_dw wr) with
  | (d1, Err e) => (mkRW d1 false, Err e)
  | (d1, Ok _) => (mkRW d1 true, Ok tt)
  end.
(** a task: write of each key, then close (DocriaWriter.java 18-34) *)
Fixpoint rw_task (wr : rwriter) (ks : list jwritable) : rwriter * res unit :=
  match ks with
  | [] => rw_close wr
  | k :: r => match rw_write wr k with
              | (wr1, _, Err e) => (wr1, Err e)
              | (wr1, _, Ok _) => rw_task wr1 r
              end
  end.

(** ** DocriaInputFormat *)
(** the RecordReader, DocriaInputFormat.java 22-27 *)
Record rreader := mkRR { rr_stream : option sreader; rr_current : jwritable }.
(** DocriaInputFormat.java 29-39: initialize; files are not split (89-92) *)
Definition rr_open (inflate : list N -> res (list N)) (file : list N) : res rreader :=
  let* sr := sr_open inflate None file in Ok (mkRR (Some sr) (mkW None None)).
(** DocriaInputFormat.java 41-56: nextKeyValue *)
Definition rr_next (r : rreader) : rreader * res bool :=
  match rr_stream r with
  | None => (r, Ok false)
  | Some sr => match sr_next_raw sr with
               | (sr1, Err e) => (mkRR (Some sr1) (rr_current r), Err e)
               | (_, Ok None) => (mkRR None (rr_current r), Ok false)
               | (sr1, Ok (Some raw)) => (mkRR (Some sr1) (w_set_blob (Some raw)), Ok true)
               end
  end.
(** n calls of nextKeyValue, and getCurrentKey after each (DocriaInputFormat.java 41-61) *)
Fixpoint rr_calls (n : nat) (r : rreader) : list (res bool * jwritable) :=
  match n with
  | O => []
  | S n' => let (r1, a) := rr_next r in (a, rr_current r1) :: rr_calls n' r1
  end.
