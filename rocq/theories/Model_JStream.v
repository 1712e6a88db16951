(** Document files in the Java port (java/core/src/main/java/se/lth/cs/docria/io/DocumentStreamWriter.java,
    DocumentStreamBoundaryWriter.java, DocumentStreamReader.java; MsgpackDocumentStreamReader.java differs from the last
    only in the class of the documents).  Documents are byte arrays here: nextRaw and write(byte[]); what next() and
    nextBlock() make of the bytes is not modelled here.  DeflateCodec is any pair of functions.  Not modelled: close of
    the streams, threads. *)
From Verif Require Import PyBase Model_Msgpack Model_Collection.
Local Open Scope Z_scope.

(** ** writer *)
(** DocumentStreamWriter.java 29-50.  dw_pend: what the MessagePacker holds in its buffer.  It passes its bytes on in
    flush() or when the buffer is full; the buffer of 8 KiB is larger than the header and is filled again only between
    packBinaryHeader and flush of flushblock, where it makes no difference when its bytes are passed on. *)
Record dwriter := mkDW { dw_out : list oev; dw_pend : list N; dw_block : list N; dw_count : Z; dw_comp : list N -> list N; dw_per : Z }.
(** DocumentStreamWriter.java 64-80.  ahead: how many bytes of the header the MessagePacker passes on at once, a matter of
    the library (in msgpack-core 0.8.18 addPayload of line 73 finds no buffer yet and passes its four bytes on). *)
Definition dw_open (ahead : nat) (name : pystr) (comp : list N -> list N) (numDocsPerBlock : Z) : res dwriter :=
  if numDocsPerBlock <? 1 then Err ValueError else
  let* a := pack (MStr name) in
  let* b := pack (MInt numDocsPerBlock) in
  let* d := pack (MBool false) in
  let hdr := dmf1 ++ a ++ b ++ d in
  Ok (mkDW [OWrite (firstn ahead hdr)] (skipn ahead hdr) [] 0 comp numDocsPerBlock).
(** DocumentStreamWriter.java 82-94; DocumentStreamBoundaryWriter.java 56-60: split comes first (and means nothing to a
    plain stream) *)
Definition dw_flushblock (w : dwriter) : dwriter * res unit :=
  match pack (MBin (dw_comp w (dw_block w))) with
  | Err e => (w, Err e)
  | Ok p => (mkDW (dw_out w ++ [OSplit; OWrite (dw_pend w ++ p)]) [] [] 0 (dw_comp w) (dw_per w), Ok tt)
  end.
(** DocumentStreamWriter.java 96-106: write(byte[]) *)
Definition dw_write (w : dwriter) (data : list N) : dwriter * res unit :=
  match pack (MBin data) with
  | Err e => (w, Err e)
  | Ok p =>
      let w1 := mkDW (dw_out w) (dw_pend w) (dw_block w ++ p) (dw_count w + 1) (dw_comp w) (dw_per w) in
      if dw_count w1 =? dw_per w1 then dw_flushblock w1 else (w1, Ok tt)
  end.
(** DocumentStreamWriter.java 116-125: flush *)
Definition dw_flush (w : dwriter) : dwriter * res unit :=
  if 0 <? dw_count w then dw_flushblock w else (w, Ok tt).
(** a program: writes (Some) and flushes (None), then close (DocumentStreamWriter.java 96-134) *)
Fixpoint dw_run (w : dwriter) (ops : list (option (list N))) : dwriter * res unit :=
  match ops with
  | [] => dw_flush w
  | o :: r => match (match o with Some d => dw_write w d | None => dw_flush w end) with
              | (w1, Err e) => (w1, Err e)
              | (w1, Ok _) => dw_run w1 r
              end
  end.

(** ** MessageUnpacker: the bytes that are left.  Too few bytes: OutOfData; another type: TypeError; a number out of the
    range of int: OverflowError; a length out of it: ValueError. *)
(** readPayload(n), DocumentStreamReader.java 44, 91, 135, 172 *)
Definition mu_payload (n : Z) (bs : list N) : res (list N * list N) :=
  match take n bs with Ok x => Ok x | Err _ => Err OutOfData end.
(** big-endian integers of k bytes (DocumentStreamReader.java 52-90) *)
Definition mu_uint (k : Z) (bs : list N) : res (Z * list N) :=
  match read_uint k bs with Ok x => Ok x | Err _ => Err OutOfData end.
(** unpackInt, DocumentStreamReader.java 69 *)
Definition mu_int (bs : list N) : res (Z * list N) :=
  match bs with
  | [] => Err OutOfData
  | b :: r =>
      let* (v, r1) := match classify b with
                      | TgInt z => Ok (z, r)
                      | TgUint k => mu_uint k r
                      | TgSint k => let* (v, r') := mu_uint k r in Ok (to_signed k v, r')
                      | _ => Err TypeError
                      end in
      if (v <? -2147483648) || (2147483647 <? v) then Err OverflowError else Ok (v, r1)
  end.
(** unpackBoolean, DocumentStreamReader.java 70 *)
Definition mu_bool (bs : list N) : res (bool * list N) :=
  match bs with
  | [] => Err OutOfData
  | b :: r => match classify b with TgBool x => Ok (x, r) | _ => Err TypeError end
  end.
(** unpackBinaryHeader and the header of unpackString: by default each also accepts the other's type
    (DocumentStreamReader.java 52, 90, 134, 171) *)
Definition mu_header (bs : list N) : res (Z * list N) :=
  match bs with
  | [] => Err OutOfData
  | b :: r =>
      match classify b with
      | TgStr n => Ok (n, r)
      | TgStrN k | TgBin k => let* (n, r') := mu_uint k r in if 2147483647 <? n then Err ValueError else Ok (n, r')
      | _ => Err TypeError
      end
  end.
(** a header and as many bytes (DocumentStreamReader.java 52, 90-91, 134-135, 171-172) *)
Definition mu_bytes (bs : list N) : res (list N * list N) := let* (n, r) := mu_header bs in mu_payload n r.

(** ** reader *)
(** DocumentStreamReader.java 31-34, 79 *)
Record sreader := mkSR { sr_unp : list N; sr_codec : list N -> res (list N); sr_block : option (list N) }.
(** DocumentStreamReader.java 52-65: the switch; a name is compared by its bytes, which are ASCII *)
Definition sr_named (inflate : list N -> res (list N)) (name : list N) : res (list N -> res (list N)) :=
  if list_eqb N.eqb name (s "none") then Ok (fun x => Ok x)
  else if list_eqb N.eqb name (s "zip") then Ok inflate
  else if list_eqb N.eqb name (s "zipsq") then Ok (fun x => let* y := inflate x in inflate y)
  else Err NotImplementedError.
(** DocumentStreamReader.java 40-77: with a codec of the caller's the name in the file is not passed over *)
Definition sr_open (inflate : list N -> res (list N)) (codecfn : option (list N -> res (list N))) (file : list N) : res sreader :=
  let* (hd, r0) := mu_payload 4 file in
  if negb (list_eqb N.eqb hd dmf1) then Err IOError else
  let* (codec, r1) := match codecfn with
                      | Some f => Ok (f, r0)
                      | None => let* (name, r1) := mu_bytes r0 in let* f := sr_named inflate name in Ok (f, r1)
                      end in
  let* (_, r2) := mu_int r1 in
  let* (advanced, r3) := mu_bool r2 in
  if advanced then Err NotImplementedError else Ok (mkSR r3 codec None).
(** DocumentStreamReader.java 81-104: readNextBlock also assigns the field block; every block takes a byte, so this fuel
    is enough *)
Fixpoint sr_advance (fuel : nat) (r : sreader) : sreader * res (option (list N)) :=
  match sr_unp r with
  | [] => (r, Ok None)
  | _ =>
      match fuel with
      | O => (r, Err OutOfFuel)
      | S f =>
          match mu_bytes (sr_unp r) with
          | Err e => (r, Err e)
          | Ok (compressed, rest) =>
              let r1 := mkSR rest (sr_codec r) (sr_block r) in
              match sr_codec r compressed with
              | Err e => (r1, Err e)
              | Ok raw => let r2 := mkSR rest (sr_codec r) (Some raw) in
                          match raw with [] => sr_advance f r2 | _ => (r2, Ok (Some raw)) end
              end
          end
      end
  end.
(** DocumentStreamReader.java 81-104: readNextBlock *)
Definition read_next_block (r : sreader) : sreader * res (option (list N)) := sr_advance (length (sr_unp r)) r.
(** block = b, DocumentStreamReader.java 79, 95, 129 *)
Definition sr_set (r : sreader) (b : option (list N)) : sreader := mkSR (sr_unp r) (sr_codec r) b.
(** DocumentStreamReader.java 128-132, 200-204, 218-222, 249-253: block = readNextBlock() when there is none *)
Definition sr_current (r : sreader) : sreader * res (option (list N)) :=
  match sr_block r with
  | Some b => (r, Ok (Some b))
  | None => match read_next_block r with
            | (r1, Ok b) => (sr_set r1 b, Ok b)
            | (r1, Err e) => (r1, Err e)
            end
  end.
(** DocumentStreamReader.java 137-138, 207-208: a block without further documents is let go *)
Definition sr_left (r : sreader) (rest : list N) : sreader := sr_set r (match rest with [] => None | _ => Some rest end).
(** DocumentStreamReader.java 126-144: nextRaw *)
Definition sr_next_raw (r : sreader) : sreader * res (option (list N)) :=
  match sr_current r with
  | (r1, Err e) => (r1, Err e)
  | (r1, Ok None) => (r1, Ok None)
  | (r1, Ok (Some b)) =>
      match mu_bytes b with
      | Err e => (r1, Err e)
      | Ok (doc, rest) => (sr_left r1 rest, Ok (Some doc))
      end
  end.
(** DocumentStreamReader.java 198-214: skip() *)
Definition sr_skip (r : sreader) : sreader * res bool :=
  match sr_current r with
  | (r1, Err e) => (r1, Err e)
  | (r1, Ok None) => (r1, Ok false)
  | (r1, Ok (Some b)) =>
      match skip1 b with
      | Err e => (r1, Err e)
      | Ok (_, rest) => (sr_left r1 rest, Ok true)
      end
  end.
(** DocumentStreamReader.java 224-240, 255-268: the loops of skip(n) and count() (limit: None), with b the block at hand *)
Fixpoint sr_loop (fuel : nat) (r : sreader) (b : list N) (k : Z) (limit : option Z) : sreader * res Z :=
  if match limit with Some n => k <? n | None => true end then
    match fuel with
    | O => (r, Err OutOfFuel)
    | S f =>
        match skip1 b with
        | Err e => (r, Err e)
        | Ok (_, rest) =>
            let r1 := sr_set r (Some rest) in
            match rest with
            | _ :: _ => sr_loop f r1 rest (k + 1) limit
            | [] => match read_next_block r1 with
                    | (r2, Err e) => (r2, Err e)
                    | (r2, Ok None) => (sr_set r2 None, Ok (k + 1))
                    | (r2, Ok (Some b2)) => sr_loop f (sr_set r2 (Some b2)) b2 (k + 1) limit
                    end
            end
        end
    end
  else (r, Ok k).
(** DocumentStreamReader.java 216-240: skip(n); 247-269: count() *)
Definition sr_skip_many (fuel : nat) (r : sreader) (limit : option Z) : sreader * res Z :=
  match sr_current r with
  | (r1, Err e) => (r1, Err e)
  | (r1, Ok None) => (r1, Ok 0)
  | (r1, Ok (Some b)) => sr_loop fuel r1 b 0 limit
  end.
(** DocumentStreamReader.java 183-196: skipBlock *)
Definition sr_skip_block (r : sreader) : sreader * res bool :=
  match sr_unp r with
  | [] => (r, Ok false)
  | _ => match skip1 (sr_unp r) with
         | Err e => (r, Err e)
         | Ok (_, rest) => (mkSR rest (sr_codec r) (sr_block r), Ok true)
         end
  end.
(** DocumentStreamReader.java 158-178: the stream of nextBlock, taken to its end; every document takes a byte *)
Fixpoint sr_stream (fuel : nat) (b : list N) : list N * res (list (list N)) :=
  match b with
  | [] => ([], Ok [])
  | _ => match fuel with
         | O => (b, Err OutOfFuel)
         | S f => match mu_bytes b with
                  | Err e => (b, Err e)
                  | Ok (doc, rest) => let (b1, q) := sr_stream f rest in (b1, let* l := q in Ok (doc :: l))
                  end
         end
  end.
(** DocumentStreamReader.java 153-181: nextBlock; its stream reads from the unpacker that is also the field block *)
Definition sr_next_block (r : sreader) : sreader * res (option (list (list N))) :=
  match read_next_block r with
  | (r1, Err e) => (r1, Err e)
  | (r1, Ok None) => (r1, Ok None)
  | (r1, Ok (Some b)) => let (b1, q) := sr_stream (length b) b in (sr_set r1 (Some b1), let* l := q in Ok (Some l))
  end.
(** calls of a reader, one after the other (DocumentStreamReader.java 126-269); nextBlock takes its stream to the end *)
Inductive scall := SNext | SSkip | SSkipN (n : Z) | SCount | SBlock | SSkipBlock.
Inductive sans := SA_doc (r : res (option (list N))) | SA_bool (r : res bool) | SA_num (r : res Z) | SA_docs (r : res (option (list (list N)))).
Definition sr_call (fuel : nat) (r : sreader) (c : scall) : sreader * sans :=
  match c with
  | SNext => let (r1, a) := sr_next_raw r in (r1, SA_doc a)
  | SSkip => let (r1, a) := sr_skip r in (r1, SA_bool a)
  | SSkipN n => let (r1, a) := sr_skip_many fuel r (Some n) in (r1, SA_num a)
  | SCount => let (r1, a) := sr_skip_many fuel r None in (r1, SA_num a)
  | SBlock => let (r1, a) := sr_next_block r in (r1, SA_docs a)
  | SSkipBlock => let (r1, a) := sr_skip_block r in (r1, SA_bool a)
  end.
Fixpoint sr_calls (fuel : nat) (r : sreader) (cs : list scall) : list sans :=
  match cs with
  | [] => []
  | c :: cs' => let (r1, a) := sr_call fuel r c in a :: sr_calls fuel r1 cs'
  end.
