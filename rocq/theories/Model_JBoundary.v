(** The same files in the Java port (java/core/src/main/java/se/lth/cs/docria/io/BoundaryWriter.java and
    BoundaryReader.java): BoundaryWriter.write, split and BoundaryReader.read, skip, available, computeLength.
    The fields of type long are unbounded here.  Not modelled: flush, close, readBoundary. *)
From Verif Require Import PyBase Model_Msgpack Model_Collection Model_Boundary.
Local Open Scope Z_scope.

(** ** writer *)
(** BoundaryWriter.java 33-43: the fields are those of the Python writer *)
Definition jw_open (boundary : Z) : res bwriter :=
  if (boundary <? 12) || (30 <? boundary) then Err ValueError else Ok (mkBW [Z.to_N boundary] boundary (0 + 1) 1 0).
(** BoundaryWriter.java 49-51 *)
Definition jw_split (w : bwriter) : bwriter := mkBW (bw_out w) (bw_b w) (bw_written w) (bw_written w) (bw_seg w).
(** DataOutputStream.writeInt after the cast of line 56: the last 32 bits (BoundaryWriter.java 56-61) *)
Definition write_int (d : Z) : list N := be 4 (d mod 4294967296).
(** BoundaryWriter.java 53-64: writeBoundary *)
Definition jw_marker (w : bwriter) : bwriter :=
  let delta := bw_last w - bw_written w in
  let deltapos := if delta <? -2147483648 then -2147483648 else delta in
  mkBW (bw_out w ++ write_int deltapos) (bw_b w) (bw_written w + 4) (bw_last w) (bw_seg w + 1).
(** BoundaryWriter.java 66-74: write(int), of a byte *)
Definition jw_byte (w : bwriter) (c : N) : bwriter :=
  let w1 := if bw_seg w <? Z.shiftr (bw_written w + 1) (bw_b w) then jw_marker w else w in
  mkBW (bw_out w1 ++ [c]) (bw_b w1) (bw_written w1 + 1) (bw_last w1) (bw_seg w1).
(** BoundaryWriter.java 87, 96 *)
Definition jw_max (w : bwriter) (left : Z) : Z := Z.min (Z.shiftl (bw_seg w + 1) (bw_b w) - bw_written w) left.
(** BoundaryWriter.java 88-98: the loop; outputStream.write(b, pos, n) takes bytes pos to pos + n *)
Fixpoint jw_loop (fuel : nat) (w : bwriter) (data : list N) (pos left maxwrite : Z) : bwriter * res unit :=
  if 0 <? left then
    match fuel with
    | O => (w, Err OutOfFuel)
    | S f =>
        let w1 := mkBW (bw_out w ++ sub data pos (pos + maxwrite)) (bw_b w) (bw_written w + maxwrite) (bw_last w) (bw_seg w) in
        let left1 := left - maxwrite in
        if 0 <? left1 then let w2 := jw_marker w1 in jw_loop f w2 data (pos + maxwrite) left1 (jw_max w2 left1)
        else (w1, Ok tt)
    end
  else (w, Ok tt).
(** BoundaryWriter.java 76-99: write(byte[]) *)
Definition jw_write (w : bwriter) (data : list N) : bwriter * res unit :=
  jw_loop (S (length data)) w data 0 (zlen data) (jw_max w (zlen data)).
(** programs of these calls (BoundaryWriter.java 49-99) *)
Inductive jev := JWrite (d : list N) | JByte (c : N) | JSplit.
(** programs of these calls (BoundaryWriter.java 49-99) *)
Fixpoint jw_run (w : bwriter) (es : list jev) : bwriter * res unit :=
  match es with
  | [] => (w, Ok tt)
  | JSplit :: r => jw_run (jw_split w) r
  | JByte c :: r => jw_run (jw_byte w c) r
  | JWrite d :: r => match jw_write w d with
                     | (w1, Err e) => (w1, Err e)
                     | (w1, Ok _) => jw_run w1 r
                     end
  end.

(** ** the stream below the reader *)
(** An InputStream over some bytes: what is left; at most how many bytes its next calls of read(byte[], int, int) return
    (all that is asked for when the list is used up, and never less than one); whether a call for zero bytes at the end
    answers -1 (ByteArrayInputStream) or 0 (FileInputStream).  Used in BoundaryReader.java 67-138. *)
Record instream := mkIn { in_rest : list N; in_sizes : list nat; in_minus : bool }.
(** inputStream.read(), BoundaryReader.java 71, 80 *)
Definition in_byte (i : instream) : instream * option N :=
  match in_rest i with
  | [] => (i, None)
  | c :: r => (mkIn r (in_sizes i) (in_minus i), Some c)
  end.
(** inputStream.read(b, pos, n), BoundaryReader.java 106: the bytes, None for -1 *)
Definition in_read (i : instream) (n : Z) : instream * option (list N) :=
  match in_rest i with
  | [] => (i, if n =? 0 then (if in_minus i then None else Some []) else None)
  | _ => let k := match in_sizes i with [] => Z.to_nat n | s :: _ => Nat.min (Z.to_nat n) (Nat.max 1 s) end in
         (mkIn (skipn k (in_rest i)) (tl (in_sizes i)) (in_minus i), Some (firstn k (in_rest i)))
  end.

(** ** reader *)
(** BoundaryReader.java 21-24 *)
Record jreader := mkJR { jr_in : instream; jr_b : Z; jr_seg : Z; jr_read : Z }.
(** BoundaryReader.java 26-34: at the end of the stream the boundary is -1 *)
Definition jr_open (i : instream) : res jreader :=
  match in_byte i with
  | (_, None) => Err IOError
  | (i1, Some c) => let b := Z.of_N c in if (b <? 12) || (30 <? b) then Err IOError else Ok (mkJR i1 b 0 1)
  end.
(** BoundaryReader.java 66, 101, 123, 133 *)
Definition jr_limit (r : jreader) : Z := Z.shiftl (jr_seg r + 1) (jr_b r).
(** BoundaryReader.java 77-93: skipBoundaryValue; nothing happens at the end of the stream *)
Definition jr_marker (r : jreader) : jreader * res unit :=
  let i := jr_in r in
  match in_rest i with
  | [] => (r, Ok tt)
  | _ :: _ :: _ :: _ :: rest => (mkJR (mkIn rest (in_sizes i) (in_minus i)) (jr_b r) (jr_seg r + 1) (jr_read r + 4), Ok tt)
  | _ => (mkJR (mkIn [] (in_sizes i) (in_minus i)) (jr_b r) (jr_seg r) (jr_read r), Err IOError)
  end.
(** BoundaryReader.java 66-68, 100-102, 123-125 *)
Definition jr_pass (r : jreader) : jreader * res unit := if jr_read r =? jr_limit r then jr_marker r else (r, Ok tt).
(** BoundaryReader.java 65-75: read(); None for -1 *)
Definition jr_byte (r : jreader) : jreader * res (option N) :=
  match jr_pass r with
  | (r1, Err e) => (r1, Err e)
  | (r1, Ok _) => let (i, c) := in_byte (jr_in r1) in
                  (mkJR i (jr_b r1) (jr_seg r1) (match c with Some _ => jr_read r1 + 1 | None => jr_read r1 end), Ok c)
  end.
(** BoundaryReader.java 95-119: the loop of read(byte[], int, int); the answer and the bytes that were put into the array *)
Fixpoint jr_loop (fuel : nat) (r : jreader) (len left : Z) (got : list N) : jreader * res (Z * list N) :=
  if 0 <? left then
    match fuel with
    | O => (r, Err OutOfFuel)
    | S f =>
        match jr_pass r with
        | (r1, Err e) => (r1, Err e)
        | (r1, Ok _) =>
            let maxread := Z.min left (jr_limit r1 - jr_read r1) in
            match in_read (jr_in r1) maxread with
            | (i, Some l) => jr_loop f (mkJR i (jr_b r1) (jr_seg r1) (jr_read r1 + zlen l)) len (left - zlen l) (got ++ l)
            | (i, None) => let r2 := mkJR i (jr_b r1) (jr_seg r1) (jr_read r1) in
                           if len =? left then (r2, Ok (-1, got)) else (r2, Ok (len - left, got))
            end
        end
    end
  else (r, Ok (len, got)).
(** BoundaryReader.java 95-119, with some number of rounds of the loop *)
Definition jr_read_bytes (fuel : nat) (r : jreader) (len : Z) : jreader * res (Z * list N) := jr_loop fuel r len len [].
(** calls of read() and read(byte[], int, int) (BoundaryReader.java 65-119) *)
Inductive jop := JNext | JRead (len : Z).
(** their answers (BoundaryReader.java 65-119) *)
Inductive jans := JA_byte (x : res (option N)) | JA_read (x : res (Z * list N)).
(** one call: every round of the loop but one moves on, so this many rounds are enough unless it never ends (BoundaryReader.java 65-119) *)
Definition jr_step (r : jreader) (o : jop) : jreader * jans :=
  match o with
  | JNext => let (r1, x) := jr_byte r in (r1, JA_byte x)
  | JRead len => let (r1, x) := jr_read_bytes (S (Z.to_nat len)) r len in (r1, JA_read x)
  end.
(** several calls (BoundaryReader.java 65-119) *)
Fixpoint jr_ops (r : jreader) (os : list jop) : list jans :=
  match os with
  | [] => []
  | o :: q => let (r1, x) := jr_step r o in x :: jr_ops r1 q
  end.
(** BoundaryReader.java 121-129: skip, for n >= 0 and a stream that skips as much as it can *)
Definition jr_skip (r : jreader) (n : Z) : jreader * res Z :=
  match jr_pass r with
  | (r1, Err e) => (r1, Err e)
  | (r1, Ok _) =>
      let k := Nat.min (Z.to_nat (Z.min n (jr_limit r1 - jr_read r1))) (length (in_rest (jr_in r1))) in
      (mkJR (mkIn (skipn k (in_rest (jr_in r1))) (in_sizes (jr_in r1)) (in_minus (jr_in r1))) (jr_b r1) (jr_seg r1) (jr_read r1), Ok (Z.of_nat k))
  end.
(** BoundaryReader.java 131-137: available, when the stream tells how much it holds *)
Definition jr_available (r : jreader) : Z :=
  let a := zlen (in_rest (jr_in r)) in
  if jr_read r =? jr_limit r then Z.max (a - 4) 0 else Z.min (jr_read r + a) (jr_limit r) - jr_read r.
(** BoundaryReader.java 49-62: computeLength *)
Definition compute_length (boundary start stop : Z) : Z :=
  let startseg := Z.shiftr start boundary in
  let endseg := Z.shiftr stop boundary in
  let d1 := if start =? Z.shiftl (Z.shiftr start boundary) boundary then -4 else 0 in
  let d2 := if stop =? Z.shiftl (Z.shiftr stop boundary) boundary then d1 + 4 else d1 in
  stop - start - (endseg - startseg) * 4 + d2.
