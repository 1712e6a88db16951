(** Files with markers at fixed distances (py/docria/collection.py 41-186): _BoundaryReader and _BoundaryWriter.
    The underlying file is the list of its bytes with a position (an io.BytesIO or a raw file that reads as much as
    it can).  Not modelled: closing, seekable/readable/writable. *)
From Verif Require Import PyBase Model_Msgpack Model_Collection.
Local Open Scope Z_scope.

(** ** writer *)
(** collection.py 129-142 *)
Record bwriter := mkBW { bw_out : list N; bw_b : Z; bw_written : Z; bw_last : Z; bw_seg : Z }.
(** 129-142 *)
Definition bw_open (boundary : Z) : res bwriter :=
  if (12 <=? boundary) && (boundary <=? 30) then Ok (mkBW [Z.to_N boundary] boundary 1 1 0) else Err ValueError.
(** 153-154 *)
Definition bw_split (w : bwriter) : bwriter := mkBW (bw_out w) (bw_b w) (bw_written w) (bw_written w) (bw_seg w).
(** struct.pack(">i", d); struct.error (here ValueError) outside of 32 bits *)
Definition pack_i32 (d : Z) : res (list N) :=
  if (-2147483648 <=? d) && (d <=? 2147483647) then Ok (be 4 (d mod 4294967296)) else Err ValueError.
(** 156-167: _write_boundary *)
Definition bw_marker (w : bwriter) : bwriter * res unit :=
  if Z.shiftl (Z.shiftr (bw_written w) (bw_b w)) (bw_b w) =? bw_written w then
    let delta := bw_last w - bw_written w in
    let deltapos := if delta <=? -2147483648 then -2147483648 else delta in
    match pack_i32 deltapos with
    | Err e => (w, Err e)
    | Ok m => (mkBW (bw_out w ++ m) (bw_b w) (bw_written w + 4) (bw_last w) (bw_seg w + 1), Ok tt)
    end
  else (w, Err AssertionError).
(** 173, 182: how much fits before the next marker *)
Definition bw_max (w : bwriter) (left : Z) : Z := Z.min (Z.shiftl (bw_seg w + 1) (bw_b w) - bw_written w) left.
(** 174-182: the loop *)
Fixpoint bw_loop (fuel : nat) (w : bwriter) (data : list N) (pos left maxwrite : Z) : bwriter * res unit :=
  if 0 <? left then
    match fuel with
    | O => (w, Err OutOfFuel)
    | S f =>
        let w1 := mkBW (bw_out w ++ py_slice data (Some pos) (Some (pos + maxwrite))) (bw_b w) (bw_written w + maxwrite) (bw_last w) (bw_seg w) in
        let left1 := left - maxwrite in
        if 0 <? left1 then
          match bw_marker w1 with
          | (w2, Err e) => (w2, Err e)
          | (w2, Ok _) => bw_loop f w2 data (pos + maxwrite) left1 (bw_max w2 left1)
          end
        else (w1, Ok tt)
    end
  else (w, Ok tt).
(** 169-182: write *)
Definition bw_write (w : bwriter) (data : list N) : bwriter * res unit :=
  bw_loop (S (length data)) w data 0 (zlen data) (bw_max w (zlen data)).
(** a program of writes and splits (the events of MsgpackDocumentWriter) (calls of collection.py 153-181) *)
Fixpoint bw_run (w : bwriter) (es : list oev) : bwriter * res unit :=
  match es with
  | [] => (w, Ok tt)
  | OSplit :: r => bw_run (bw_split w) r
  | OWrite d :: r => match bw_write w d with
                     | (w1, Err e) => (w1, Err e)
                     | (w1, Ok _) => bw_run w1 r
                     end
  end.

(** ** reader *)
(** collection.py 43-51 *)
Record breader := mkBR { br_file : list N; br_pos : Z; br_b : Z; br_offset : Z }.
(** inputio.read(n): everything when n is negative (collection.py 44, 83-116) *)
Definition io_read (f : list N) (pos n : Z) : list N * Z :=
  let rest := skipn (Z.to_nat pos) f in
  let l := if n <? 0 then rest else firstn (Z.to_nat n) rest in
  (l, pos + zlen l).
(** 43-51 *)
Definition br_open (f : list N) : res breader :=
  match f with
  | [] => Err IndexError
  | x :: _ => let b := Z.of_N x in
              if (b <? 12) || (30 <? b) then Err IOError else Ok (mkBR f 1 b 0)
  end.
(** 59-65 *)
Definition to_absolute (b offset : Z) : Z :=
  let boundary_val := Z.shiftl 1 b in
  if offset <? boundary_val - 1 then offset + 1
  else let upper := offset - boundary_val + 1 in
       (upper / (boundary_val - 4)) * 4 + boundary_val + 4 + upper.
(** 67-75, whence = SEEK_SET *)
Definition br_seek (r : breader) (offset : Z) : breader * res Z :=
  let p := to_absolute (br_b r) offset in
  if p <? 0 then (mkBR (br_file r) (br_pos r) (br_b r) offset, Err ValueError)
  else (mkBR (br_file r) p (br_b r) offset, Ok offset).
(** output[i:j] = x, for 0 <= i <= j (collection.py 77-116) *)
Definition set_slice (out : list N) (i j : Z) (x : list N) : list N :=
  firstn (Z.to_nat i) out ++ x ++ skipn (Z.to_nat j) out.
(** 104-110: the loop; the output and how much of it was filled *)
Fixpoint br_loop (fuel : nat) (b stop : Z) (alldata out : list N) (outpos rel cur : Z) : res (list N * Z) :=
  if cur <? stop then
    match fuel with
    | O => Err OutOfFuel
    | S f =>
        let max_read := Z.min (Z.shiftl (Z.shiftr cur b + 1) b) stop - cur in
        br_loop f b stop alldata (set_slice out outpos (outpos + max_read) (py_slice alldata (Some rel) (Some (rel + max_read))))
                (outpos + max_read) (rel + (4 + max_read)) (cur + (max_read + 4))
    end
  else Ok (out, outpos).
(** 78, 83: the position read() takes for a logical offset *)
Definition read_position (b o : Z) : Z := Z.shiftr (o + 1) b * 4 + (o + 1).
Definition on_boundary (b p : Z) : bool := Z.shiftl (Z.shiftr p b) b =? p.
(** 77-115 *)
Definition br_read (r : breader) (n : Z) : breader * res (list N) :=
  let b := br_b r in
  let start := read_position b (br_offset r) in
  let (alldata, pos) := io_read (br_file r) (br_pos r) (if n =? -1 then n else read_position b (br_offset r + n) - start) in
  let stop := start + zlen alldata in
  let r1 := mkBR (br_file r) pos b (br_offset r) in
  if zlen alldata =? 0 then (r1, Ok alldata) else
  let start1 := if on_boundary b start then start + 4 else start in
  let num_boundaries := Z.shiftr stop b - Z.shiftr start1 b in
  let real_length := stop - start1 - num_boundaries * 4 in
  let real_length1 := if on_boundary b stop then real_length - 4 else real_length in
  if real_length1 <? 0 then (r1, Err ValueError) else     (* bytearray(-1) *)
  match br_loop (length alldata) b stop alldata (repeat 0%N (Z.to_nat real_length1)) 0 0 start1 with
  | Err e => (r1, Err e)
  | Ok (out, outpos) =>
      if outpos =? real_length1 then (mkBR (br_file r) pos b (br_offset r + real_length1), Ok out) else (r1, Err AssertionError)
  end.
(** 118-119 *)
Definition br_tell (r : breader) : Z := br_pos r - Z.shiftr (br_pos r) (br_b r) * 4 - 1.
(** a sequence of calls (calls of collection.py 67-119) *)
Inductive bop := BRead (n : Z) | BSeek (o : Z) | BTell.
(** calls of collection.py 67-119 *)
Inductive bans := ABytes (x : res (list N)) | APos (x : res Z).
(** calls of collection.py 67-119 *)
Definition br_step (r : breader) (o : bop) : breader * bans :=
  match o with
  | BRead n => let (r1, x) := br_read r n in (r1, ABytes x)
  | BSeek o => let (r1, x) := br_seek r o in (r1, APos x)
  | BTell => (r, APos (Ok (br_tell r)))
  end.
(** calls of collection.py 67-119 *)
Fixpoint br_ops (r : breader) (os : list bop) : list bans :=
  match os with
  | [] => []
  | o :: q => let (r1, x) := br_step r o in x :: br_ops r1 q
  end.
