(** The buffer that collects bytes (java/core/src/main/java/se/lth/cs/docria/io/ByteOutputBuffer.java 23-112).
    An array is a list of bytes of fixed length; [current] is the last element of [buffers], kept apart. *)
From Verif Require Import PyBase.
Local Open Scope Z_scope.

(** io/ByteOutputBuffer.java 24-28 *)
Record obuf := mkOB { ob_size : Z; ob_full : list (list N); ob_cur : list N; ob_pos : Z; ob_written : Z }.
(** int arithmetic wraps around (io/ByteOutputBuffer.java 61, 82) *)
Definition wrap32 (z : Z) : Z := (z + 2147483648) mod 4294967296 - 2147483648.
(** new byte[n] (io/ByteOutputBuffer.java 32, 38, 55, 70, 85, 97) *)
Definition new_bytes (n : Z) : res (list N) := if n <? 0 then Err ValueError else Ok (repeat 0%N (Z.to_nat n)).
(** io/ByteOutputBuffer.java 36-40: ByteOutputBuffer(int); the other constructor uses 1024 *)
Definition ob_new (n : Z) : res obuf := let* cur := new_bytes n in Ok (mkOB n [] cur 0 0).
(** System.arraycopy (io/ByteOutputBuffer.java 79, 105): nothing is copied when a range is outside its array *)
Definition arraycopy (src : list N) (so : Z) (dst : list N) (d0 n : Z) : res (list N) :=
  if (so <? 0) || (d0 <? 0) || (n <? 0) || (zlen src <? so + n) || (zlen dst <? d0 + n) then Err IndexError
  else Ok (firstn (Z.to_nat d0) dst ++ firstn (Z.to_nat n) (skipn (Z.to_nat so) src) ++ skipn (Z.to_nat (d0 + n)) dst).
(** a new current buffer when the current one is full (io/ByteOutputBuffer.java 54-58, 69-73, 84-88) *)
Definition ob_turn (b : obuf) : obuf :=
  if ob_pos b =? zlen (ob_cur b) then mkOB (ob_size b) (ob_full b ++ [ob_cur b]) (repeat 0%N (Z.to_nat (ob_size b))) 0 (ob_written b) else b.
(** io/ByteOutputBuffer.java 52-62: write(int); an array of no bytes has no position 0 *)
Definition ob_write1 (b : obuf) (x : Z) : obuf * res unit :=
  let b1 := ob_turn b in
  if zlen (ob_cur b1) <=? ob_pos b1 then (mkOB (ob_size b1) (ob_full b1) (ob_cur b1) (ob_pos b1 + 1) (ob_written b1), Err IndexError) else
  (mkOB (ob_size b1) (ob_full b1) (upd_nth (ob_cur b1) (Z.to_nat (ob_pos b1)) (Z.to_N (x mod 256))) (ob_pos b1 + 1) (wrap32 (ob_written b1 + 1)), Ok tt).
(** io/ByteOutputBuffer.java 76-89: the loop *)
Fixpoint ob_loop (fuel : nat) (data : list N) (offset len left_ : Z) (b : obuf) : obuf * res unit :=
  if left_ <=? 0 then (b, Ok tt) else
  match fuel with
  | O => (b, Err OutOfFuel)
  | Datatypes.S k =>
      let n := Z.min (zlen (ob_cur b) - ob_pos b) left_ in
      match arraycopy data (wrap32 (offset + (len - left_))) (ob_cur b) (ob_pos b) n with
      | Err e => (b, Err e)
      | Ok cur =>
          let b1 := mkOB (ob_size b) (ob_full b) cur (ob_pos b + n) (wrap32 (ob_written b + n)) in
          ob_loop k data offset len (left_ - n) (if 0 <? left_ - n then ob_turn b1 else b1)
      end
  end.
(** io/ByteOutputBuffer.java 68-90: write(byte[], int, int) *)
Definition ob_write_fuel (fuel : nat) (b : obuf) (data : list N) (offset len : Z) : obuf * res unit := ob_loop fuel data offset len len (ob_turn b).
(** io/ByteOutputBuffer.java 68-90; at least one byte is copied each time, unless the buffers are empty *)
Definition ob_write (b : obuf) (data : list N) (offset len : Z) : obuf * res unit := ob_write_fuel (Datatypes.S (Z.to_nat len)) b data offset len.
(** io/ByteOutputBuffer.java 64-66: write(byte[]) *)
Definition ob_write_all (b : obuf) (data : list N) : obuf * res unit := ob_write b data 0 (zlen data).
(** io/ByteOutputBuffer.java 92-94: length *)
Definition ob_length (b : obuf) : Z := ob_written b.
(** io/ByteOutputBuffer.java 96-111: toByteArray *)
Fixpoint ob_collect (bufs : list (list N)) (out : list N) (pos left_ : Z) : res (list N) :=
  if left_ <=? 0 then Ok out else
  match bufs with
  | [] => Err StopIteration
  | x :: r =>
      let n := Z.min (zlen x) left_ in
      let* out' := arraycopy x 0 out pos n in ob_collect r out' (pos + n) (left_ - n)
  end.
(** io/ByteOutputBuffer.java 96-111 *)
Definition ob_array (b : obuf) : res (list N) :=
  let* out := new_bytes (ob_written b) in
  ob_collect (ob_full b ++ [ob_cur b]) out 0 (ob_written b).
(** io/DeflateCodec.java 45-59, 72-89: the loop of compress and of decompress.  java.util.zip is not modelled: [step] is deflate or inflate
    into an array of 1024 bytes (what it wrote, at the beginning of the array, and what it is afterwards), [finished] its finished;
    only inflate raises, and what it raises comes out as an IOError (87-88). *)
Fixpoint zcopy {St : Type} (fuel : nat) (step : St -> res (list N * St)) (finished : St -> bool) (st : St) (b : obuf) : res (list N) :=
  match fuel with
  | O => Err OutOfFuel
  | Datatypes.S k =>
      match step st with
      | Err _ => Err IOError
      | Ok (out, st1) =>
          match ob_write b (out ++ repeat 0%N (1024 - length out)) 0 (zlen out) with
          | (_, Err e) => Err e
          | (b1, Ok _) => if finished st1 then ob_array b1 else zcopy k step finished st1 b1
          end
      end
  end.
(** io/DeflateCodec.java 32-60, 62-90: compress and decompress, up to the class they drive *)
Definition zrun {St : Type} (fuel : nat) (step : St -> res (list N * St)) (finished : St -> bool) (st : St) : res (list N) :=
  let* b := ob_new 1024 in zcopy fuel step finished st b.
