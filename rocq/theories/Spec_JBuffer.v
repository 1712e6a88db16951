(** What is written to a buffer of bytes. *)
From Verif Require Import PyBase Model_JBuffer.
Local Open Scope Z_scope.

Inductive bop := WByte (x : Z) | WAll (data : list N) | WSlice (data : list N) (offset len : Z) | WNothing.
(** the range is inside the array *)
Definition bop_ok (o : bop) : Prop :=
  match o with WSlice data offset len => len <= 0 \/ 0 <= offset /\ offset + len <= zlen data | _ => True end.
(** an array has fewer than 2^31 elements *)
Definition piece_ok (o : bop) : Prop := match o with WAll data | WSlice data _ _ => zlen data < 2147483648 | _ => True end.
(** the bytes *)
Definition bop_bytes (o : bop) : list N :=
  match o with
  | WByte x => [Z.to_N (x mod 256)]
  | WAll data => data
  | WSlice data offset len => firstn (Z.to_nat len) (skipn (Z.to_nat offset) data)
  | WNothing => []
  end.
(** flush and close do nothing (io/ByteOutputBuffer.java 42-50) *)
Definition bop_run (b : obuf) (o : bop) : obuf * res unit :=
  match o with
  | WByte x => ob_write1 b x
  | WAll data => ob_write_all b data
  | WSlice data offset len => ob_write b data offset len
  | WNothing => (b, Ok tt)
  end.
Fixpoint bops_run (b : obuf) (l : list bop) : obuf * res unit :=
  match l with
  | [] => (b, Ok tt)
  | o :: r => match bop_run b o with (b1, Ok _) => bops_run b1 r | e => e end
  end.
(** b holds the bytes c *)
Definition holds (b : obuf) (c : list N) : Prop := ob_array b = Ok c /\ ob_length b = zlen c.
(** after some calls, each writing a piece, the class is in state [st'] and has not finished before *)
Inductive zpieces {St : Type} (step : St -> res (list N * St)) (finished : St -> bool) : St -> list (list N) -> St -> Prop :=
| zp_one st out st1 : step st = Ok (out, st1) -> (length out <= 1024)%nat -> zpieces step finished st [out] st1
| zp_more st out st1 l st' : step st = Ok (out, st1) -> (length out <= 1024)%nat -> finished st1 = false -> zpieces step finished st1 l st' -> zpieces step finished st (out :: l) st'.
