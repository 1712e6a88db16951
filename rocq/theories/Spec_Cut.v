(** What a reader makes of the bytes it reads when some are missing or some follow. *)
From Verif Require Import PyBase.
Local Open Scope Z_scope.

(** the exceptions that msgpack raises for want of bytes: next() and skip() *)
Definition want (e : exn) : Prop := e = StopIteration \/ e = OutOfData.
(** A reader that gets a result and a rest from some bytes.  Of those bytes only the front b1 is there: either the reader needs no more, and has the same
    result, or bytes that it needs are missing, and it raises. *)
Definition cut {A} (m : nat) (F F' : list N -> res (A * list N)) : Prop := forall b1 b2 a r, (length b1 < m)%nat -> F (b1 ++ b2) = Ok (a, r) ->
  (exists r1, r = r1 ++ b2 /\ F' b1 = Ok (a, r1) /\ exists p, b1 = p ++ r1) \/
  (exists b3 e, b3 <> [] /\ b2 = b3 ++ r /\ want e /\ F' b1 = Err e).
(** more bytes do not change the result *)
Definition extends {A} (F F' : list N -> res (A * list N)) : Prop := forall b1 b2 a r, F b1 = Ok (a, r) -> F' (b1 ++ b2) = Ok (a, r ++ b2).
