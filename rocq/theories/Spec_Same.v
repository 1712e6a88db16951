(** When two data types are one and the same, independently of how this is computed. *)
From Verif Require Import PyBase Model_Heap.
Local Open Scope Z_scope.

(** the dictionaries have the same keys, with values related by R *)
Definition options_match (R : value -> value -> Prop) (a b : dict value) : Prop :=
  forall k, match dget a k, dget b k with Some x, Some y => R x y | None, None => True | _, _ => False end.
(** options that a data type can hold: every key once *)
Definition options_ok (d : dtype) : Prop := NoDup (dkeys (dt_opts d)).
