(** What the Java sweeps compute, in terms of the Python ones. *)
From Verif Require Import PyBase.
Local Open Scope Z_scope.

(** l with elements left out *)
Inductive subseq {A} : list A -> list A -> Prop :=
| sub_nil : subseq [] []
| sub_keep x l m : subseq l m -> subseq (x :: l) (x :: m)
| sub_skip x l m : subseq l m -> subseq l (x :: m).
(** p is the longer span *)
Definition longer (p q : Z * Z) : Prop := snd q - fst q < snd p - fst p.
