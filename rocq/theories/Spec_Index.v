(** What a search in an index should find. *)
From Coq Require Import QArith Qpower.
From Verif Require Import PyBase Model_Heap Model_Msgpack Model_Document Model_Collection Model_Lazy Spec_Collection.
Local Open Scope Z_scope.

(** ** equality of Python values that can be dictionary keys *)
(** the value of an IEEE 754 double *)
Definition exponent (b : N) : Z := (Z.of_N b / 2 ^ 52) mod 2 ^ 11.
Definition fraction (b : N) : Z := Z.of_N b mod 2 ^ 52.
Definition negative (b : N) : Prop := 2 ^ 63 <= Z.of_N b.
(** magnitude: 1.fraction * 2^(exponent-1023), or 0.fraction * 2^-1022 *)
Definition magnitude (b : N) : Q :=
  if exponent b =? 0 then (inject_Z (fraction b) / 2 ^ 52 * 2 ^ (-1022))%Q
  else ((1 + inject_Z (fraction b) / 2 ^ 52) * 2 ^ (exponent b - 1023))%Q.
(** o is the number q *)
Inductive is_number : mobj -> Q -> Prop :=
| num_bool (b : bool) : is_number (MBool b) (if b then 1%Q else 0%Q)
| num_int i : is_number (MInt i) (inject_Z i)
| num_pos b : exponent b <> 2047 -> ~ negative b -> is_number (MFloat b) (magnitude b)
| num_neg b : exponent b <> 2047 -> negative b -> is_number (MFloat b) (- magnitude b)%Q.
(** a == b for values that are not lists or dicts; NaN equals nothing *)
Inductive py_equal : mobj -> mobj -> Prop :=
| pe_nil : py_equal MNil MNil
| pe_str x : py_equal (MStr x) (MStr x)
| pe_bin x : py_equal (MBin x) (MBin x)
| pe_num a b p q : is_number a p -> is_number b q -> (p == q)%Q -> py_equal a b
| pe_inf a b : exponent a = 2047 -> fraction a = 0 -> exponent b = 2047 -> fraction b = 0 -> (negative a <-> negative b) -> py_equal (MFloat a) (MFloat b).

(** ** the documents to find *)
(** every condition is on an indexed property and holds for the document *)
Definition matches (names : list pystr) (conds : dict mobj) (d : doc) : Prop :=
  conds <> [] /\ forall k v, In (k, v) conds -> In k names /\ exists props w, d_props d = MMap props /\ In (k, w) props /\ py_equal v w.
Inductive container : mobj -> Prop := co_arr l : container (MArr l) | co_map d : container (MMap d).
(** the values of the indexed properties can be dictionary keys *)
Definition indexable (names : list pystr) (d : doc) : Prop :=
  forall k v props, d_props d = MMap props -> In k names -> In (k, v) props -> ~ container v.
(** the elements of l whose document is selected, in order *)
Definition picked {A} (sel : doc -> bool) (ds : list doc) (l : list A) : list A :=
  map snd (filter (fun p => sel (fst p)) (combine ds l)).
