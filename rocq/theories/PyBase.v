(** Python basics shared by all model files: exceptions as values, strings,
    dictionaries with insertion order, list indexing and slicing, stable sort.
    This file models CPython built-ins, not code of /repo. *)
From Coq Require Export List ZArith NArith Bool Lia String Ascii Permutation Sorted.
Export ListNotations.
Set Implicit Arguments.
Open Scope list_scope.
Notation length := List.length.

(** Exceptions that the modelled code can raise. *)
Inductive exn :=
| AssertionError | ValueError | KeyError | IndexError | TypeError | AttributeError
| SchemaError | SchemaValidationError | DataValidationError | DataError
| NotImplementedError | StopIteration | IOError | OverflowError | UnicodeError | RuntimeError
| OutOfData   (* msgpack.exceptions.OutOfData *)
| Unmodelled  (* not a Python exception: the model does not cover this conversion *)
| OutOfFuel.   (* not a Python exception: a fuelled loop ran out; excluded by theorems *)

Inductive res (A : Type) := Ok (a : A) | Err (e : exn).
Arguments Ok {A} a. Arguments Err {A} e.

Definition rbind {A B} (r : res A) (f : A -> res B) : res B :=
  match r with Ok a => f a | Err e => Err e end.
Notation "'let*' x ':=' r 'in' k" := (rbind r (fun x => k))
  (at level 200, x pattern, right associativity).

Definition rmap {A B} (f : A -> B) (r : res A) : res B :=
  match r with Ok a => Ok (f a) | Err e => Err e end.

(** [for x in l: y.append(f(x))], stopping at the first exception. *)
Fixpoint mapM {A B} (f : A -> res B) (l : list A) : res (list B) :=
  match l with
  | [] => Ok []
  | x :: r => let* y := f x in let* ys := mapM f r in Ok (y :: ys)
  end.

(** [all(map(f, l))]: stops at the first false, raises where f raises. *)
Fixpoint allM {A} (f : A -> res bool) (l : list A) : res bool :=
  match l with
  | [] => Ok true
  | x :: r => let* b := f x in if b then allM f r else Ok false
  end.

(** Python strings: lists of code points.  [s] turns a literal into one. *)
Definition pystr := list N.
Fixpoint s (x : string) : pystr :=
  match x with
  | EmptyString => []
  | String c r => N_of_ascii c :: s r
  end.

Fixpoint list_eqb {A} (eqb : A -> A -> bool) (a b : list A) : bool :=
  match a, b with
  | [], [] => true
  | x :: a', y :: b' => eqb x y && list_eqb eqb a' b'
  | _, _ => false
  end.
Definition str_eqb : pystr -> pystr -> bool := list_eqb N.eqb.

(** Dictionaries with string keys, in insertion order. *)
Definition dict (A : Type) := list (pystr * A).
Section Dict.
Context {A : Type}.
(** [d.get(k)] *)
Fixpoint dget (d : dict A) (k : pystr) : option A :=
  match d with
  | [] => None
  | (k', v) :: r => if str_eqb k k' then Some v else dget r k
  end.
(** [k in d] *)
Definition dmem (d : dict A) (k : pystr) : bool :=
  match dget d k with Some _ => true | None => false end.
(** [d[k]] *)
Definition dgetE (d : dict A) (k : pystr) : res A :=
  match dget d k with Some v => Ok v | None => Err KeyError end.
(** [d[k] = v]: overwrite in place, or append a new key *)
Fixpoint dset (d : dict A) (k : pystr) (v : A) : dict A :=
  match d with
  | [] => [(k, v)]
  | (k', v') :: r => if str_eqb k k' then (k', v) :: r else (k', v') :: dset r k v
  end.
(** [del d[k]] (no error if absent; callers check) *)
Fixpoint ddel (d : dict A) (k : pystr) : dict A :=
  match d with
  | [] => []
  | (k', v') :: r => if str_eqb k k' then r else (k', v') :: ddel r k
  end.
Definition dkeys (d : dict A) : list pystr := map fst d.
(** [d.update(e)] *)
Definition dupdate (d e : dict A) : dict A :=
  fold_left (fun acc kv => dset acc (fst kv) (snd kv)) e d.
End Dict.

(** Python list indexing with an integer (negative counts from the end). *)
Definition py_index (len i : Z) : option nat :=
  if (i <? 0)%Z
  then (if (0 <=? i + len)%Z then Some (Z.to_nat (i + len)) else None)
  else (if (i <? len)%Z then Some (Z.to_nat i) else None).
Definition zlen {A} (l : list A) : Z := Z.of_nat (length l).
Definition py_getitem {A} (l : list A) (i : Z) : res A :=
  match py_index (zlen l) i with
  | Some k => match nth_error l k with Some x => Ok x | None => Err IndexError end
  | None => Err IndexError
  end.
Fixpoint upd_nth {A} (l : list A) (k : nat) (x : A) : list A :=
  match l, k with
  | [], _ => []
  | _ :: r, O => x :: r
  | y :: r, S k' => y :: upd_nth r k' x
  end.
Definition py_setitem {A} (l : list A) (i : Z) (x : A) : res (list A) :=
  match py_index (zlen l) i with
  | Some k => Ok (upd_nth l k x)
  | None => Err IndexError
  end.

(** [slice(a, b).indices(len)] for step 1 (CPython PySlice_AdjustIndices). *)
Definition slice_norm (len : Z) (i : Z) : Z :=
  if (i <? 0)%Z then Z.max (i + len) 0 else Z.min i len.
Definition slice_start (len : Z) (a : option Z) : Z :=
  match a with None => 0%Z | Some i => slice_norm len i end.
Definition slice_stop (len : Z) (b : option Z) : Z :=
  match b with None => len | Some i => slice_norm len i end.
(** [l[a:b]] *)
Definition sub {A} (l : list A) (start stop : Z) : list A :=
  firstn (Z.to_nat (stop - start)) (skipn (Z.to_nat start) l).
Definition py_slice {A} (l : list A) (a b : option Z) : list A :=
  sub l (slice_start (zlen l) a) (slice_stop (zlen l) b).

(** [range(n)] *)
Definition zrange (n : nat) : list Z := map Z.of_nat (seq 0 n).

(** [list.sort(key=...)]: CPython's sort is stable; modelled by stable insertion. *)
Section Sort.
Context {A K : Type} (key : A -> K) (leb : K -> K -> bool).
Fixpoint sinsert (x : A) (l : list A) : list A :=
  match l with
  | [] => [x]
  | y :: r => if leb (key x) (key y) then x :: l else y :: sinsert x r
  end.
Definition ssort (l : list A) : list A := fold_right sinsert [] l.
End Sort.

(** Lexicographic order on pairs of ints (tuple comparison). *)
Definition lex_leb (a b : Z * Z) : bool :=
  (fst a <? fst b)%Z || ((fst a =? fst b)%Z && (snd a <=? snd b)%Z).
