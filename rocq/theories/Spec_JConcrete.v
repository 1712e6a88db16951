(** What a node that keeps fields of its own should do. *)
From Coq Require Import Sorted.
From Verif Require Import PyBase Model_Query Model_Heap Model_Layer Model_JGroup Model_JConcrete.

(** the fields of an interface *)
Definition own_fields {O V} (i : iface O V) : list pystr := dkeys (i_get i).
(** An interface is sound for the values [fits] of its fields: a value that is set is got again, it changes no
    other field, and getters do not raise. *)
Definition sound {O V} (i : iface O V) (fits : pystr -> V -> Prop) : Prop :=
  dkeys (i_set i) = dkeys (i_get i) /\ NoDup (dkeys (i_get i)) /\
  (forall f g o, dget (i_get i) f = Some g -> exists v, g o = Ok v) /\
  (forall f st o v, dget (i_set i) f = Some st -> fits f v ->
     exists o', st o v = (o', Ok tt) /\
       (forall g, dget (i_get i) f = Some g -> g o' = Ok v) /\
       (forall f' g, f' <> f -> dget (i_get i) f' = Some g -> g o' = g o)).
(** calls that give no field of the interface a value it does not fit; the map is in the order of its keys, as a TreeMap is *)
Definition fitting {O V} (i : iface O V) (fits : pystr -> V -> Prop) (c : ncall V) : Prop :=
  match c with
  | NPut f v => In f (own_fields i) -> fits f v
  | NData d => StronglySorted (fun x y => str_cmp x y = Lt) (dkeys d) /\ forall f v, In f (own_fields i) -> dget d f = Some v -> fits f v
  end.
(** the value that a field has got, if the fields that [keeps] names are not lost when all fields are set *)
Definition given1 {V} (keeps : pystr -> Prop) (f : pystr) (was now : option V) (c : ncall V) : Prop :=
  match c with
  | NPut g v => (f = g /\ now = Some v) \/ (f <> g /\ now = was)
  | NData d => match dget d f with
               | Some v => now = Some v
               | None => (keeps f /\ now = was) \/ (~ keeps f /\ now = None)
               end
  end.
Inductive given {V} (keeps : pystr -> Prop) (f : pystr) : list (ncall V) -> option V -> Prop :=
| given_none : given keeps f [] None
| given_call l c was now : given keeps f l was -> given1 keeps f was now c -> given keeps f (l ++ [c]) now.
