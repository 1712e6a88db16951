(** What field comparisons and queries are to mean. *)
From Verif Require Import PyBase Model_Heap Model_Layer Model_Query.
From Coq Require Export QArith.
Local Open Scope Z_scope.

Definition pow2 (e : Z) : Q := Qpower (2 # 1) e.
(** The number a value stands for.  A double (IEEE 754, binary64) with sign bit g, exponent ex and fraction fr: *)
Inductive number : value -> Q -> Prop :=
| nu_int i : number (VInt i) (inject_Z i)
| nu_true : number (VBool true) (inject_Z 1)
| nu_false : number (VBool false) (inject_Z 0)
| nu_normal g ex fr bits : (g = 0 \/ g = 1) -> 0 < ex < 2047 -> 0 <= fr < 2 ^ 52 -> Z.of_N bits = (g * 2048 + ex) * 2 ^ 52 + fr ->
    number (VFloat bits) (inject_Z (if g =? 0 then fr + 2 ^ 52 else - (fr + 2 ^ 52)) * pow2 (ex - 1075))
| nu_small g fr bits : (g = 0 \/ g = 1) -> 0 <= fr < 2 ^ 52 -> Z.of_N bits = g * 2048 * 2 ^ 52 + fr ->
    number (VFloat bits) (inject_Z (if g =? 0 then fr else - fr) * pow2 (-1074)).
Definition ord_num (o : ord) (x y : Q) : Prop :=
  match o with OLt => (x < y)%Q | OLe => (x <= y)%Q | OGt => (y < x)%Q | OGe => (y <= x)%Q end.
(** dictionary order of strings by code point *)
Definition str_lt (a b : list N) : Prop :=
  (exists c r, b = a ++ c :: r) \/ exists p x y r r', a = p ++ x :: r /\ b = p ++ y :: r' /\ (x < y)%N.
Definition ord_str (o : ord) (x y : list N) : Prop :=
  match o with OLt => str_lt x y | OLe => str_lt x y \/ x = y | OGt => str_lt y x | OGe => str_lt y x \/ x = y end.
(** the nodes of a collection, when it yields nodes only *)
Definition nodes_of (h : heap) (c : coll) (ns : list nid) : Prop := coll_iter h c = Ok (map Some ns).
(** some query returned these nodes *)
Definition found (r : res coll) (h : heap) (ns : list nid) : Prop := exists q, r = Ok q /\ nodes_of h q ns /\ coll_len h q = Ok (zlen ns).
Definition mem (n : nid) (l : list nid) : bool := existsb (Nat.eqb n) l.
(** The other doubles: an infinity (exponent all ones, fraction 0) and NaNs *)
Inductive infinite : bool -> value -> Prop :=
| inf_plus bits : Z.of_N bits = 2047 * 2 ^ 52 -> infinite true (VFloat bits)
| inf_minus bits : Z.of_N bits = (2048 + 2047) * 2 ^ 52 -> infinite false (VFloat bits).
Inductive nan : value -> Prop :=
| nan_intro g fr bits : (g = 0 \/ g = 1) -> 0 < fr < 2 ^ 52 -> Z.of_N bits = (g * 2048 + 2047) * 2 ^ 52 + fr -> nan (VFloat bits).
(** any number, infinities and NaNs included *)
Definition numeric (v : value) : Prop := (exists x, number v x) \/ (exists s, infinite s v) \/ nan v.
