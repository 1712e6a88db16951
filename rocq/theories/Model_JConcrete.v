(** Nodes of the Java port whose class keeps fields of its own: java/core/src/main/java/se/lth/cs/docria/ConcreteNode.java 26-99,
    with the methods of Node.java that it overrides or inherits, and what MsgpackCodec.java does to a node it reads.
    [O] is what an object of the class holds besides the map of Node, [V] are values, null among them; no value (None) is
    NullValue.INSTANCE.  A getter may raise; a setter may raise too, and the object is then as the setter has left it.
    Maps are lists in the order of their keys (TreeMap).
    Simplifications: getters do not change the object; methods of the class that neither get nor set are not seen. *)
From Verif Require Import PyBase Model_Heap Model_Layer Model_JGroup.

(** Function<Node, Value> and BiConsumer<Node, Value>, ConcreteNode.java 28-29 *)
Definition getter (O V : Type) : Type := O -> res V.
Definition setter (O V : Type) : Type := O -> V -> O * res unit.
(** ConcreteNode.java 27-35: NodeInterface *)
Record iface (O V : Type) := mkI { i_get : dict (getter O V); i_set : dict (setter O V) }.
Arguments mkI {O V}. Arguments i_get {O V}. Arguments i_set {O V}.
(** ConcreteNode.java 37-46: Builder.addField *)
Definition add_field {O V} (i : iface O V) (f : pystr) (g : getter O V) (st : setter O V) : iface O V :=
  mkI (tm_put f g (i_get i)) (tm_put f st (i_set i)).
(** ConcreteNode.java 37-50: a new Builder, calls of addField, build *)
Definition build_iface {O V} (l : list (pystr * (getter O V * setter O V))) : iface O V :=
  fold_left (fun i x => add_field i (fst x) (fst (snd x)) (snd (snd x))) l (mkI [] []).

(** Node.java 26-38: the object and the map data of Node *)
Record cnode (O V : Type) := mkC { c_own : O; c_data : dict V }.
Arguments mkC {O V}. Arguments c_own {O V}. Arguments c_data {O V}.
(** Node.java 36-38 *)
Definition c_new {O V} (o : O) : cnode O V := mkC o [].

(** ConcreteNode.java 73-80: get *)
Definition c_get {O V} (i : iface O V) (n : cnode O V) (f : pystr) : res (option V) :=
  match dget (i_get i) f with
  | Some g => let* v := g (c_own n) in Ok (Some v)
  | None => Ok (dget (c_data n) f)
  end.
(** Node.java 295-301: get with a default, which ConcreteNode does not override *)
Definition c_get_or {O V} (n : cnode O V) (f : pystr) (d : V) : V := match dget (c_data n) f with Some v => v | None => d end.
(** ConcreteNode.java 82-91: put *)
Definition c_put {O V} (i : iface O V) (n : cnode O V) (f : pystr) (v : V) : cnode O V * res unit :=
  match dget (i_set i) f with
  | Some st => let '(o, r) := st (c_own n) v in (mkC o (c_data n), r)
  | None => (mkC (c_own n) (tm_put f v (c_data n)), Ok tt)
  end.
(** ConcreteNode.java 93-96: has *)
Definition c_has {O V} (i : iface O V) (n : cnode O V) (f : pystr) : bool := dmem (i_get i) f || dmem (c_data n) f.
(** Node.java 267-269: remove, which ConcreteNode does not override *)
Definition c_remove {O V} (n : cnode O V) (f : pystr) : cnode O V := mkC (c_own n) (ddel (c_data n) f).
(** ConcreteNode.java 61-68: setters.forEach; the object, the map that was given, and how it ended *)
Fixpoint set_fields {O V} (ss : dict (setter O V)) (o : O) (d : dict V) : O * dict V * res unit :=
  match ss with
  | [] => (o, d, Ok tt)
  | (k, st) :: r =>
      match dget d k with
      | None => set_fields r o d
      | Some v => match st o v with
                  | (o', Ok _) => set_fields r o' (ddel d k)
                  | (o', Err e) => (o', d, Err e)
                  end
      end
  end.
(** ConcreteNode.java 59-71: setData; the map that is given is kept, not copied (Node.java 132-134) *)
Definition c_set {O V} (i : iface O V) (n : cnode O V) (d : dict V) : cnode O V * res unit :=
  match set_fields (i_set i) (c_own n) d with
  | (o, d', Ok _) => (mkC o d', Ok tt)
  | (o, _, Err e) => (mkC o (c_data n), Err e)
  end.
(** ConcreteNode.java 56: getters.forEach; the calls made, and how it ended *)
Fixpoint visit_own {O V} (gs : dict (getter O V)) (o : O) : list (pystr * V) * res unit :=
  match gs with
  | [] => ([], Ok tt)
  | (k, g) :: r => match g o with
                   | Ok v => let '(l, e) := visit_own r o in ((k, v) :: l, e)
                   | Err e => ([], Err e)
                   end
  end.
(** ConcreteNode.java 52-57: forEach *)
Definition c_visit {O V} (i : iface O V) (n : cnode O V) : list (pystr * V) * res unit :=
  let '(l, e) := visit_own (i_get i) (c_own n) in (c_data n ++ l, e).

(** ** calls *)
(** put and Node.setNodeData (Node.java 136-138, also Builder.build, 111-116) *)
Inductive ncall (V : Type) := NPut (f : pystr) (v : V) | NData (d : dict V).
Arguments NPut {V}. Arguments NData {V}.
(** ConcreteNode.java 59-71, 82-91 *)
Definition c_call {O V} (i : iface O V) (n : cnode O V) (c : ncall V) : cnode O V * res unit :=
  match c with NPut f v => c_put i n f v | NData d => c_set i n d end.
(** a sequence of calls (ConcreteNode.java 59-91), which an exception ends *)
Fixpoint c_calls {O V} (i : iface O V) (n : cnode O V) (l : list (ncall V)) : cnode O V * res unit :=
  match l with
  | [] => (n, Ok tt)
  | c :: r => match c_call i n c with (n', Ok _) => c_calls i n' r | (n', Err e) => (n', Err e) end
  end.
(** the same calls on a Node (Node.java 132-134, 209-212) *)
Definition p_call {V} (m : dict V) (c : ncall V) : dict V := match c with NPut f v => tm_put f v m | NData d => d end.
(** Node.java 132-134, 209-212 *)
Definition p_calls {V} (l : list (ncall V)) : dict V := fold_left p_call l [].

(** ** a node that is read *)
(** MsgpackCodec.java 672-678, 751-776: a cell that is not nil is put, as a number or as a placeholder for what it refers to *)
Definition read_cell {O V} (i : iface O V) (n : cnode O V) (f : pystr) (c : option V) : cnode O V * res unit :=
  match c with Some v => c_put i n f v | None => (n, Ok tt) end.
(** MsgpackCodec.java 782-832: the placeholder is taken out (intValue, or a cast) and replaced; has was true, so get is a value *)
Definition resolve_cell {O V} (rep : V -> res V) (i : iface O V) (n : cnode O V) (f : pystr) : cnode O V * res unit :=
  if c_has i n f then
    match c_get i n f with
    | Ok (Some v) => match rep v with Ok w => c_put i n f w | Err e => (n, Err e) end
    | Ok None => (n, Err TypeError)
    | Err e => (n, Err e)
    end
  else (n, Ok tt).
(** both, one after the other (MsgpackCodec.java 853-860) *)
Definition read_reference {O V} (rep : V -> res V) (i : iface O V) (n : cnode O V) (f : pystr) (c : option V) : cnode O V * res unit :=
  match read_cell i n f c with
  | (n', Ok _) => resolve_cell rep i n' f
  | (n', Err e) => (n', Err e)
  end.
