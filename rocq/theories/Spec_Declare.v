(** Declaring layers: what is accepted as a type, and programs that do not share schema objects. *)
From Verif Require Import PyBase Model_Text Model_Heap Model_Layer Model_Types Model_Msgpack Model_Document Model_Declare.
Local Open Scope Z_scope.

(** ** what is given as a type *)
Inductive gives : given -> dtype -> Prop :=
| gv_type t : gives (GType t) t
| gv_call t : gives (GCall (Ok (Some t))) t.
Inductive refuses : given -> exn -> Prop :=
| rf_other : refuses GOther AssertionError
| rf_answer : refuses (GCall (Ok None)) AssertionError
| rf_raise e : refuses (GCall (Err e)) e.
Definition gives_field (kg : pystr * given) (kt : pystr * dtype) : Prop := fst kt = fst kg /\ gives (snd kg) (snd kt).

(** ** layers and their schema objects *)
Definition in_use (st : store) (i : nat) : Prop := exists l x, nth_error (st_layers st) l = Some x /\ sl_schema x = i.
(** a schema object is not touched any more, and not used again, once there is a layer with it *)
Definition careful (st : store) (c : dcall) : Prop :=
  match c with DAdd i _ _ | DSet i _ | DLayer i => ~ in_use st i | _ => True end.
Fixpoint all_careful (st : store) (cs : list dcall) : Prop :=
  match cs with [] => True | c :: r => careful st c /\ all_careful (fst (dstep st c)) r end.
(** the default values of a layer are those its fields declare *)
Definition up_to_date (st : store) (l : nat) : Prop := forall f v,
  In (f, v) (sl_defaults (slayer_at st l)) <-> exists t, In (f, t) (declared_by st l) /\ dget (dt_opts t) (s "default") = Some v /\ v <> VNone.
