(** Python literals, and what a representation tells. *)
From Verif Require Import PyBase Model_Heap Model_Types Model_Query Spec_Xml.
Local Open Scope Z_scope.

Definition is_hex (d : N) : Prop := (48 <= d <= 57)%N \/ (97 <= d <= 102)%N.
Definition hex_of (d : N) : N := if (d <? 58)%N then (d - 48)%N else (d - 87)%N.
Definition hexes (ds : list N) : N := fold_left (fun a d => (16 * a + hex_of d)%N) ds 0%N.
(** text that stands for the character c between quotes q *)
Inductive piece (q : N) : pystr -> N -> Prop :=
| pc_self c : c <> q -> c <> 92%N -> (32 <= c)%N -> c <> 127%N -> piece q [c] c
| pc_escape e c : In (e, c) [(q, q); (92, 92); (116, 9); (110, 10); (114, 13)]%N -> piece q [92%N; e] c
| pc_hex e k ds : In (e, k) [(120%N, 2); (117%N, 4); (85%N, 8)] -> zlen ds = k -> Forall is_hex ds -> piece q (92%N :: e :: ds) (hexes ds).
(** t is the string literal of x: in single quotes, unless x has some and no double quotes *)
Definition literal (x t : pystr) : Prop :=
  exists q ps, (q = 34%N /\ In 39%N x /\ ~ In 34%N x \/ q = 39%N /\ (In 39%N x -> In 34%N x)) /\ Forall2 (piece q) ps x /\ t = [q] ++ List.concat ps ++ [q].
(** characters of strings and bytes *)
Definition chars (x : pystr) : Prop := Forall (fun c => (c < 1114112)%N) x.
Definition shown_value (v : value) : Prop := match v with VStr x => chars x | VBytes x => Forall (fun c => (c < 256)%N) x | _ => True end.
Inductive value_text : value -> pystr -> Prop :=
| vt_none : value_text VNone (s "None")
| vt_bool (b : bool) : value_text (VBool b) (if b then s "True" else s "False")
| vt_int i t : int_text i t -> value_text (VInt i) t
| vt_str x t : literal x t -> value_text (VStr x) t
| vt_bytes x t : literal x t -> value_text (VBytes x) (s "b" ++ t).

(** field names that can be told from what follows them *)
Fixpoint shown_pred (p : pred) : Prop :=
  match p with
  | PEq f v | PNeq f v | POrd _ f v => ~ In 125%N f /\ shown_value v
  | PAnd p q | POr p q => shown_pred p /\ shown_pred q
  | PNot p => shown_pred p
  | _ => False
  end.
(** the predicate with every >= made > *)
Fixpoint strict (p : pred) : pred :=
  match p with
  | POrd OGe f v => POrd OGt f v
  | PAnd p q => PAnd (strict p) (strict q)
  | POr p q => POr (strict p) (strict q)
  | PNot p => PNot (strict p)
  | _ => p
  end.
Fixpoint weak (p : pred) : Prop :=
  match p with POrd OGe _ _ => True | PAnd p q | POr p q => weak p \/ weak q | PNot p => weak p | _ => False end.
(** values that have a representation: no floats (not modelled), no ints that Python refuses to show *)
Definition plain (v : value) : Prop := match v with VNone | VBool _ | VStr _ | VBytes _ => True | VInt i => forall t, int_text i t -> zlen t <= 4300 | _ => False end.
Fixpoint plain_pred (p : pred) : Prop :=
  match p with PEq _ v | PNeq _ v | POrd _ _ v => plain v | PAnd p q | POr p q => plain_pred p /\ plain_pred q | PNot p => plain_pred p | _ => False end.
(** what the representation of a predicate looks like *)
Inductive pred_text : pred -> pystr -> Prop :=
| pt_eq f v t : value_text v t -> pred_text (PEq f v) (s "({" ++ f ++ s "} == " ++ t ++ s ")")
| pt_neq f v t : value_text v t -> pred_text (PNeq f v) (s "({" ++ f ++ s "} != " ++ t ++ s ")")
| pt_lt f v t : value_text v t -> pred_text (POrd OLt f v) (s "({" ++ f ++ s "} < " ++ t ++ s ")")
| pt_le f v t : value_text v t -> pred_text (POrd OLe f v) (s "({" ++ f ++ s "} <= " ++ t ++ s ")")
| pt_gt o f v t : o = OGt \/ o = OGe -> value_text v t -> pred_text (POrd o f v) (s "({" ++ f ++ s "} > " ++ t ++ s ")")
| pt_and p q t u : pred_text p t -> pred_text q u -> pred_text (PAnd p q) (s "And(" ++ t ++ s ", " ++ u ++ s ")")
| pt_or p q t u : pred_text p t -> pred_text q u -> pred_text (POr p q) (s "Or(" ++ t ++ s ", " ++ u ++ s ")")
| pt_not p t : pred_text p t -> pred_text (PNot p) (s "Not(" ++ t ++ s ")").
