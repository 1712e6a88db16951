(** The span sweeps of the Java port: DominantRight (java/core algorithms/DominantRight.java 8-110).  Java's int is a Z here: exact for
    the offsets of spans, which lie in 0..2^31-1. *)
From Verif Require Import PyBase Model_Heap Model_Layer Model_Text Model_Types Model_Document Model_Algorithm.
Local Open Scope Z_scope.

Section Resolve.
Context {A : Type}.
(** DominantRight.java 40-58: a Point: segment, offset, start.  61-71: the two points of each segment.  compareTo (52-57) orders by
    offset, and starts before stops: the key (offset, 0) or (offset, 1).  Segments are told apart by identity (84): here by place. *)
Fixpoint dr_points (i : nat) (l : list (seg A)) : list ((Z * bool) * (nat * seg A)) :=
  match l with
  | [] => []
  | x :: r => (if negb (sg_start x =? sg_stop x)
               then [((sg_start x, true), (i, x)); ((sg_stop x - 1, false), (i, x))]
               else [((sg_start x, true), (i, x)); ((sg_stop x, false), (i, x))]) ++ dr_points (S i) r
  end.
Definition point_key (p : (Z * bool) * (nat * seg A)) : Z * Z := (fst (fst p), if snd (fst p) then 0 else 1).
(** DominantRight.java 35-37 *)
Definition sg_length (x : seg A) : Z := sg_stop x - sg_start x.
(** DominantRight.java 77-91: with nothing open, a point of either kind opens its segment *)
Fixpoint resolve_loop (open : option (nat * seg A)) (ps : list ((Z * bool) * (nat * seg A))) : list A :=
  match ps with
  | [] => []
  | ((_, start), (i, x)) :: r =>
      match open with
      | Some (o, y) =>
          if start then (if sg_length y <=? sg_length x then resolve_loop (Some (i, x)) r else resolve_loop open r)
          else if Nat.eqb o i then sg_item x :: resolve_loop None r else resolve_loop open r
      | None => resolve_loop (Some (i, x)) r
      end
  end.
(** DominantRight.java 60-94; Collections.sort is stable *)
Definition java_resolve (l : list (seg A)) : list A := resolve_loop None (ssort point_key lex_leb (dr_points 0 l)).
End Resolve.

(** DominantRight.java 104-110: every node must have the span; [get] yields null for a missing field, whose spanValue throws *)
Fixpoint java_segments (h : heap) (f : pystr) (ns : list nid) : res (list (seg nid)) :=
  match ns with
  | [] => Ok []
  | n :: r => match dget (n_fieldsof h n) f with
              | Some (VSpan _ _ a b) => let* q := java_segments h f r in Ok ((a, b, n) :: q)
              | _ => Err NotImplementedError
              end
  end.
Definition java_resolve_span (h : heap) (ns : list nid) (f : pystr) : res (list nid) :=
  let* l := java_segments h f ns in Ok (java_resolve l).
(** DominantRight.java 97-102 *)
Fixpoint nodespan_segments (h : heap) (f : pystr) (ns : list nid) : res (list (seg nid)) :=
  match ns with
  | [] => Ok []
  | n :: r => match dget (n_fieldsof h n) f with
              | Some (VNodeSpan a b) => let* q := nodespan_segments h f r in Ok ((n_idof h a, n_idof h b + 1, n) :: q)
              | _ => Err NotImplementedError
              end
  end.
Definition java_resolve_nodespans (h : heap) (ns : list nid) (f : pystr) : res (list nid) :=
  let* l := nodespan_segments h f ns in Ok (java_resolve l).
