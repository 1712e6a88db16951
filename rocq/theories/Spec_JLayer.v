(** What the layer of the Java port should do: a plain list of nodes, and how many slots it has. *)
From Verif Require Import PyBase Model_Heap Model_Layer Spec_Layer Model_JLayer.
Local Open Scope Z_scope.

(** the list and the number of slots *)
Definition jlist := (list nid * Z)%type.
(** slots are given back when less than three quarters of more than 16 are in use *)
Definition settle (c : list nid) (slots : Z) : jlist :=
  (c, if (4 * zlen c <? 3 * slots) && (16 <? slots) then zlen c else slots).
Fixpoint list_discard (st : jlist) (xs : list ritem) : jlist * bool :=
  match xs with
  | [] => (st, false)
  | RNode n :: r =>
      if mem_nid n (fst st) then (fst (list_discard (settle (without n (fst st)) (snd st)) r), true) else list_discard st r
  | _ :: r => list_discard st r
  end.
(** one call; [taken] are the nodes of other layers; [None]: not as documented *)
Definition list_call (taken : nid -> bool) (st : jlist) (c : jcall) : option (jlist * janswer) :=
  let full := zlen (fst st) =? snd st in
  match c with
  | JAdd n => if mem_nid n (fst st) || taken n then Some (st, JFail ValueError)
              else if full then Some ((fst st ++ [n], snd st + 1), JBool true) else None
  | JRemove n => if mem_nid n (fst st) then Some (settle (without n (fst st)) (snd st), JUnit)
                 else Some (st, JFail RuntimeError)
  | JDiscard x => let '(st', b) := list_discard st [x] in Some (st', JBool b)
  | JRemoveAll xs => let '(st', b) := list_discard st xs in Some (st', JBool b)
  | JCompact => Some (settle (fst st) (snd st), JUnit)
  | JClear => if full then Some (([], 0), JUnit) else None
  end.
Fixpoint list_calls (taken : nid -> bool) (st : jlist) (cs : list jcall) : option (jlist * list janswer) :=
  match cs with
  | [] => Some (st, [])
  | c :: r =>
      match list_call taken st c with
      | None => None
      | Some (st1, a) =>
          match list_calls taken st1 r with None => None | Some (st2, t) => Some (st2, a :: t) end
      end
  end.
(** nodes bound to another layer *)
Definition elsewhere (h : heap) (l : lid) (n : nid) : bool :=
  match n_collof h n with Some l' => negb (Nat.eqb l' l) | None => false end.
(** nothing happened to the other layers *)
Definition others_untouched (l : lid) (h h' : heap) : Prop :=
  forall l', l' <> l -> h_layer h' l' = h_layer h l' /\ (layer_ok h l' -> layer_ok h' l').
(** how often a node is given *)
Fixpoint times (n : nid) (ns : list nid) : nat :=
  match ns with [] => O | m :: r => ((if Nat.eqb m n then 1 else 0) + times n r)%nat end.
(** what retainAll keeps: nodes given an odd number of times, except the one with id 0 *)
Definition odd_kept (h : heap) (l : lid) (ns : list nid) : list nid :=
  filter (fun n => Nat.odd (times n ns) && negb (n_idof h n =? 0)) (content h l).
