(** The layer of the Java port (java/core/src/main/java/se/lth/cs/docria/Layer.java).  A layer object is
    again a list of slots and a count ([l_nodesof] is [storage], [l_numof] is [size]), a node has [id] and
    [layer]; [None] in a slot is null.  Fields and schema are not touched here.
    NullPointerException is AttributeError, IndexOutOfBoundsException IndexError, IllegalArgumentException
    ValueError, IllegalStateException RuntimeError, DataInconsistencyException DataError. *)
From Verif Require Import PyBase Model_Heap Model_Layer.
Local Open Scope Z_scope.

(** ArrayList.get / ArrayList.set (Layer.java 102, 176, 197) *)
Definition java_get {A} (l : list A) (i : Z) : res A :=
  if 0 <=? i then match nth_error l (Z.to_nat i) with Some x => Ok x | None => Err IndexError end
  else Err IndexError.
Definition java_set {A} (l : list A) (i : Z) (x : A) : res (list A) :=
  if (0 <=? i) && (i <? zlen l) then Ok (upd_nth l (Z.to_nat i) x) else Err IndexError.

(** Layer.java 81-84, 186-189, 346-350: stream, iterator, forEach *)
Definition jl_iter (h : heap) (l : lid) : list nid := live (l_nodesof h l).
(** Layer.java 352-355: size *)
Definition jl_size (h : heap) (l : lid) : Z := l_numof h l.
(** Layer.java 149-152: isEmpty *)
Definition jl_is_empty (h : heap) (l : lid) : bool := l_numof h l =? 0.
(** Layer.java 101-103: get; a gap gives null *)
Definition jl_get (h : heap) (l : lid) (i : Z) : res (option nid) := java_get (l_nodesof h l) i.
(** Layer.java 251-258: contains *)
Definition jl_contains (h : heap) (l : lid) (n : nid) : bool :=
  match n_collof h n with Some l' => Nat.eqb l' l | None => false end.
(** Layer.java 129-136: first, last *)
Definition jl_first (h : heap) (l : lid) : option nid := hd_error (live (l_nodesof h l)).
Definition jl_last (h : heap) (l : lid) : option nid := hd_error (live (rev (l_nodesof h l))).
(** Layer.java 213-230: nodespan, consumed to the end (nodespanForEach 232-249 visits the same nodes) *)
Fixpoint jget_range (slots : list (option nid)) (a : Z) (k : nat) : res (list (option nid)) :=
  match k with
  | O => Ok []
  | S k' => let* x := java_get slots a in let* r := jget_range slots (a + 1) k' in Ok (x :: r)
  end.
Definition jl_nodespan (h : heap) (l : lid) (a b : nid) : res (list nid) :=
  if negb (jl_contains h l a) then Err DataError
  else if negb (jl_contains h l b) then Err DataError
  else if n_idof h b <? n_idof h a then Err DataError
  else let* xs := jget_range (l_nodesof h l) (n_idof h a) (Z.to_nat (n_idof h b + 1 - n_idof h a)) in Ok (live xs).

(** Layer.java 164-184: add; the node is numbered and bound before it is stored *)
Definition jl_add (h : heap) (l : lid) (n : nid) : hres bool :=
  match n_collof h n with
  | Some _ => (h, Err ValueError)
  | None =>
      let h1 := set_coll (set_id h n (zlen (l_nodesof h l))) n (Some l) in
      if l_numof h l <? zlen (l_nodesof h l) then
        match java_set (l_nodesof h l) (l_numof h l) (Some n) with
        | Err e => (h1, Err e)
        | Ok x => (set_num (set_nodes h1 l x) l (l_numof h l + 1), Ok true)
        end
      else (set_nodes (set_num h1 l (l_numof h l + 1)) l (l_nodesof h l ++ [Some n]), Ok true)
  end.

(** Layer.java 337-339: storage.set(k, null) for k = size, ..., storage.size() - 1 *)
Definition null_from (slots : list (option nid)) (k : nat) : list (option nid) :=
  firstn k slots ++ repeat None (length slots - k).
(** this.size < 0.75 * storage.size() && storage.size() > 16 (Layer.java 201, 290, 321, 342) *)
Definition sparse (size len : Z) : bool := (4 * size <? 3 * len) && (16 <? len).
(** Layer.java 327-344: compact.  The first loop is the one of the Python layer. *)
Definition jl_compact (h : heap) (l : lid) : hres unit :=
  let '(h1, _) := compact_loop h l 0 0 (length (l_nodesof h l)) in
  let size := l_numof h1 l in
  let slots := l_nodesof h1 l in
  if (size <? 0) then (h1, Err IndexError)
  else
    let slots2 := null_from slots (Z.to_nat size) in
    if sparse size (zlen slots2) then (set_nodes h1 l (firstn (Z.to_nat size) slots2), Ok tt)
    else (set_nodes h1 l slots2, Ok tt).
Definition jl_auto (h : heap) (l : lid) : hres unit :=
  if sparse (l_numof h l) (zlen (l_nodesof h l)) then jl_compact h l else (h, Ok tt).

(** Layer.java 191-205: remove(Node) *)
Definition jl_remove (h : heap) (l : lid) (n : nid) : hres unit :=
  if negb (jl_contains h l n) then (h, Err RuntimeError)
  else match java_set (l_nodesof h l) (n_idof h n) None with
       | Err e => (h, Err e)
       | Ok x => jl_auto (set_num (set_coll (set_nodes h l x) n None) l (l_numof h l - 1)) l
       end.
(** Layer.java 306-325: remove(Object); [RNone] is null, [ROther] an object that is not a Node *)
Definition jl_discard (h : heap) (l : lid) (x : ritem) : hres bool :=
  match x with
  | RNode n =>
      if negb (jl_contains h l n) then (h, Ok false)
      else
        let h1 := set_coll h n None in
        match java_set (l_nodesof h1 l) (n_idof h1 n) None with
        | Err e => (h1, Err e)
        | Ok y =>
            match jl_auto (set_num (set_nodes h1 l y) l (l_numof h1 l - 1)) l with
            | (h2, Err e) => (h2, Err e)
            | (h2, Ok _) => (h2, Ok true)
            end
        end
  | _ => (h, Ok false)
  end.
(** Layer.java 297-304: removeAll *)
Fixpoint jl_remove_all (h : heap) (l : lid) (xs : list ritem) (ops : bool) : hres bool :=
  match xs with
  | [] => (h, Ok ops)
  | x :: r =>
      match jl_discard h l x with
      | (h1, Err e) => (h1, Err e)
      | (h1, Ok b) => jl_remove_all h1 l r (ops || b)
      end
  end.

(** Layer.java 264-275: retainAll, the marking *)
Fixpoint jretain_mark (h : heap) (l : lid) (xs : list ritem) (edited : bool) : hres bool :=
  match xs with
  | [] => (h, Ok edited)
  | RNode n :: r =>
      if negb (jl_contains h l n) then (h, Err ValueError)
      else jretain_mark (set_id h n (- n_idof h n)) l r true
  | _ :: _ => (h, Err ValueError)
  end.
(** Layer.java 278-288: the sweep over the slots, from slot [i] on *)
Fixpoint jretain_sweep (h : heap) (l : lid) (i todo : nat) : heap :=
  match todo with
  | O => h
  | S k =>
      match nth_error (l_nodesof h l) i with
      | Some (Some n) =>
          if 0 <=? n_idof h n
          then jretain_sweep (set_num (set_nodes h l (upd_nth (l_nodesof h l) i None)) l (l_numof h l - 1)) l (S i) k
          else jretain_sweep (set_id h n (- n_idof h n)) l (S i) k
      | _ => jretain_sweep h l (S i) k
      end
  end.
(** Layer.java 260-295: retainAll *)
Definition jl_retain_all (h : heap) (l : lid) (xs : list ritem) : hres bool :=
  match jretain_mark h l xs false with
  | (h1, Err e) => (h1, Err e)
  | (h1, Ok false) => (h1, Ok false)
  | (h1, Ok true) =>
      match jl_auto (jretain_sweep h1 l 0 (length (l_nodesof h1 l))) l with
      | (h2, Err e) => (h2, Err e)
      | (h2, Ok _) => (h2, Ok true)
      end
  end.

(** Layer.java 154-162: clear; a gap has no attribute layer *)
Fixpoint clear_loop (h : heap) (slots : list (option nid)) : hres unit :=
  match slots with
  | [] => (h, Ok tt)
  | None :: _ => (h, Err AttributeError)
  | Some n :: r => clear_loop (set_id (set_coll h n None) n (-1)) r
  end.
Definition jl_clear (h : heap) (l : lid) : hres unit :=
  match clear_loop h (l_nodesof h l) with
  | (h1, Err e) => (h1, Err e)
  | (h1, Ok _) => (set_num (set_nodes h1 l []) l 0, Ok tt)
  end.

(** Layer.java 138-147: sort by a comparator ([leb a b]: compare(a, b) <= 0).  A gap below [size], possible
    only in a layer whose count is wrong, reaches the comparator as null. *)
Definition jl_sort (leb : nid -> nid -> bool) (h : heap) (l : lid) : hres unit :=
  match jl_compact h l with
  | (h1, Err e) => (h1, Err e)
  | (h1, Ok _) =>
      let k := Z.to_nat (l_numof h1 l) in
      let part := firstn k (l_nodesof h1 l) in
      if zlen (l_nodesof h1 l) <? l_numof h1 l then (h1, Err IndexError)
      else if zlen (live part) <? zlen part then (h1, Err AttributeError)
      else (set_nodes h1 l (map Some (ssort (fun n => n) leb (live part)) ++ skipn k (l_nodesof h1 l)), Ok tt)
  end.

(** ** Sequences of calls *)
(** the modifying calls (Layer.java 154-205, 297-344) *)
Inductive jcall := JAdd (n : nid) | JRemove (n : nid) | JDiscard (x : ritem) | JRemoveAll (xs : list ritem)
| JCompact | JClear.
(** what a call answers (Layer.java 154-344) *)
Inductive janswer := JUnit | JBool (b : bool) | JFail (e : exn).
(** Layer.java 154-344 *)
Definition janswer_unit (r : hres unit) : heap * janswer :=
  match r with (h, Ok _) => (h, JUnit) | (h, Err e) => (h, JFail e) end.
(** Layer.java 154-344 *)
Definition janswer_bool (r : hres bool) : heap * janswer :=
  match r with (h, Ok b) => (h, JBool b) | (h, Err e) => (h, JFail e) end.
(** Layer.java 154-344 *)
Definition jl_call (h : heap) (l : lid) (c : jcall) : heap * janswer :=
  match c with
  | JAdd n => janswer_bool (jl_add h l n)
  | JRemove n => janswer_unit (jl_remove h l n)
  | JDiscard x => janswer_bool (jl_discard h l x)
  | JRemoveAll xs => janswer_bool (jl_remove_all h l xs false)
  | JCompact => janswer_unit (jl_compact h l)
  | JClear => janswer_unit (jl_clear h l)
  end.
(** Layer.java 154-344 *)
Fixpoint jl_calls (h : heap) (l : lid) (cs : list jcall) : heap * list janswer :=
  match cs with
  | [] => (h, [])
  | c :: r => let '(h1, a) := jl_call h l c in let '(h2, t) := jl_calls h1 l r in (h2, a :: t)
  end.
