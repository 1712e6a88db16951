(** Layers as lists with gaps: iteration, navigation, add, remove, retain, compact, sort
    (py/docria/model.py 1286-1749). Type validation is in Model_Types.v. *)
From Verif Require Import PyBase Model_Heap.
Local Open Scope Z_scope.

(** filter(None.__ne__, l): drops the gaps. ([None.__ne__(node)] is NotImplemented, which is truthy.) (model.py 1512-1530, 1589-1660) *)
Fixpoint live (l : list (option nid)) : list nid :=
  match l with
  | [] => []
  | Some n :: r => n :: live r
  | None :: r => live r
  end.

(** model.py 1655-1660: NodeLayerCollection.__iter__.  When num == len(_nodes) the code iterates
    the raw list, gaps (as Python None) included. *)
Definition layer_iter (h : heap) (l : lid) : list (option nid) :=
  if l_numof h l =? zlen (l_nodesof h l) then l_nodesof h l
  else map Some (live (l_nodesof h l)).

(** model.py 1671-1672: __len__ *)
Definition layer_len (h : heap) (l : lid) : Z := l_numof h l.

(** model.py 1748-1749: __contains__ *)
Definition layer_contains (h : heap) (l : lid) (n : nid) : bool :=
  match n_collof h n with Some l' => Nat.eqb l' l | None => false end.

(** model.py 1688-1689: layer[int]; a gap gives Python's None *)
Definition layer_getitem (h : heap) (l : lid) (i : Z) : res (option nid) := py_getitem (l_nodesof h l) i.
(** model.py 1690-1694: layer[node] *)
Definition layer_getnode (h : heap) (l : lid) (n : nid) : res nid :=
  if layer_contains h l n then Ok n else Err DataValidationError.
(** model.py 1695-1696: layer[a:b] *)
Definition layer_slice (h : heap) (l : lid) (a b : option Z) : list nid := live (py_slice (l_nodesof h l) a b).
(** model.py 1707-1711: first, last *)
Definition layer_first (h : heap) (l : lid) : option nid := hd_error (live (l_nodesof h l)).
Definition layer_last (h : heap) (l : lid) : option nid :=
  hd_error (live (rev (l_nodesof h l))).

(** model.py 1624-1628: for i in range(n.i - 1, -1, -1): if self._nodes[i] is not None: return it *)
Fixpoint scan_left (slots : list (option nid)) (k : nat) : res (option nid) :=
  match k with
  | O => Ok None
  | S k' => let* x := py_getitem slots (Z.of_nat k') in
            match x with Some m => Ok (Some m) | None => scan_left slots k' end
  end.
(** model.py 1634-1638: for i in range(n.i + 1, len(self._nodes)): ... ; [k] slots remain *)
Fixpoint scan_right (slots : list (option nid)) (k : nat) : res (option nid) :=
  match k with
  | O => Ok None
  | S k' => let* x := py_getitem slots (zlen slots - Z.of_nat k) in
            match x with Some m => Ok (Some m) | None => scan_right slots k' end
  end.
(** model.py 1620-1628 *)
Definition layer_left (h : heap) (l : lid) (n : nid) : res (option nid) :=
  if layer_contains h l n then
    let* i := node_i h n in scan_left (l_nodesof h l) (Z.to_nat i)
  else Err AssertionError.
(** model.py 1630-1638 *)
Definition layer_right (h : heap) (l : lid) (n : nid) : res (option nid) :=
  if layer_contains h l n then
    let* i := node_i h n in scan_right (l_nodesof h l) (Z.to_nat (zlen (l_nodesof h l) - (i + 1)))
  else Err AssertionError.
(** model.py 154-162: Node.left / Node.right; on a dangling node the attribute lookup on None fails *)
Definition node_left (h : heap) (n : nid) : res (option nid) :=
  match n_collof h n with None => Err AttributeError | Some l => layer_left h l n end.
Definition node_right (h : heap) (n : nid) : res (option nid) :=
  match n_collof h n with None => Err AttributeError | Some l => layer_right h l n end.

Definition opt_lid_eqb (a b : option lid) : bool :=
  match a, b with Some x, Some y => Nat.eqb x y | None, None => true | _, _ => false end.

(** map(self._nodes.__getitem__, range(a, b+1)), gaps filtered (model.py 1640-1653) *)
Fixpoint get_range (slots : list (option nid)) (a : Z) (k : nat) : res (list (option nid)) :=
  match k with
  | O => Ok []
  | S k' => let* x := py_getitem slots a in let* r := get_range slots (a + 1) k' in Ok (x :: r)
  end.
(** model.py 1640-1653: iter_nodespan, consumed to the end *)
Definition iter_nodespan (h : heap) (l : lid) (a b : nid) : res (list nid) :=
  let* ia := node_i h a in
  let* ib := node_i h b in
  if negb (ia <=? ib) then Err AssertionError
  else if negb (opt_lid_eqb (n_collof h a) (n_collof h b) && opt_lid_eqb (n_collof h b) (Some l))
  then Err AssertionError
  else let* xs := get_range (l_nodesof h l) ia (Z.to_nat (ib + 1 - ia)) in Ok (live xs).
(** model.py 164-177: Node.iter_span *)
Definition iter_span (h : heap) (a b : nid) : res (list nid) :=
  let* ia := node_i h a in
  let* ib := node_i h b in
  match n_collof h a with
  | None => Err AttributeError
  | Some l => if ia <=? ib then iter_nodespan h l a b else iter_nodespan h l b a
  end.
(** model.py 402-409: NodeSpan.__init__ *)
Definition new_nodespan (h : heap) (a b : nid) : res (nid * nid) :=
  match n_collof h a with
  | None => Err AttributeError
  | Some l =>
      let* ia := node_i h a in
      let* ib := node_i h b in
      if negb (ia <=? ib) then Err AssertionError
      else if negb (opt_lid_eqb (Some l) (n_collof h b)) then Err AssertionError
      else Ok (a, b)
  end.
(** model.py 411-413: NodeSpan.__iter__ *)
Definition nodespan_iter (h : heap) (a b : nid) : res (list nid) :=
  let* ia := node_i h a in
  let* ib := node_i h b in
  if negb (ia <=? ib) then Err AssertionError else iter_span h a b.
(** model.py 444-448: NodeSpan.__len__ *)
Definition nodespan_len (h : heap) (a b : nid) : res Z :=
  let* l := nodespan_iter h a b in Ok (zlen l).

(** model.py 195-196: repr(node) fails on a dangling node that has fields *)
Definition node_repr_ok (h : heap) (n : nid) : bool :=
  match n_fieldsof h n, n_collof h n with
  | _ :: _, None => false
  | _, _ => true
  end.
(** raise ValueError("... %s ..." % repr(node)): the message is computed first (model.py 1479-1587) *)
Definition value_error_repr (h : heap) (ns : list nid) : exn :=
  if forallb (node_repr_ok h) ns then ValueError else AttributeError.

(** self._nodes.append(n); self.num += 1 (model.py 1445-1510) *)
Definition append_node (h : heap) (l : lid) (n : nid) : heap :=
  set_num (set_nodes h l (l_nodesof h l ++ [Some n])) l (l_numof h l + 1).
(** n._id = len(self._nodes); n.collection = self (model.py 1445-1510) *)
Definition bind_node (h : heap) (l : lid) (n : nid) : heap :=
  set_coll (set_id h n (zlen (l_nodesof h l))) n (Some l).

(** model.py 1461-1469: add with positional arguments; [None] stands for an argument that is not a Node *)
Fixpoint layer_add_nodes (h : heap) (l : lid) (args : list (option nid)) : hres unit :=
  match args with
  | [] => (h, Ok tt)
  | Some n :: r => layer_add_nodes (append_node (bind_node h l n) l n) l r
  | None :: _ => (h, Err ValueError)
  end.

(** model.py 1512-1530: compact.  [k] counts the loop index, [i] the write index. *)
Fixpoint compact_loop (h : heap) (l : lid) (k i todo : nat) : heap * nat :=
  match todo with
  | O => (h, i)
  | S todo' =>
      match nth_error (l_nodesof h l) k with
      | Some (Some n) =>
          let h1 := set_nodes h l (upd_nth (l_nodesof h l) i (Some n)) in
          let h2 := set_id h1 n (Z.of_nat i) in
          compact_loop h2 l (S k) (S i) todo'
      | _ => compact_loop h l (S k) i todo'
      end
  end.
Definition compact (h : heap) (l : lid) : heap :=
  if zlen (l_nodesof h l) =? l_numof h l then h
  else
    let '(h', i) := compact_loop h l 0 0 (length (l_nodesof h l)) in
    set_nodes h' l (firstn i (l_nodesof h' l)).

(** self._nodes[n._id] = None; self.num -= 1; n.collection = None (model.py 1552-1618) *)
Definition drop_node (h : heap) (l : lid) (n : nid) : hres unit :=
  match py_setitem (l_nodesof h l) (n_idof h n) None with
  | Err e => (h, Err e)
  | Ok ns => (set_coll (set_num (set_nodes h l ns) l (l_numof h l - 1)) n None, Ok tt)
  end.
(** model.py 1586-1587: 0.75 * len > num and len > 16 (exact for every list length below 2^51) *)
Definition auto_compact (h : heap) (l : lid) : heap :=
  if (4 * l_numof h l <? 3 * zlen (l_nodesof h l)) && (16 <? zlen (l_nodesof h l))
  then compact h l else h.

(** model.py 1558-1564, 1586-1587: remove(node) *)
Definition layer_remove (h : heap) (l : lid) (n : nid) : hres unit :=
  if layer_contains h l n then
    match drop_node h l n with
    | (h', Ok _) => (auto_compact h' l, Ok tt)
    | (h', Err e) => (h', Err e)
    end
  else (h, Err (value_error_repr h [n])).

(** elements of an iterable given to remove (model.py 1552-1587) *)
Inductive ritem := RNode (n : nid) | RNone | ROther.
(** model.py 1552-1587 *)
Fixpoint ritem_nodes (l : list ritem) : list nid :=
  match l with [] => [] | RNode n :: r => n :: ritem_nodes r | _ :: r => ritem_nodes r end.
(** model.py 1567-1579; [shown] are the nodes whose repr goes into the ValueError message: those of
    the argument when it is a list, none when it is a generator *)
Fixpoint remove_loop (h : heap) (l : lid) (shown : list nid) (items : list ritem) : hres unit :=
  match items with
  | [] => (h, Ok tt)
  | RNode n :: r =>
      if layer_contains h l n then
        match drop_node h l n with
        | (h', Ok _) => remove_loop h' l shown r
        | (h', Err e) => (h', Err e)
        end
      else (h, Err (value_error_repr h shown))
  | RNone :: r => remove_loop h l shown r
  | ROther :: _ => (h, Err ValueError)
  end.
(** model.py 1565-1587: remove(iterable) *)
Definition layer_remove_many (h : heap) (l : lid) (is_list : bool) (items : list ritem) : hres unit :=
  match remove_loop h l (if is_list then ritem_nodes items else []) items with
  | (h', Ok _) => (auto_compact h' l, Ok tt)
  | (h', Err e) => (h', Err e)
  end.
(** model.py 114-116: Node.detach *)
Definition node_detach (h : heap) (n : nid) : hres unit :=
  match n_collof h n with None => (h, Err AttributeError) | Some l => layer_remove h l n end.

(** model.py 1592-1600: marking; an element that is not a Node has no attribute collection *)
Fixpoint retain_mark (h : heap) (l : lid) (ns : list (option nid)) : hres unit :=
  match ns with
  | [] => (h, Ok tt)
  | None :: _ => (h, Err AttributeError)
  | Some n :: r =>
      if layer_contains h l n then
        if 0 <=? n_idof h n then retain_mark (set_id h n (- (n_idof h n + 1))) l r
        else retain_mark h l r
      else (h, Err (value_error_repr h [n]))
  end.
(** model.py 1605-1615; a gap (None) has no attribute _id *)
Fixpoint retain_loop (h : heap) (l : lid) (i k todo : nat) : heap * res nat :=
  match todo with
  | O => (h, Ok k)
  | S todo' =>
      match nth_error (l_nodesof h l) i with
      | Some (Some n) =>
          if 0 <=? n_idof h n
          then retain_loop (set_num (set_coll h n None) l (l_numof h l - 1)) l (S i) k todo'
          else retain_loop (set_id (set_nodes h l (upd_nth (l_nodesof h l) k (Some n))) n (Z.of_nat k)) l (S i) (S k) todo'
      | _ => (h, Err AttributeError)
      end
  end.
(** model.py 1589-1618: retain *)
Definition layer_retain (h : heap) (l : lid) (ns : list (option nid)) : hres unit :=
  match retain_mark h l ns with
  | (h1, Err e) => (h1, Err e)
  | (h1, Ok _) =>
      match retain_loop h1 l 0 0 (length (l_nodesof h1 l)) with
      | (h2, Err e) => (h2, Err e)
      | (h2, Ok k) => (set_nodes h2 l (firstn k (l_nodesof h2 l)), Ok tt)
      end
  end.

(** for i, n in zip(range(..), iteration): n._id = i (model.py 1974-1980) *)
Fixpoint renumber (h : heap) (i : Z) (ns : list nid) : heap :=
  match ns with
  | [] => h
  | n :: r => renumber (set_id h n i) (i + 1) r
  end.
(** model.py 1975-1976, 1981: what Document.compile does to the node numbers of one layer.
    (Iteration yields no gap when the count is right; an inconsistent layer is not modelled here.) *)
Definition layer_prepare (h : heap) (l : lid) : heap :=
  compact (renumber h 0 (firstn (Z.to_nat (layer_len h l)) (live (layer_iter h l)))) l.
Section Sort.
Context {K : Type} (leb : K -> K -> bool) (keyfn : nid -> res K).
(** list.sort(key=f): all keys are computed first; if f raises the list is unchanged (model.py 1541-1550) *)
Fixpoint with_keys (l : list (option nid)) : res (list (K * option nid)) :=
  match l with
  | [] => Ok []
  | Some n :: r => let* k := keyfn n in let* ks := with_keys r in Ok ((k, Some n) :: ks)
  | None :: _ => Err AttributeError   (* after compact there is no gap *)
  end.
(** model.py 1541-1550: sort *)
Definition layer_sort (h : heap) (l : lid) : hres unit :=
  let h1 := compact h l in
  match with_keys (l_nodesof h1 l) with
  | Err e => (h1, Err e)
  | Ok ks =>
      let h2 := set_nodes h1 l (map snd (ssort fst leb ks)) in
      (renumber h2 0 (firstn (Z.to_nat (layer_len h2 l)) (live (layer_iter h2 l))), Ok tt)
  end.
End Sort.
