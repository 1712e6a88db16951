(** Predicates (py/docria/query.py), field collections and queries (py/docria/model.py 199-390, 1251-1284, 1532-1539).
    Where only the truth of a predicate's result matters, a predicate is modelled by that truth: [or] and [and] (query.py 56, 79)
    return one of their operands, and None.__ne__(v) (model.py 317) returns NotImplemented, which counts as true. *)
From Verif Require Import PyBase Model_Heap Model_Layer Model_Text Model_Types.
Local Open Scope Z_scope.

(** n.get(f): None without the field (query.py 90-175) *)
Definition fget (h : heap) (n : nid) (f : pystr) : value := match dget (n_fieldsof h n) f with Some v => v | None => VNone end.

(** ** Python's == and < on field values *)
(** The double with the given 64 bits: a NaN, an infinity, or m * 2^e *)
Inductive dbl := DNan | DInf (neg : bool) | DFin (m e : Z).
Definition dbl_of (bits : N) : dbl :=
  let b := Z.of_N bits in
  let neg := Z.testbit b 63 in
  let ex := Z.land (Z.shiftr b 52) 2047 in
  let fr := Z.land b (2 ^ 52 - 1) in
  if ex =? 2047 then (if fr =? 0 then DInf neg else DNan)
  else if ex =? 0 then DFin (if neg then - fr else fr) (-1074)
  else DFin (if neg then - (fr + 2 ^ 52) else fr + 2 ^ 52) (ex - 1075).
(** numbers: bool counts as int (== and order of values, query.py 90-163) *)
Definition num_of (v : value) : option dbl :=
  match v with
  | VBool b => Some (DFin (if b then 1 else 0) 0)
  | VInt i => Some (DFin i 0)
  | VFloat b => Some (dbl_of b)
  | _ => None
  end.
(** exact comparison, also between int and float; None if one is a NaN (== and order of values, query.py 90-163) *)
Definition num_cmp (a b : dbl) : option comparison :=
  match a, b with
  | DNan, _ | _, DNan => None
  | DInf true, DInf true | DInf false, DInf false => Some Eq
  | DInf true, _ | _, DInf false => Some Lt
  | DInf false, _ | _, DInf true => Some Gt
  | DFin m e, DFin m' e' => let k := Z.min e e' in Some (Z.compare (m * 2 ^ (e - k)) (m' * 2 ^ (e' - k)))
  end.
(** str and bytes: by code points / bytes from the left (== and order of values, query.py 90-163) *)
Fixpoint str_cmp (a b : list N) : comparison :=
  match a, b with
  | [], [] => Eq
  | [], _ :: _ => Lt
  | _ :: _, [] => Gt
  | x :: a, y :: b => match N.compare x y with Eq => str_cmp a b | c => c end
  end.
Section Identity.
(** [same a b]: NodeSpan, ExtData and unknown objects are compared by object identity, as are the unknown elements of lists;
    the identity of such objects is not part of the model. *)
Variable same : value -> value -> bool.
(** == and order of values, query.py 90-163 *)
Fixpoint list_eqb (a b : list (option nid)) : bool :=
  match a, b with
  | [], [] => true
  | Some x :: a, Some y :: b => Nat.eqb x y && list_eqb a b
  | _, _ => false
  end.
(** a == b; TextSpan.__eq__ (model.py 606-610) compares the offsets of two spans, and its string with anything else *)
Definition py_eq (a b : value) : bool :=
  match num_of a, num_of b with
  | Some x, Some y => match num_cmp x y with Some Eq => true | _ => false end
  | Some _, None | None, Some _ => false
  | None, None =>
      match a, b with
      | VNone, VNone => true
      | VStr x, VStr y | VBytes x, VBytes y => str_eqb x y
      | VSpan _ _ p q, VSpan _ _ p' q' => (p =? p') && (q =? q')
      | VSpan _ t p q, VStr x | VStr x, VSpan _ t p q => str_eqb (span_str (mkSpan t p q)) x
      | VNode n, VNode m => Nat.eqb n m
      | VNodeList x, VNodeList y => if existsb (fun o => match o with None => true | _ => false end) (x ++ y) then same a b else list_eqb x y
      | VNodeSpan _ _, VNodeSpan _ _ | VExt _ _, VExt _ _ | VOther _, VOther _ => same a b
      | _, _ => false
      end
  end.
(** a != b: the inverse of ==, but Node inherits dict.__ne__ beside its own __eq__ (model.py 147), which compares the contents of
    two nodes, values by identity or ==. *)
Definition val_same (a b : value) : bool :=
  py_eq a b || match a, b with VFloat x, VFloat y => match dbl_of x, dbl_of y with DNan, DNan => same a b | _, _ => false end | _, _ => false end.
Definition dict_eqb (a b : dict value) : bool :=
  (zlen a =? zlen b) && forallb (fun kv => match dget b (fst kv) with Some v => val_same (snd kv) v | None => false end) a.
Definition py_ne (h : heap) (a b : value) : bool :=
  match a, b with
  | VNode n, VNode m => negb (Nat.eqb n m || dict_eqb (n_fieldsof h n) (n_fieldsof h m))
  | _, _ => negb (py_eq a b)
  end.
(** The four orderings; [lists] of nodes: the shorter if it is a prefix of the other, TypeError if nodes are to be compared
    (elements that are not nodes: not modelled) (query.py 126-163) *)
Inductive ord := OLt | OLe | OGt | OGe.
(** query.py 126-163 *)
Definition ord_of (o : ord) (c : comparison) : bool :=
  match o, c with OLt, Lt | OLe, Lt | OLe, Eq | OGt, Gt | OGe, Gt | OGe, Eq => true | _, _ => false end.
(** query.py 126-163 *)
Fixpoint lists_cmp (a b : list (option nid)) : res comparison :=
  match a, b with
  | [], [] => Ok Eq
  | [], _ :: _ => Ok Lt
  | _ :: _, [] => Ok Gt
  | Some x :: a, Some y :: b => if Nat.eqb x y then lists_cmp a b else Err TypeError
  | _, _ => Err Unmodelled
  end.
(** query.py 126-163 *)
Definition py_ord (o : ord) (a b : value) : res bool :=
  match num_of a, num_of b with
  | Some x, Some y => Ok (match num_cmp x y with Some c => ord_of o c | None => false end)
  | Some _, None | None, Some _ => Err TypeError
  | None, None =>
      match a, b with
      | VStr x, VStr y | VBytes x, VBytes y => Ok (ord_of o (str_cmp x y))
      | VNodeList x, VNodeList y => let* c := lists_cmp x y in Ok (ord_of o c)
      | _, _ => Err TypeError
      end
  end.
(** v in set(items): equal and of equal hash.  TextSpan.__hash__ (model.py 603-604) takes the identity of the text, here its name and
    string, so a span is found only beside a span of the same text.  (Two different hashes are taken not to collide.) *)
Definition hash_eq (a b : value) : bool :=
  match a, b with
  | VSpan n t p q, VSpan n' t' p' q' => str_eqb n n' && str_eqb t t' && (p =? p') && (q =? q')
  | VSpan _ _ _ _, _ | _, VSpan _ _ _ _ => false
  | VFloat x, VFloat y => match dbl_of x, dbl_of y with DNan, DNan => same a b | _, _ => py_eq a b end
  | _, _ => py_eq a b
  end.
Definition hashable (v : value) : bool := match v with VNodeList _ => false | _ => true end.
Definition py_in (v : value) (items : list value) : res bool := if hashable v then Ok (existsb (hash_eq v) items) else Err TypeError.

(** ** Predicates *)
(** query.py 37-178 *)
Inductive pred :=
| PEq (f : pystr) (v : value) | PNeq (f : pystr) (v : value) | POrd (o : ord) (f : pystr) (v : value)
| PAny (f : pystr) (items : list value)
| PFields (fn : list value -> res bool) (fs : list pystr)
| PField (f : pystr) (fn : value -> res bool)
| PFun (fn : heap -> nid -> res bool)
| PAnd (p q : pred) | POr (p q : pred) | PNot (p : pred).
(** query.py 42-44 (PFields), 55-56, 66-67, 78-79, 90-91, 102-163 (comparisons), 174-175 (PField); PFun is any other callable *)
Fixpoint sat (h : heap) (p : pred) (n : nid) : res bool :=
  match p with
  | PEq f v => Ok (py_eq (fget h n f) v)
  | PNeq f v => Ok (py_ne h (fget h n f) v)
  | POrd o f v => py_ord o (fget h n f) v
  | PAny f items => py_in (fget h n f) items
  | PFields fn fs => fn (map (fget h n) fs)
  | PField f fn => fn (fget h n f)
  | PFun fn => fn h n
  | PAnd p q => let* b := sat h p n in if b then sat h q n else Ok false
  | POr p q => let* b := sat h p n in if b then Ok true else sat h q n
  | PNot p => let* b := sat h p n in Ok (negb b)
  end.
(** predicate(n) where the collection yields None: None has no get (model.py 1251-1276) *)
Definition sat_slot (h : heap) (p : pred) (o : option nid) : res bool :=
  match o with Some n => sat h p n | None => Err AttributeError end.

(** ** Collections *)
(** model.py 199-300, 1251-1262 *)
Inductive coll :=
| CLayer (l : lid)
| CSpan (a b : nid)
| CList (fields : dict dtype) (ns : list nid)
| CQuery (c : coll) (p : pred) (result : list (option nid)).
(** iter(collection) (model.py 199-300, 1251-1262) *)
Definition coll_iter (h : heap) (c : coll) : res (list (option nid)) :=
  match c with
  | CLayer l => Ok (layer_iter h l)
  | CSpan a b => let* l := nodespan_iter h a b in Ok (map Some l)
  | CList _ ns => Ok (map Some ns)
  | CQuery _ _ r => Ok r
  end.
(** collection.fieldtypes (model.py 203, 403, 499, 1255, 1293); of a node span: those of the layer of the left node when it was made.
    Simplification: here those of its layer now. *)
Fixpoint coll_fields (h : heap) (c : coll) : dict dtype :=
  match c with
  | CLayer l => l_fields (h_layer h l)
  | CSpan a _ => match n_collof h a with Some l => l_fields (h_layer h l) | None => [] end
  | CList fs _ => fs
  | CQuery c _ _ => coll_fields h c
  end.
(** [n for n in collection if predicate(n)] (model.py 1258, 1275) *)
Fixpoint select (h : heap) (p : pred) (ns : list (option nid)) : res (list (option nid)) :=
  match ns with
  | [] => Ok []
  | n :: r => let* b := sat_slot h p n in let* q := select h p r in Ok (if b then n :: q else q)
  end.
(** 1254-1258 *)
Definition query (h : heap) (c : coll) (p : pred) : res coll :=
  let* ns := coll_iter h c in let* r := select h p ns in Ok (CQuery c p r).
(** 1274-1275; an exception leaves the old result *)
Definition query_update (h : heap) (q : coll) : coll * res unit :=
  match q with
  | CQuery c p r =>
      match (let* ns := coll_iter h c in select h p ns) with
      | Ok r' => (CQuery c p r', Ok tt)
      | Err e => (q, Err e)
      end
  | _ => (q, Err AttributeError)
  end.
(** model.py 1263-1264 and the other __len__ *)
Definition coll_len (h : heap) (c : coll) : res Z :=
  match c with
  | CLayer l => Ok (layer_len h l)
  | CSpan a b => nodespan_len h a b
  | CList _ ns => Ok (zlen ns)
  | CQuery _ _ r => Ok (zlen r)
  end.

(** ** Field collections: collection[field] (model.py 261-264, 1266-1271); the result is the field's name, or None for a query whose
    layer lacks the field.  A query over a collection that is no layer has no schema (1268). *)
Definition coll_field (h : heap) (c : coll) (f : pystr) : res (option pystr) :=
  match c with
  | CQuery (CLayer l) _ _ => Ok (if dmem (l_fields (h_layer h l)) f then Some f else None)
  | CQuery _ _ _ => Err AttributeError
  | _ => if dmem (coll_fields h c) f then Ok (Some f) else Err AssertionError
  end.
(** 286-287, 292-294: the values, None where absent *)
Definition field_values (h : heap) (c : coll) (f : pystr) : res (list value) :=
  let* ns := coll_iter h c in mapM (fun o => match o with Some n => Ok (fget h n f) | None => Err AttributeError end) ns.
(** 305-317 *)
Definition is_none (f : pystr) : pred := PField f (fun v => Ok (match v with VNone => true | _ => false end)).
Definition has_value (f : pystr) : pred := PField f (fun v => Ok (match v with VNone => false | _ => true end)).
(** 319-326: set(item) needs hashable items *)
Definition is_any (f : pystr) (items : list value) : res pred := if forallb hashable items then Ok (PAny f items) else Err TypeError.
(** 328-350: the field must be a span field (dtype: 280-281) *)
Definition span_pred (test : span -> Z -> Z -> bool) (h : heap) (c : coll) (f : pystr) (start stop : Z) : res pred :=
  let* t := dgetE (coll_fields h c) f in
  if tname_eqb (dt_name t) TSpan
  then Ok (PField f (fun v => match v with VSpan _ x a b => Ok (test (mkSpan x a b) start stop) | _ => Err AttributeError end))
  else Err AssertionError.
Definition covered_pred := span_pred covered_by_tuple.
Definition intersected_pred := span_pred intersected_by_tuple.
End Identity.
