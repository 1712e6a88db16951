(** DocumentFileIndex and DocumentIndex (py/docria/collection.py 675-760).
    A file is its bytes; paths and directories are in Model_Path.v.  Not modelled: pickling of an index, building in worker processes. *)
From Verif Require Import PyBase Model_Text Model_Heap Model_Layer Model_Types Model_Msgpack Model_Document Model_Codec Model_Lazy Model_Collection.
Local Open Scope Z_scope.

(** ** Python equality of dictionary keys *)
(** the value of a number: m * 2^e, an infinity, or not a number (keys of dict and set as Python compares them, collection.py 692-745) *)
Inductive num := Num (m e : Z) | NInf (neg : bool) | NNaN.
(** the double with the given bits (keys of dict and set as Python compares them, collection.py 692-745) *)
Definition float_num (bits : N) : num :=
  let z := Z.of_N bits in
  let neg := 2 ^ 63 <=? z in
  let e := (z / 2 ^ 52) mod 2048 in
  let m := z mod 2 ^ 52 in
  if e =? 2047 then (if m =? 0 then NInf neg else NNaN)
  else let v := if e =? 0 then m else m + 2 ^ 52 in
       Num (if neg then - v else v) (Z.max e 1 - 1075).
(** keys of dict and set as Python compares them, collection.py 692-745 *)
Definition num_eqb (a b : num) : bool :=
  match a, b with
  | Num m e, Num m' e' => let k := Z.min e e' in m * 2 ^ (e - k) =? m' * 2 ^ (e' - k)
  | NInf x, NInf y => Bool.eqb x y
  | _, _ => false
  end.
(** keys of dict and set as Python compares them, collection.py 692-745 *)
Definition as_number (o : mobj) : option num :=
  match o with
  | MBool b => Some (Num (if b then 1 else 0) 0)
  | MInt i => Some (Num i 0)
  | MFloat b => Some (float_num b)
  | _ => None
  end.
(** keys of dict and set as Python compares them, collection.py 692-745 *)
Definition hashable (o : mobj) : bool := match o with MArr _ | MMap _ => false | _ => true end.
(** a == b for hashable a and b (two NaN objects are different; the very same object is not considered) (keys of dict and set as Python compares them, collection.py 692-745) *)
Definition key_eqb (a b : mobj) : bool :=
  match as_number a, as_number b with
  | Some x, Some y => num_eqb x y
  | None, None => match a, b with
                  | MNil, MNil => true
                  | MStr x, MStr y => str_eqb x y
                  | MBin x, MBin y => list_eqb N.eqb x y
                  | _, _ => false
                  end
  | _, _ => false
  end.

(** ** the index: property name -> value -> document numbers *)
(** collection.py 692-706 *)
Definition vdict := list (mobj * list nat).
(** d.get(v, []) (collection.py 692-706) *)
Fixpoint vget (d : vdict) (v : mobj) : list nat :=
  match d with
  | [] => []
  | (k, l) :: r => if key_eqb v k then l else vget r v
  end.
(** d.setdefault(v, []).append(i) (collection.py 692-706) *)
Fixpoint vadd (d : vdict) (v : mobj) (i : nat) : vdict :=
  match d with
  | [] => [(v, [i])]
  | (k, l) :: r => if key_eqb v k then (k, l ++ [i]) :: r else (k, l) :: vadd r v i
  end.
(** collection.py 677-690 *)
Record findex := mkFI { fi_props : dict vdict; fi_refs : list (Z * Z) }.
(** 699-702: the properties of one document *)
Fixpoint index_doc (names : list pystr) (props : dict mobj) (docid : nat) (ix : dict vdict) : res (dict vdict) :=
  match names with
  | [] => Ok ix
  | p :: r =>
      match dget props p with
      | None => index_doc r props docid ix
      | Some v => let* d := dgetE ix p in
                  if hashable v then index_doc r props docid (dset ix p (vadd d v docid)) else Err TypeError
      end
  end.
(** the generator (doc for block in reader.blocks() for doc in block) (collection.py 374-381, 697) *)
Fixpoint gen_next (fuel : nat) (r : reader) (cur : option block) : reader * option block * res (option mdoc) :=
  match fuel with
  | O => (r, cur, Err OutOfFuel)
  | S f =>
      match cur with
      | Some b => match block_next b with
                  | (b1, Err e) => (r, Some b1, Err e)
                  | (b1, Ok None) => gen_next f r None
                  | (b1, Ok (Some d)) => (r, Some b1, Ok (Some d))
                  end
      | None => match readblock r with
                | (r1, Err e) => (r1, None, Err e)
                | (r1, Ok None) => (r1, None, Ok None)
                | (r1, Ok (Some b)) => gen_next f r1 (Some b)
                end
      end
  end.
(** k in x for two strings (collection.py 701) *)
Fixpoint begins (k x : pystr) : bool :=
  match k, x with
  | [], _ => true
  | a :: k', b :: x' => N.eqb a b && begins k' x'
  | _, [] => false
  end.
Fixpoint occurs (k x : pystr) : bool := begins k x || match x with [] => false | _ :: r => occurs k r end.
(** prop in props, for properties that are no dict (collection.py 701): a list has elements, a string has parts, and anything else cannot be asked *)
Definition in_other (o : mobj) (p : pystr) : res bool :=
  match o with
  | MArr l => Ok (existsb (fun e => match e with MStr x => str_eqb x p | _ => false end) l)
  | MStr x => Ok (occurs p x)
  | _ => Err TypeError
  end.
(** props[prop] of a list or a string is a TypeError (collection.py 700-702) *)
Fixpoint index_other (names : list pystr) (o : mobj) (ix : dict vdict) : res (dict vdict) :=
  match names with
  | [] => Ok ix
  | p :: r => let* b := in_other o p in if b then Err TypeError else index_other r o ix
  end.
(** collection.py 699-702 *)
Definition index_props (names : list pystr) (o : mobj) (docid : nat) (ix : dict vdict) : res (dict vdict) :=
  match o with
  | MMap d => index_doc names d docid ix
  | _ => index_other names o ix
  end.
(** 696-702: the loop *)
Fixpoint build_loop (fuel : nat) (names : list pystr) (r : reader) (cur : option block) (ix : findex) : res findex :=
  match fuel with
  | O => Err OutOfFuel
  | S f =>
      match gen_next (S (S (length (u_rest (r_unp r)) + length (u_rest (r_unp r))))) r cur with
      | (_, _, Err e) => Err e
      | (_, _, Ok None) => Ok ix
      | (r1, cur1, Ok (Some d)) =>
          let* ref := match md_ref d with Some x => Ok x | None => Err AttributeError end in
          let* o := snd (md_properties d []) in
          let* p := index_props names o (length (fi_refs ix)) (fi_props ix) in
          build_loop f names r1 cur1 (mkFI p (fi_refs ix ++ [ref]))
      end
  end.
(** 692-706: build.  [fuel] bounds the number of documents. *)
Definition index_build (fuel : nat) (g : registry) (file : list N) (names : list pystr) : res findex :=
  let* r := reader_open g file in
  build_loop fuel names r None (mkFI (fold_left (fun d p => dset d p []) names []) []).

(** ** searching: 708-744 *)
(** the hits of each condition, 712-714 *)
Definition cond_hits (ix : findex) (kv : pystr * mobj) : res (list nat) :=
  if hashable (snd kv) then Ok (nodup Nat.eq_dec (vget (match dget (fi_props ix) (fst kv) with Some d => d | None => [] end) (snd kv)))
  else Err TypeError.
(** 716-718 *)
Definition intersect (a b : list nat) : list nat := filter (fun i => existsb (Nat.eqb i) b) a.
Definition sorted_ids (l : list nat) : list nat := ssort (fun i => i) Nat.leb l.
(** one hit, 728-744: the block (read again unless it is the last one) and the object at the position;
    every exception becomes IOError.  [take] is what is done with the block. *)
Definition fetch {A} (take : heap -> block -> block * hres A) (h : heap) (r : reader) (last : option block) (ref : Z * Z) : reader * option block * hres A :=
  let use r1 (b : block) :=
    match block_seek b (snd ref) with
    | (b1, Err e) => (r1, Some b1, (h, Err IOError))
    | (b1, Ok _) => match take h b1 with
                    | (b2, (h1, Ok x)) => (r1, Some b2, (h1, Ok x))
                    | (b2, (h1, Err _)) => (r1, Some b2, (h1, Err IOError))
                    end
    end in
  let again :=
    match reader_seek r (fst ref) with
    | (r1, Err e) => (r1, last, (h, Err IOError))
    | (r1, Ok _) => match readblock r1 with
                    | (r2, Err e) => (r2, last, (h, Err IOError))
                    | (r2, Ok None) => (r2, None, (h, Err IOError))
                    | (r2, Ok (Some b)) => use r2 b
                    end
    end in
  match last with
  | None => again
  | Some b => if b_pos b =? fst ref then use r b else again
  end.
(** the loop: the heap, what was yielded before an exception, and the exception (collection.py 708-745) *)
Fixpoint fetch_all {A} (take : heap -> block -> block * hres A) (ix : findex) (h : heap) (r : reader) (last : option block) (ids : list nat) : heap * list A * res unit :=
  match ids with
  | [] => (h, [], Ok tt)
  | i :: rest =>
      match nth_error (fi_refs ix) i with
      | None => (h, [], Err IndexError)
      | Some ref => match fetch take h r last ref with
                    | (_, _, (h1, Err e)) => (h1, [], Err e)
                    | (r1, last1, (h1, Ok x)) => let '(h2, l, e) := fetch_all take ix h1 r1 last1 rest in (h2, x :: l, e)
                    end
      end
  end.
(** collection.py 708-745 *)
Definition found (ix : findex) (conds : dict mobj) : res (list nat) :=
  match conds with
  | [] => Ok []
  | c :: cs => let* h := cond_hits ix c in
               let* hs := mapM (cond_hits ix) cs in
               Ok (sorted_ids (fold_left intersect hs h))
  end.
(** 739: next(lastblk) *)
Definition take_lazy (h : heap) (b : block) : block * hres mdoc :=
  let (b1, x) := block_next b in (b1, (h, let* d := x in match d with Some d => Ok d | None => Err StopIteration end)).
(** 741: MsgpackCodec.decode(next(lastblk._unpacker)) *)
Definition take_doc (h : heap) (b : block) : block * hres doc :=
  let (u, x) := u_next1 (b_unp b) in
  (mkB (b_data b) (b_pos b) (b_read b) u,
   match rbind x (as_bytes TypeError) with Ok data => msgpack_decode h data | Err e => (h, Err e) end).
(** a StopIteration that leaves the body of a generator becomes a RuntimeError (collection.py 708-745; Python 3.7 and later) *)
Definition raised_in_generator (e : exn) : exn := match e with StopIteration => RuntimeError | e => e end.
(** collection.py 708-745 *)
Definition index_search {A} (take : heap -> block -> block * hres A) (g : registry) (h : heap) (file : list N) (ix : findex) (conds : dict mobj) : heap * list A * res unit :=
  match found ix conds with
  | Err e => (h, [], Err e)
  | Ok [] => (h, [], Ok tt)
  | Ok ids => match reader_open g file with
              | Err e => (h, [], Err (raised_in_generator e))
              | Ok r => fetch_all take ix h r None ids
              end
  end.
(** 757-760: DocumentIndex.search over its files, in order *)
Fixpoint search_all {A} (take : heap -> block -> block * hres A) (g : registry) (h : heap) (fs : list (list N * findex)) (conds : dict mobj) : heap * list A * res unit :=
  match fs with
  | [] => (h, [], Ok tt)
  | (file, ix) :: r =>
      match index_search take g h file ix conds with
      | (h1, l, Err e) => (h1, l, Err e)
      | (h1, l, Ok _) => let '(h2, l', e) := search_all take g h1 r conds in (h2, l ++ l', e)
      end
  end.
