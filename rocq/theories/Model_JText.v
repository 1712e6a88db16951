(** Texts, offsets and spans of the Java port (java/core/src/main/java/se/lth/cs/docria/Text.java,
    Offset.java, Span.java).  A string is its list of UTF-16 units.  Offset objects live in a store
    local to the text and are named by numbers; the hash map pos2Offset is an association list (its
    iteration order is not observable).  int is unbounded.  SpanException is ValueError,
    (String/Array)IndexOutOfBoundsException IndexError.  Not modelled: setText. *)
From Verif Require Import PyBase Model_Text.
Local Open Scope Z_scope.

(** Offset.java 18-25 *)
Record joff := mkOff { o_num : Z; o_pos : Z; o_ref : Z }.
(** Text.java 26-53 *)
Record jtext := mkJText { jt_name : pystr; jt_text : list N; jt_valid : bool;
                          jt_obj : nat -> joff; jt_next : nat; jt_map : list (Z * nat) }.
(** Span.java 22-35: the start and the stop offset object *)
Definition jspan : Type := nat * nat.

(** Text.java 49-53 *)
Definition jt_new (name : pystr) (text : list N) : jtext :=
  mkJText name text true (fun _ => mkOff 0 0 0) O [].
(** Text.java 37-39: setValidating *)
Definition jt_set_validating (t : jtext) (b : bool) : jtext :=
  mkJText (jt_name t) (jt_text t) b (jt_obj t) (jt_next t) (jt_map t).

(** Text.java 118, 121, 146, 153: Int2ObjectOpenHashMap.get *)
Fixpoint zget (m : list (Z * nat)) (p : Z) : option nat :=
  match m with [] => None | (q, o) :: r => if q =? p then Some o else zget r p end.
(** Text.java 64, 97, 103, 149, 156: Int2ObjectOpenHashMap.put *)
Fixpoint zput (m : list (Z * nat)) (p : Z) (o : nat) : list (Z * nat) :=
  match m with [] => [(p, o)] | (q, x) :: r => if q =? p then (q, o) :: r else (q, x) :: zput r p o end.

(** Text.java 28: pos2Offset with new content *)
Definition jt_with_map (t : jtext) (m : list (Z * nat)) : jtext :=
  mkJText (jt_name t) (jt_text t) (jt_valid t) (jt_obj t) (jt_next t) m.
(** Offset.java 19-21: assignment to the fields of an offset object *)
Definition jt_set (t : jtext) (o : nat) (x : joff) : jtext :=
  mkJText (jt_name t) (jt_text t) (jt_valid t) (fun i => if Nat.eqb i o then x else jt_obj t i)
          (jt_next t) (jt_map t).
(** Offset.java 23-25: new Offset(p) *)
Definition jt_alloc (t : jtext) (p : Z) : jtext * nat :=
  (mkJText (jt_name t) (jt_text t) (jt_valid t)
           (fun i => if Nat.eqb i (jt_next t) then mkOff 0 p 0 else jt_obj t i) (Datatypes.S (jt_next t)) (jt_map t),
   jt_next t).

(** Text.java 145-157: the offset at a position, made and entered if there is none
    (95-99 and 101-105 do the same with a sorted copy of the keys) *)
Definition jt_place (t : jtext) (p : Z) : jtext * nat :=
  match zget (jt_map t) p with
  | Some o => (t, o)
  | None => let (t1, o) := jt_alloc t p in (jt_with_map t1 (zput (jt_map t1) p o), o)
  end.
(** Text.java 135-160: span *)
Definition jt_span (t : jtext) (a b : Z) : jtext * res jspan :=
  let len := zlen (jt_text t) in
  if jt_valid t && negb ((0 <=? a) && (a <? len) && ((0 <=? b) && (b <=? len)) && (a <=? b))
  then (t, Err ValueError)
  else let (t1, x) := jt_place t a in
       let (t2, y) := jt_place t1 b in (t2, Ok (x, y)).

(** Text.java 70-72: reset *)
Definition jt_reset (t : jtext) : jtext :=
  fold_left (fun t e => let x := jt_obj t (snd e) in jt_set t (snd e) (mkOff (o_num x) (o_pos x) 0)) (jt_map t) t.
(** Span.java 37-40: incref *)
Definition incref1 (t : jtext) (o : nat) : jtext :=
  let x := jt_obj t o in jt_set t o (mkOff (o_num x) (o_pos x) (o_ref x + 1)).
Definition jt_incref (t : jtext) (s : jspan) : jtext := incref1 (incref1 t (fst s)) (snd s).

(** Text.java 118, 121: pos2Offset.get(p).id = k; the positions come from the keys of the map *)
Definition number (t : jtext) (p k : Z) : jtext :=
  match zget (jt_map t) p with
  | Some o => let x := jt_obj t o in jt_set t o (mkOff k (o_pos x) (o_ref x))
  | None => t
  end.
(** String.substring (Text.java 123) *)
Definition java_sub {A} (x : list A) (a b : Z) : res (list A) :=
  if (0 <=? a) && (a <=? b) && (b <=? zlen x) then Ok (sub x a b) else Err IndexError.
(** Text.java 119-125 *)
Fixpoint cut_loop (t : jtext) (k start : Z) (ps : list Z) : jtext * res (list (list N)) :=
  match ps with
  | [] => (t, Ok [])
  | p :: r =>
      let t1 := number t p k in
      match java_sub (jt_text t1) start p with
      | Err e => (t1, Err e)
      | Ok x => match cut_loop t1 (k + 1) p r with
                | (t2, Ok xs) => (t2, Ok (x :: xs))
                | (t2, Err e) => (t2, Err e)
                end
      end
  end.
(** Text.java 84-91: the unreferenced offsets leave the map, by their positions *)
Definition drop_unused (t : jtext) : jtext :=
  let gone := map (fun e => o_pos (jt_obj t (snd e)))
                  (filter (fun e => o_ref (jt_obj t (snd e)) =? 0) (jt_map t)) in
  jt_with_map t (filter (fun e => negb (existsb (Z.eqb (fst e)) gone)) (jt_map t)).
(** Text.java 81-129: compile; the sorted set is never empty *)
Definition jt_compile (t : jtext) : jtext * res (list (list N)) :=
  let t1 := drop_unused t in
  let t2 := fst (jt_place t1 0) in
  let t3 := fst (jt_place t2 (zlen (jt_text t))) in
  match fold_right zset_insert [] (map fst (jt_map t3)) with
  | [] => (t3, Err RuntimeError)
  | [_] => (t3, Ok [[]])
  | p :: r => cut_loop (number t3 p 0) 1 p r
  end.
(** Document.java 329-356: compile, for one text; the given spans are those in span fields of nodes *)
Definition jt_prepare (t : jtext) (spans : list jspan) : jtext * res (list (list N)) :=
  jt_compile (fold_left jt_incref spans (jt_reset t)).

(** MsgpackCodec.java 594-602, 605 (with Text.java 63-65): one offset object for the start and for the
    end of each part, entered in this order *)
Fixpoint read_parts (t : jtext) (pos : Z) (parts : list (list N)) : jtext * list nat :=
  match parts with
  | [] => (t, [])
  | x :: r => let p := pos + zlen x in
              let (t1, o) := jt_alloc t p in
              let (t2, os) := read_parts (jt_with_map t1 (zput (jt_map t1) p o)) p r in
              (t2, o :: os)
  end.
Definition jt_read (name : pystr) (parts : list (list N)) : jtext * list nat :=
  let (t1, o) := jt_alloc (jt_new name (List.concat parts)) 0 in
  let (t2, os) := read_parts (jt_with_map t1 (zput (jt_map t1) 0 o)) 0 parts in
  (t2, o :: os).

(** Span.java 47-53, 86-89: start, stop, length *)
Definition js_start (t : jtext) (s : jspan) : Z := o_pos (jt_obj t (fst s)).
Definition js_stop (t : jtext) (s : jspan) : Z := o_pos (jt_obj t (snd s)).
Definition js_length (t : jtext) (s : jspan) : Z := js_stop t s - js_start t s.
(** Offset.java 19, Span.java 55-61: the numbers MsgpackCodec writes for a span, startOffset().id and stopOffset().id *)
Definition js_ids (t : jtext) (s : jspan) : Z * Z := (o_num (jt_obj t (fst s)), o_num (jt_obj t (snd s))).
(** Span.java 91-98: charAt *)
Definition js_char_at (t : jtext) (s : jspan) (i : Z) : res N :=
  if (js_stop t s <=? i + js_start t s) || (i <? 0) then Err IndexError
  else let k := i + js_start t s in
       if 0 <=? k then match nth_error (jt_text t) (Z.to_nat k) with Some c => Ok c | None => Err IndexError end
       else Err IndexError.
(** Span.java 100-109: subSequence *)
Definition js_sub (t : jtext) (s : jspan) (a b : Z) : res (list N) :=
  if js_stop t s <? b + js_start t s then Err IndexError
  else java_sub (jt_text t) (a + js_start t s) (b + js_start t s).
(** Span.java 147-150: toString (also chars and codePoints, 137-145) *)
Definition js_string (t : jtext) (s : jspan) : res (list N) := java_sub (jt_text t) (js_start t s) (js_stop t s).
(** Span.java 73-79: intersects, covers *)
Definition js_intersects (t : jtext) (s : jspan) (t' : jtext) (s' : jspan) : bool :=
  (js_start t s <=? js_stop t' s') && (js_start t' s' <=? js_stop t s).
Definition js_covers (t : jtext) (s : jspan) (t' : jtext) (s' : jspan) : bool :=
  (js_start t s <=? js_start t' s') && (js_stop t' s' <=? js_stop t s).
(** Span.java 131-135: compareTo *)
Definition js_compare (t : jtext) (s : jspan) (t' : jtext) (s' : jspan) : comparison :=
  match Z.compare (js_start t s) (js_start t' s') with
  | Eq => Z.compare (js_stop t s) (js_stop t' s')
  | c => c
  end.
(** Offset.java 32-41: equals *)
Definition off_eq (x y : joff) : bool := (o_num x =? o_num y) && (o_pos x =? o_pos y).
(** Text.java 174-183: equals *)
Definition jt_eq (t t' : jtext) : bool := str_eqb (jt_name t) (jt_name t') && str_eqb (jt_text t) (jt_text t').
(** Span.java 111-121: equals *)
Definition js_eq (t : jtext) (s : jspan) (t' : jtext) (s' : jspan) : bool :=
  jt_eq t t' && off_eq (jt_obj t (fst s)) (jt_obj t' (fst s')) && off_eq (jt_obj t (snd s)) (jt_obj t' (snd s')).
