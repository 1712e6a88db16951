(** Model of [Text] and [TextSpan] (py/docria/model.py 576-825).
    A span value holds the string of its Text object, and the two offsets.
    Simplifications: [Text.name] and [Text.spantype] play no role in these functions and
    live in Model_Types.v; [trim_] (in-place) is modelled by the new offsets it stores. *)
From Verif Require Import PyBase.
Local Open Scope Z_scope.

(** model.py 576-598: TextSpan = (text, _start, _stop) *)
Record span := mkSpan { sp_text : pystr; sp_start : Z; sp_stop : Z }.

(** model.py 584-590: TextSpan.__init__ asserts start <= stop *)
Definition new_span (t : pystr) (start stop : Z) : res span :=
  if start <=? stop then Ok (mkSpan t start stop) else Err AssertionError.

(** model.py 600-601: TextSpan.__len__ *)
Definition span_len (x : span) : Z := sp_stop x - sp_start x.

(** model.py 743-744: TextSpan.__str__ = text.text[start:stop] (a Python slice) *)
Definition span_str (x : span) : pystr :=
  py_slice (sp_text x) (Some (sp_start x)) (Some (sp_stop x)).

(** model.py 791-808: Text.__getitem__ with a slice (step None or 1) *)
Definition text_slice (t : pystr) (a b : option Z) : res span :=
  let start := slice_start (zlen t) a in
  let stop := slice_stop (zlen t) b in
  if stop <? start then Err DataValidationError
  else if (zlen t <? start) || (zlen t <? stop) then Err DataValidationError
  else new_span t start stop.

(** model.py 809-821: Text.__getitem__ with a pair *)
Definition text_pair (t : pystr) (start stop : Z) : res span :=
  if stop <? start then Err DataValidationError
  else if (start <? 0) || (stop <? 0) || (zlen t <? start) || (zlen t <? stop)
  then Err DataValidationError
  else new_span t start stop.

(** model.py 822-823: Text.__getitem__ with an int *)
Definition text_int (t : pystr) (i : Z) : res N := py_getitem t i.

(** model.py 612-618: TextSpan.__getitem__ with a slice (step None or 1) *)
Definition span_slice (x : span) (a b : option Z) : res span :=
  let start := slice_start (span_len x) a in
  let stop := slice_stop (span_len x) b in
  text_slice (sp_text x) (Some (start + sp_start x)) (Some (stop + sp_start x)).

(** model.py 619-620: TextSpan.__getitem__ with a pair *)
Definition span_pair (x : span) (a b : Z) : res span :=
  text_slice (sp_text x) (Some (a + sp_start x)) (Some (b + sp_start x)).

(** model.py 621-623: TextSpan.__getitem__ with an int:
    start of slice(i, i+1).indices(len(self)), then an unchecked lookup in the whole text *)
Definition span_int (x : span) (i : Z) : res N :=
  let start := slice_norm (span_len x) i in
  py_getitem (sp_text x) (start + sp_start x).

(** model.py 627-633: TextSpan.text_to *)
Definition span_text_to (x r : span) : pystr :=
  py_slice (sp_text x) (Some (sp_start x)) (Some (sp_stop r)).
(** model.py 635-641: TextSpan.span_to *)
Definition span_to (x r : span) : res span :=
  text_slice (sp_text x) (Some (sp_start x)) (Some (sp_stop r)).

(** model.py 643-655: TextSpan.covered_by; a TextSpan argument and a (start, stop) tuple
    take the same comparison *)
Definition covered_by_tuple (x : span) (start stop : Z) : bool :=
  (start <=? sp_start x) && (sp_stop x <=? stop).
Definition covered_by (x y : span) : bool :=
  (sp_start y <=? sp_start x) && (sp_stop x <=? sp_stop y).

(** model.py 657-669: TextSpan.intersected_by *)
Definition intersected_by_tuple (x : span) (start stop : Z) : bool :=
  (sp_start x <? stop) && (start <? sp_stop x).
Definition intersected_by (x y : span) : bool :=
  (sp_start x <? sp_stop y) && (sp_start y <? sp_stop x).

(** algorithm.py 280-287: is_covered_by *)
Definition is_covered_by (a b : span) : bool :=
  (sp_start b <=? sp_start a) && (sp_stop a <=? sp_stop b).

(** model.py 606-610: TextSpan.__eq__ between spans: the offsets only *)
Definition span_eq (a b : span) : bool :=
  (sp_start a =? sp_start b) && (sp_stop a =? sp_stop b).

Section Trim.
(** str.isspace on one character (CPython's Unicode table), left abstract *)
Variable isspace : N -> bool.

(** model.py 683-687: for w in str(self): if not w.isspace(): break; new_start += 1 *)
Fixpoint trim_forward (cs : pystr) (pos : Z) : Z :=
  match cs with
  | [] => pos
  | c :: r => if isspace c then trim_forward r (pos + 1) else pos
  end.

(** model.py 690-694: n iterations, each looks at text[new_stop-1] *)
Fixpoint trim_backward (t : pystr) (n : nat) (pos : Z) : res Z :=
  match n with
  | O => Ok pos
  | S n' => let* c := py_getitem t (pos - 1) in
            if isspace c then trim_backward t n' (pos - 1) else Ok pos
  end.

(** model.py 786-789: Text.offset *)
Definition text_offset (t : pystr) (i : Z) : res Z :=
  if (0 <=? i) && (i <=? zlen t) then Ok i else Err AssertionError.

(** model.py 671-706: TextSpan._trim_offsets *)
Definition trim_offsets (x : span) : res (option (Z * Z)) :=
  if span_len x =? 0 then Ok None
  else
    let* first := py_getitem (sp_text x) (sp_start x) in
    let* bounds :=
      if isspace first then Ok (trim_forward (span_str x) (sp_start x), sp_stop x)
      else
        let* last := py_getitem (sp_text x) (sp_stop x - 1) in
        if isspace last
        then let* e := trim_backward (sp_text x) (Z.to_nat (span_len x)) (sp_stop x) in
             Ok (sp_start x, e)
        else Ok (sp_start x, sp_stop x) in
    let '(new_start, new_stop) := bounds in
    if new_stop <=? new_start then Ok (Some (sp_start x, sp_start x))
    else if negb (new_start =? sp_start x) || negb (new_stop =? sp_stop x)
    then let* a := text_offset (sp_text x) new_start in
         let* b := text_offset (sp_text x) new_stop in
         Ok (Some (a, b))
    else Ok None.

(** model.py 720-730: TextSpan.trim (and 708-718 trim_, which stores the same offsets) *)
Definition trim (x : span) : res span :=
  let* o := trim_offsets x in
  match o with
  | None => Ok x
  | Some (a, b) => new_span (sp_text x) a b
  end.
End Trim.

(** model.py 769-784: Text.compile(offsets) *)
Fixpoint text_compile (t : pystr) (offsets : list Z) : list pystr :=
  match offsets with
  | a :: ((b :: _) as r) => py_slice t (Some a) (Some b) :: text_compile t r
  | _ => []
  end.

(** model.py 2007-2014: offsets.add(0); offsets.add(len); sorted(offsets).
    A Python set of ints followed by sorted: sorted list without duplicates. *)
Fixpoint zset_insert (x : Z) (l : list Z) : list Z :=
  match l with
  | [] => [x]
  | y :: r => if x <? y then x :: l else if x =? y then l else y :: zset_insert x r
  end.
Definition sorted_offsets (t : pystr) (collected : list Z) : list Z :=
  fold_right zset_insert [] (0 :: zlen t :: collected).

(** model.py 2014: {k: v for k, v in zip(sorted_offsets, range(len(offsets)))} *)
Fixpoint offset_id (l : list Z) (o : Z) : option Z :=
  match l with
  | [] => None
  | x :: r => if x =? o then Some 0 else option_map (fun i => i + 1) (offset_id r o)
  end.

(** codec.py 743-749: running positions of the segments, plus the end *)
Fixpoint seg_offsets (pos : Z) (segs : list pystr) : list Z :=
  match segs with
  | [] => [pos]
  | x :: r => pos :: seg_offsets (pos + zlen x) r
  end.
(** codec.py 751: "".join(text) *)
Definition join_segs (segs : list pystr) : pystr := List.concat segs.
