(** Equality and hashing of offsets, spans and data types (py/docria/model.py 552-573, 603-610, 952-956).
    A hash is modelled by the tuple that is hashed; the identity of a Text object is a number. *)
From Verif Require Import PyBase Model_Text Model_Heap Model_Query Model_Repr.
Local Open Scope Z_scope.

(** model.py 552-561: Offset, with its reference count *)
Record offset := mkOff { off_id : Z; off_ref : Z; off_pos : Z }.
(** model.py 555-558 *)
Definition new_offset (i : Z) : offset := mkOff (-1) 0 i.
(** model.py 560-561: Offset.incref *)
Definition incref (o : offset) : offset := mkOff (off_id o) (off_ref o + 1) (off_pos o).
(** model.py 569-570: Offset.__eq__; [is] says whether both are one object *)
Definition offset_eq (is : bool) (a b : offset) : bool := is || (off_pos a =? off_pos b).
(** model.py 572-573: Offset.__hash__, the number that is hashed *)
Definition offset_key (o : offset) : Z := off_pos o.

(** model.py 603-604: TextSpan.__hash__, the tuple that is hashed *)
Definition span_key (text_id : nat) (x : span) : nat * Z * Z := (text_id, sp_start x, sp_stop x).
(** model.py 606-610: TextSpan.__eq__ with a string *)
Definition span_eq_str (x : span) (t : pystr) : bool := str_eqb (span_str x) t.

Section Types.
(** As in Model_Query: identity of unknown objects. *)
Variable same : value -> value -> bool.
(** model.py 955-956: DataType.__eq__ *)
Definition dtype_eq (a b : dtype) : bool := tname_eqb (dt_name a) (dt_name b) && dict_eqb same (dt_opts a) (dt_opts b).
End Types.
(** model.py 952-953: DataType.__hash__, the tuple that is hashed *)
Definition dtype_key (a : dtype) : tname * list (pystr * value) := (dt_name a, ssort fst str_leb (dt_opts a)).
