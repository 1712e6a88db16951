(** Which contents of a file the Java port refuses, and with which exception. *)
From Verif Require Import PyBase Model_Heap Model_Msgpack Model_Codec Model_JCodec Spec_Msgpack Spec_Names.
Local Open Scope Z_scope.

(** properties and options that the Java port keeps; nil, arrays and maps are no such values *)
Definition kept (o : mobj) : Prop := match o with MNil | MArr _ | MMap _ => False | _ => True end.
Definition kept_all (d : dict mobj) : Prop := Forall (fun ko => kept (snd ko) /\ python_value (snd ko)) d.
(** a type without options must be one of these *)
Definition bare_types : list pystr := [s "bin"; s "str"; s "i1"; s "f64"; s "i32"; s "i64"].
Definition field_kept (f : efield) : Prop := match ef_args f with None => In (ef_type f) bare_types | Some a => kept_all a end.
Definition layer_kept (l : elayer) : Prop := Forall field_kept (el_fields l) /\ NoDup (map ef_name (el_fields l)).
(** the exception for a field after fields with the given names *)
Inductive field_refused (names : list pystr) (f : efield) : exn -> Prop :=
(** a NullPointerException *)
| fr_unknown : ef_args f = None -> ~ In (ef_type f) (map snd wire_names) -> field_refused names f AttributeError
(** an UnsupportedOperationException *)
| fr_bare : ef_args f = None -> In (ef_type f) (map snd wire_names) -> ~ In (ef_type f) bare_types -> field_refused names f NotImplementedError
| fr_option a k o a' : ef_args f = Some (a ++ (k, o) :: a') -> kept_all a -> ~ kept o -> python_value o -> field_refused names f NotImplementedError
(** an IllegalArgumentException *)
| fr_twice : field_kept f -> In (ef_name f) names -> field_refused names f ValueError.
(** the exception for the contents e; what comes before is in order *)
Inductive contents_refused (e : edoc) : exn -> Prop :=
| cr_prop a k o a' : ed_props e = MMap (a ++ (k, o) :: a') -> kept_all a -> ~ kept o -> python_value o -> contents_refused e NotImplementedError
| cr_field ps ls l ls' fs f fs' x : ed_props e = MMap ps -> kept_all ps -> ed_layers e = ls ++ l :: ls' -> Forall layer_kept ls ->
    el_fields l = fs ++ f :: fs' -> Forall field_kept fs -> NoDup (map ef_name fs) -> field_refused (map ef_name fs) f x -> contents_refused e x
| cr_text ps ts k p ts' : ed_props e = MMap ps -> kept_all ps -> Forall layer_kept (ed_layers e) -> ed_texts e = ts ++ (k, p) :: ts' -> NoDup (map fst ts) -> In k (map fst ts) ->
    contents_refused e ValueError
| cr_nodes ps l ls : ed_props e = MMap ps -> kept_all ps -> Forall layer_kept (ed_layers e) -> NoDup (map fst (ed_texts e)) -> ed_layers e = l :: ls -> - 2147483648 <= el_num l < 0 ->
    contents_refused e ValueError.
