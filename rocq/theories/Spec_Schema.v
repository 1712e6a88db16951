(** What a printed schema tells. *)
From Verif Require Import PyBase Model_Heap Model_Layer Model_Types Model_Document.
Local Open Scope Z_scope.

(** the schema of the layer called k: the fields in order, with type and options; options are compared by their str() *)
Definition schema_of (vstr : value -> pystr) (h : heap) (d : doc) (k : pystr) : option (list (pystr * tname * list (pystr * pystr))) :=
  match dget (d_layers d) k with
  | None => None
  | Some l => Some (map (fun ft => (fst ft, dt_name (snd ft), map (fun kv => (fst kv, vstr (snd kv))) (dt_opts (snd ft)))) (l_fields (h_layer h l)))
  end.
(** names that can be told apart in print: no newline in layer names, no blank or newline in field names, no = in names of options, no comma or
    newline in options; and types that are known *)
Definition printable (vstr : value -> pystr) (h : heap) (d : doc) : Prop :=
  NoDup (dkeys (d_layers d)) /\
  forall k l, In (k, l) (d_layers d) -> ~ In 10%N k /\
    forall f t, In (f, t) (l_fields (h_layer h l)) -> ~ In 10%N f /\ ~ In 32%N f /\ dt_name t <> TUnknown /\
      forall o v, In (o, v) (dt_opts t) -> ~ In 61%N o /\ ~ In 10%N o /\ ~ In 44%N o /\ ~ In 10%N (vstr v) /\ ~ In 44%N (vstr v).
