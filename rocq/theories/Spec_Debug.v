(** What MsgpackCodec.debug is to print of an encoded document, and what a data frame of a layer is to contain. *)
From Verif Require Import PyBase Model_Text Model_Heap Model_Layer Model_Types Model_Msgpack Model_Codec Model_Debug.
Local Open Scope Z_scope.
(** ** debug *)
Definition field_shown (f : efield) : line :=
  mkLine (s "  - %s = %s") [MStr (ef_name f); match ef_args f with None => MStr (ef_type f) | Some a => MMap [(s "type", MStr (ef_type f)); (s "args", MMap a)] end].
Definition schema_shown (l : elayer) : list line := mkLine (s " * %s") [MStr (el_name l)] :: map field_shown (el_fields l).
Definition text_shown (t : pystr * list pystr) : line := mkLine (s "%s = %s") [MStr (fst t); MArr (map MStr (snd t))].
Definition column_shown (f : efield) : list line :=
  [mkLine (s "  - %s") [MStr (ef_name f)]; mkLine (s "  - Special encoding: %s") [MBool false]; mkLine (s " ==> %s") [MArr (ef_col f)]].
Definition layer_shown (ln : elayer * Z) : list line :=
  mkLine (s "[%s]") [MStr (el_name (fst ln))] :: mkLine (s " * Segment length: %d ") [MInt (snd ln)] :: mkLine (s " * Num nodes: %d") [MInt (el_num (fst ln))] ::
  flat_map column_shown (el_fields (fst ln)).
(** the lines for an encoded document whose texts take n bytes and whose layers take ns bytes *)
Definition shown (e : edoc) (n : Z) (ns : list Z) : list line :=
  [mkLine (s "-- Content --") []; mkLine (s "Magic: %s") [MBin (s "DM_1")]; mkLine (s "Document properties:") []; mkLine (s "%s") [ed_props e];
   mkLine (s "Types:") []; mkLine (s "%s") [MArr (map (fun l => MStr (el_name l)) (ed_layers e))]; mkLine (s "Schema: ") []]
  ++ flat_map schema_shown (ed_layers e)
  ++ [mkLine (s "Texts: ") []; mkLine (s " * Length: %d bytes") [MInt n]]
  ++ map text_shown (ed_texts e)
  ++ [mkLine (s "Types data:") []]
  ++ flat_map layer_shown (combine (ed_layers e) ns).
(** the sizes are those of the packed texts and layers *)
Definition sizes_of (e : edoc) (n : Z) (ns : list Z) : Prop :=
  (exists b, pack (texts_obj (ed_texts e)) = Ok b /\ n = zlen b) /\ Forall2 (fun l k => exists b, pack_all (layer_objs l) = Ok b /\ k = zlen b) (ed_layers e) ns.
(** a is the beginning of b *)
Definition begins {A} (a b : list A) : Prop := exists c, b = a ++ c.
(** ** data frames *)
(** the cell of a field of type t whose value in the node is v, if any *)
Inductive cell_of (texts : bool) (t : tname) : option value -> value -> Prop :=
| cell_absent : cell_of texts t None VNone
| cell_text c x a b : texts = true -> t = TSpan -> cell_of texts t (Some (VSpan c x a b)) (VStr (span_str (mkSpan x a b)))
| cell_value v : texts = false \/ t <> TSpan -> cell_of texts t (Some v) v.

(** ** numbers *)
(** a line that prints a number *)
Definition counts (l : line) : Prop := In (ln_format l) [s " * Length: %d bytes"; s " * Segment length: %d "; s " * Num nodes: %d"].
Inductive number : mobj -> Prop :=
| nb_int i : number (MInt i)
| nb_bool b : number (MBool b).
