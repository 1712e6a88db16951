(** The one text that ElementTree.write makes for a tree, out of the many XML texts for it; also for values that XML cannot express. *)
From Verif Require Import PyBase Model_Xml Spec_XmlText.
From Verif Require Spec_Xml.
Local Open Scope N_scope.

Definition is_surrogate (c : N) : Prop := 0xD800 <= c <= 0xDFFF.
(** the value of an attribute between its quotes *)
Inductive spelled : pystr -> pystr -> Prop :=
| sp_nil : spelled [] []
| sp_amp v x : spelled v x -> spelled (38 :: v) (s "&amp;" ++ x)
| sp_lt v x : spelled v x -> spelled (60 :: v) (s "&lt;" ++ x)
| sp_gt v x : spelled v x -> spelled (62 :: v) (s "&gt;" ++ x)
| sp_quot v x : spelled v x -> spelled (34 :: v) (s "&quot;" ++ x)
| sp_return v x : spelled v x -> spelled (13 :: v) (s "&#13;" ++ x)
| sp_line v x : spelled v x -> spelled (10 :: v) (s "&#10;" ++ x)
| sp_tab v x : spelled v x -> spelled (9 :: v) (s "&#09;" ++ x)
| sp_surrogate c n v x : is_surrogate c -> Spec_Xml.int_text (Z.of_N c) n -> spelled v x -> spelled (c :: v) (s "&#" ++ n ++ s ";" ++ x)
| sp_other c v x : ~ In c [38; 60; 62; 34; 13; 10; 9] -> ~ is_surrogate c -> spelled v x -> spelled (c :: v) (c :: x).
Inductive attrs_form : dict pystr -> pystr -> Prop :=
| af_nil : attrs_form [] []
| af_cons k n v x d y : attr_name k n -> spelled v x -> attrs_form d y -> attrs_form ((k, v) :: d) (s " " ++ n ++ s "=""" ++ x ++ s """" ++ y).
Inductive tree_form : xml -> pystr -> Prop :=
| tf_empty t d x : ncname t -> attrs_form d x -> tree_form (Elem t d []) (s "<" ++ t ++ x ++ s " />")
| tf_full t d x k kids y : ncname t -> attrs_form d x -> trees_form (k :: kids) y -> tree_form (Elem t d (k :: kids)) (s "<" ++ t ++ x ++ s ">" ++ y ++ s "</" ++ t ++ s ">")
with trees_form : list xml -> pystr -> Prop :=
| ts_nil : trees_form [] []
| ts_cons k x kids y : tree_form k x -> trees_form kids y -> trees_form (k :: kids) (x ++ y).
(** names that XML allows, outside of namespaces other than that of xml *)
Inductive well_named : xml -> Prop :=
| wn t d kids : ncname t -> Forall (fun kv => exists n, attr_name (fst kv) n) d -> Forall well_named kids -> well_named (Elem t d kids).
