(** Documents of the Python port that pass through the Java port. *)
From Coq Require Import Permutation.
From Verif Require Import PyBase Model_Text Model_Heap Model_Layer Model_Types Model_Msgpack Model_Document Model_JUnits Model_JCodec
  Spec_Layer Spec_Types Spec_Msgpack Spec_Document Spec_Codec Spec_JUnits Spec_JCodec Spec_JEncode.
Local Open Scope Z_scope.

(** ** the maps of a document of the Java port, in another order (TreeMap: in the order of the keys; HashMap: in any order) *)
Definition reordered {A} (R : A -> A -> Prop) (l m : dict A) : Prop := exists l', Permutation l l' /\ Forall2 (again R) l' m.
Definition type_reordered (t u : jdtype) : Prop := ty_name u = ty_name t /\ Permutation (ty_args t) (ty_args u).
Definition layer_reordered (l m : dict jdtype * list (dict jv)) : Prop :=
  reordered type_reordered (fst l) (fst m) /\ Forall2 (fun r q => forall f, dget q f = dget r f) (snd l) (snd m).
Record doc_reordered (j k : jdoc) : Prop := {
  dr_props : Permutation (jd_props j) (jd_props k);
  dr_texts : Permutation (jd_texts j) (jd_texts k);
  dr_layers : reordered layer_reordered (jd_layers j) (jd_layers k) }.

(** ** the same document in Python, but for the order of its maps *)
Record layer_content (h : heap) (d : doc) (h' : heap) (d' : doc) (l l' : lid) : Prop := {
  lc_names : Permutation (dkeys (l_fields (h_layer h l))) (dkeys (l_fields (h_layer h' l')));
  lc_types : forall f t, dget (l_fields (h_layer h l)) f = Some t -> exists t', dget (l_fields (h_layer h' l')) f = Some t' /\
      dt_class t' = KBase /\ dt_name t' = dt_name t /\ Permutation (dt_opts t) (dt_opts t');
  lc_len : length (layer_iter h' l') = length (layer_iter h l);
  lc_values : forall p n n' f t, at_pos h l p n -> at_pos h' l' p n' -> dget (l_fields (h_layer h l)) f = Some t ->
      same_value h (same_node h d h' d') t (dget (n_fieldsof h n) f) (dget (n_fieldsof h' n') f);
  lc_keys : forall p n' f, at_pos h' l' p n' -> In f (dkeys (n_fieldsof h' n')) -> In f (dkeys (l_fields (h_layer h l))) }.
Record same_content (h : heap) (d : doc) (h' : heap) (d' : doc) : Prop := {
  sc_props : exists ps ps', d_props d = MMap ps /\ d_props d' = MMap ps' /\ Permutation ps ps';
  sc_texts : Permutation (d_texts d) (d_texts d');
  sc_names : Permutation (dkeys (d_layers d)) (dkeys (d_layers d'));
  sc_layers : forall x l, dget (d_layers d) x = Some l -> exists l', dget (d_layers d') x = Some l' /\ l_nameof h' l' = x /\ layer_content h d h' d' l l' }.
