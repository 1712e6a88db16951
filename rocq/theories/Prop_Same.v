(** Property C83: equality and hashing of offsets, spans and data types; parts of spans given by a pair. *)
From Verif Require Import PyBase Model_Text Model_Heap Model_Layer Model_Types Model_Query Model_Nodes Model_Same Spec_Text Spec_Types Spec_Errors Spec_Same Proof_Same Spec_Layer
  Prop_Text Prop_Query.
Local Open Scope Z_scope.

(** span[(a, b)] inside the span is the part from a to b. *)
Theorem C83_pair : forall x a b, in_bounds x -> 0 <= a <= b -> b <= zlen (span_str x) ->
  exists y, span_pair x a b = Ok y /\ inside y x /\ in_bounds y /\ sp_start y = sp_start x + a /\ span_str y = doc_slice (span_str x) (Some a) (Some b).
Proof. exact span_pair_inside. Qed.
Print Assumptions C83_pair.
(** Elsewhere in the text it is the part of the text at this distance, inside the span or not; a pair in the wrong order is refused. *)
Theorem C83_pair_reach : forall x a b, in_bounds x -> 0 <= sp_start x + a -> sp_start x + a <= zlen (sp_text x) -> 0 <= sp_start x + b <= zlen (sp_text x) ->
  span_pair x a b = if b <? a then Err DataValidationError else Ok (mkSpan (sp_text x) (sp_start x + a) (sp_start x + b)).
Proof. exact span_pair_reach. Qed.
Print Assumptions C83_pair_reach.
Theorem C83_pair_leaves_refuted : exists x a b y, in_bounds x /\ span_pair x a b = Ok y /\ ~ inside y x /\ span_slice x (Some a) (Some b) <> Ok y.
Proof.
  exists (mkSpan ex_text 1 3), 0, 4, (mkSpan ex_text 1 5). split; [vm_compute; repeat split; intros; discriminate|]. split; [reflexivity|].
  split; [intros (_ & _ & H); vm_compute in H; congruence|]. vm_compute. discriminate.
Qed.
Print Assumptions C83_pair_leaves_refuted.
Example C83_pair_case : in_bounds ex_span /\ zlen (span_str ex_span) = 4 /\ span_pair ex_span 1 4 = Ok (mkSpan ex_text 2 5) /\ span_str (mkSpan ex_text 2 5) = s "b c" /\
  span_pair ex_span 3 1 = Err DataValidationError.
Proof. vm_compute. repeat split; intros; discriminate. Qed.

(** Two spans are equal if and only if their ends are; spans of one text are then the same part of it. *)
Theorem C83_spans : forall a b, (span_eq a b = true <-> sp_start a = sp_start b /\ sp_stop a = sp_stop b) /\
  (sp_text a = sp_text b -> span_eq a b = true -> span_str a = span_str b).
Proof. intros a b. split; [apply span_eq_iff|]. intros E H. apply (span_eq_one_text a b E H). Qed.
Print Assumptions C83_spans.
(** The hashed tuples agree for equal spans of one text ... *)
Theorem C83_span_hash_partial : forall i j a b, span_key i a = span_key j b <-> i = j /\ span_eq a b = true.
Proof. exact span_key_iff. Qed.
Print Assumptions C83_span_hash_partial.
(** ... but not for equal spans of two texts (whose strings may differ as well). *)
Theorem C83_span_hash_refuted : exists i j a b, span_eq a b = true /\ span_key i a <> span_key j b /\ span_str a <> span_str b.
Proof. exists 0%nat, 1%nat, (mkSpan (s "ab") 0 1), (mkSpan (s "ba") 0 1). vm_compute. repeat split; discriminate. Qed.
Print Assumptions C83_span_hash_refuted.
(** Together with strings, == is not transitive. *)
Theorem C83_span_string_refuted : exists a b t, span_eq_str a t = true /\ span_eq a b = true /\ span_eq_str b t = false.
Proof. exists (mkSpan (s "ab") 0 1), (mkSpan (s "ba") 0 1), (s "a"). vm_compute. repeat split. Qed.
Print Assumptions C83_span_string_refuted.

(** Offsets are equal if and only if their numbers are, and then hash equally; counting references changes neither. *)
Theorem C83_offsets : forall a b, (offset_eq false a b = true <-> off_pos a = off_pos b) /\ (offset_eq false a b = true <-> offset_key a = offset_key b) /\
  offset_eq true a a = true /\ offset_eq false (incref a) a = true /\ off_ref (incref a) = off_ref a + 1.
Proof. intros a b. unfold offset_eq, offset_key. cbn. rewrite Z.eqb_refl, !Z.eqb_eq. tauto. Qed.
Print Assumptions C83_offsets.
Example C83_offsets_case : offset_eq false (new_offset 3) (incref (new_offset 3)) = true /\ offset_eq false (new_offset 3) (new_offset 4) = false.
Proof. vm_compute. auto. Qed.

(** Two data types are equal if and only if they have one name and the same options. *)
Theorem C83_types : forall same a b, options_ok a -> options_ok b ->
  (dtype_eq same a b = true <-> dt_name a = dt_name b /\ options_match (same_value same) (dt_opts a) (dt_opts b)).
Proof. exact dtype_eq_iff. Qed.
Print Assumptions C83_types.
(** Equal data types are hashed over the same name and the same options in the same order, whatever order they were given in. *)
Theorem C83_type_hash : forall same a b, options_ok a -> options_ok b -> dtype_eq same a b = true ->
  fst (dtype_key a) = fst (dtype_key b) /\ Forall2 (fun x y : pystr * value => fst x = fst y /\ same_value same (snd x) (snd y)) (snd (dtype_key a)) (snd (dtype_key b)).
Proof. exact dtype_key_ok. Qed.
Print Assumptions C83_type_hash.
Theorem C83_type_hash_back : forall same a b, options_ok a -> options_ok b -> dtype_key a = dtype_key b ->
  (forall k v, In (k, v) (dt_opts a) -> same_value same v v) -> dtype_eq same a b = true.
Proof. exact dtype_key_back. Qed.
Print Assumptions C83_type_hash_back.
(** In a set (of the types found for a field) they are one element if and only if they have one name and options that are equal and hash equally. *)
Theorem C83_type_set : forall same a b, options_ok a -> options_ok b ->
  (dt_same same a b = true <-> dt_name a = dt_name b /\ options_match (fun x y => hash_eq same x y = true) (dt_opts a) (dt_opts b)).
Proof. exact dt_same_iff. Qed.
Print Assumptions C83_type_set.
Definition two_way : dtype := mkDT KBase TExt [(s "b", VInt 1); (s "a", VStr (s "x"))].
Definition other_way : dtype := mkDT KBase TExt [(s "a", VStr (s "x")); (s "b", VBool true)].
Example C83_types_case : dtype_eq no_same two_way other_way = true /\ dt_same no_same two_way other_way = true /\
  map fst (snd (dtype_key two_way)) = [s "a"; s "b"] /\ map fst (snd (dtype_key other_way)) = [s "a"; s "b"] /\
  dtype_eq no_same two_way (mkDT KBase TExt [(s "a", VStr (s "x")); (s "b", VInt 2)]) = false /\
  dt_same no_same two_way (mkDT KBase TExt [(s "a", VStr (s "y")); (s "b", VInt 1)]) = false /\ dtype_eq no_same two_way (mkDT KBase TExt [(s "b", VInt 1)]) = false.
Proof. vm_compute. repeat split. Qed.
Example C83_types_ok : options_ok two_way /\ options_ok other_way.
Proof. split; unfold options_ok; vm_compute; repeat constructor; simpl; intuition discriminate. Qed.

(** Lists of nodes are equal if and only if they hold the same nodes in the same order. *)
Theorem C83_node_lists : forall same a b, py_eq same (VNodeList (map Some a)) (VNodeList (map Some b)) = true <-> a = b.
Proof. exact node_lists_eq. Qed.
Print Assumptions C83_node_lists.
Example C83_node_lists_case : py_eq no_same (VNodeList (map Some [1; 2]%nat)) (VNodeList (map Some [1; 2]%nat)) = true /\
  py_eq no_same (VNodeList (map Some [1; 2]%nat)) (VNodeList (map Some [2; 1]%nat)) = false.
Proof. vm_compute. auto. Qed.

(** A text or layer option that is neither a string nor a span admits nothing. *)
Theorem C83_no_string_option : forall h d v key w, dget (dt_opts d) key = Some w -> (forall x, w <> VStr x) -> (forall n t a b, w <> VSpan n t a b) ->
  (dt_class d = KTextspan /\ key = s "context" \/ (dt_class d = KNoderef \/ dt_class d = KNodespan) /\ key = s "layer") -> is_valid h d v = Ok false.
Proof. exact no_string_option. Qed.
Print Assumptions C83_no_string_option.
Example C83_no_string_case : is_valid empty_heap (mkDT KTextspan TSpan [(s "context", VInt 3)]) (VSpan (s "main") (s "ab") 0 1) = Ok false /\
  is_valid empty_heap (mkDT KTextspan TSpan [(s "context", VStr (s "main"))]) (VSpan (s "main") (s "ab") 0 1) = Ok true.
Proof. vm_compute. auto. Qed.
(** One that is a span is compared by its string. *)
Theorem C83_span_option : forall h d n t a b name t' a' b', dget (dt_opts d) (s "context") = Some (VSpan n t a b) -> dt_class d = KTextspan ->
  is_valid h d (VSpan name t' a' b') = Ok (str_eqb name (span_str (mkSpan t a b))).
Proof. intros. eapply span_option; eauto. Qed.
Print Assumptions C83_span_option.
Example C83_span_option_case : is_valid empty_heap (mkDT KTextspan TSpan [(s "context", VSpan (s "main") (s "xmainy") 1 5)]) (VSpan (s "main") (s "ab") 0 1) = Ok true.
Proof. vm_compute. reflexivity. Qed.

(** The options that the type constructors set. *)
Theorem C83_named_types : forall x, (forall k, dget (dt_opts (T_ext x)) k = if str_eqb k (s "type") then Some (VStr x) else None) /\
  (forall k, dget (dt_opts (T_span x)) k = if str_eqb k (s "context") then Some (VStr x) else None) /\
  forall d, In d [T_noderef x; T_noderef_many x; T_nodespan x] -> forall k, dget (dt_opts d) k = if str_eqb k (s "layer") then Some (VStr x) else None.
Proof. exact named_types. Qed.
Print Assumptions C83_named_types.
(** The default of a float type: the int 0 when zero is given, else the float 0.0, whatever is given. *)
Theorem C55_float_defaults : forall x, dt_default (T_float64 (VFloat x)) = Some (if (x =? 0)%N || (x =? 0x8000000000000000)%N then VInt 0 else VFloat 0).
Proof. exact float_defaults. Qed.
Print Assumptions C55_float_defaults.
(** NodeLayerCollection.validate takes a node: without one it raises. *)
Theorem C62_validate_layer : forall h l, coll_validate h (CLayer l) = Err TypeError.
Proof. exact validate_layer. Qed.
Print Assumptions C62_validate_layer.
