(** Property C75: calls that cannot work raise the right exception; the same for predicates (C50), span_translate (C45) and
    children_of (C44). *)
From Verif Require Import PyBase PyBaseFacts Model_Text Model_Heap Model_Layer Model_Types Model_Msgpack Model_Document Model_Query Model_Algorithm Model_Graph
  Spec_Layer Spec_Errors Proof_Layer4 Proof_Errors Proof_Errors2 Prop_Layer Prop_Query Prop_Document.
Local Open Scope Z_scope.

(** a node in no layer *)
Theorem C75_outside : forall h n, out h n ->
  node_left h n = Err AttributeError /\ node_right h n = Err AttributeError /\ node_detach h n = (h, Err AttributeError) /\
  node_is_valid h n = Err AttributeError /\ (forall b, new_nodespan h n b = Err AttributeError).
Proof. exact out_calls. Qed.
Print Assumptions C75_outside.
(** a node that is not in this layer *)
Theorem C75_foreign : forall h l n, n_collof h n <> Some l ->
  layer_left h l n = Err AssertionError /\ layer_right h l n = Err AssertionError /\ layer_getnode h l n = Err DataValidationError /\
  (forall b, iter_nodespan h l n b = Err AssertionError /\ iter_nodespan h l b n = Err AssertionError).
Proof. exact foreign_calls. Qed.
Print Assumptions C75_foreign.
Theorem C75_index : forall h l i, off_list (l_nodesof h l) i -> layer_getitem h l i = Err IndexError.
Proof. intros h l i. exact (getitem_off (l_nodesof h l) i). Qed.
Print Assumptions C75_index.
(** ends in two layers, or one of them in none *)
Theorem C75_span : forall h a b l, n_collof h a = Some l -> n_collof h b <> Some l -> new_nodespan h a b = Err AssertionError.
Proof. exact new_span_apart. Qed.
Print Assumptions C75_span.
Theorem C75_iter_span : forall h a b,
  (unnumbered h a \/ unnumbered h b -> iter_span h a b = Err AssertionError) /\
  (~ unnumbered h a -> ~ unnumbered h b -> out h a -> iter_span h a b = Err AttributeError) /\
  (forall l, n_collof h a = Some l -> n_collof h b <> Some l -> iter_span h a b = Err AssertionError).
Proof. exact iter_span_errors. Qed.
Print Assumptions C75_iter_span.
(** a span whose ends have been removed, renumbered or moved since it was made *)
Theorem C75_stale_span : forall h a b,
  (unnumbered h a \/ unnumbered h b -> nodespan_iter h a b = Err AssertionError) /\
  (~ unnumbered h a -> ~ unnumbered h b -> n_idof h b < n_idof h a -> nodespan_iter h a b = Err AssertionError) /\
  (~ unnumbered h a -> ~ unnumbered h b -> n_idof h a <= n_idof h b -> out h a -> nodespan_iter h a b = Err AttributeError) /\
  (forall l, n_collof h a = Some l -> n_collof h b <> Some l -> nodespan_iter h a b = Err AssertionError).
Proof. exact nodespan_errors. Qed.
Print Assumptions C75_stale_span.
(** positional arguments of add: the nodes before the one that is no Node are added *)
Theorem C75_add : forall h l ns r, layer_add_nodes h l (map Some ns ++ None :: r) = (fst (layer_add_nodes h l (map Some ns)), Err ValueError).
Proof. exact add_not_node. Qed.
Print Assumptions C75_add.
(** sort raises what the key function raises on the first node on which it does; the layer is as after compact *)
Theorem C75_sort : forall (K : Type) (leb : K -> K -> bool) (keyfn : nid -> res K) h l c e, wf h -> layer_iter h l = map Some c ->
  (snd (layer_sort leb keyfn h l) = Err e <-> first_raising keyfn c e) /\
  (snd (layer_sort leb keyfn h l) = Err e -> fst (layer_sort leb keyfn h l) = compact h l).
Proof. exact @sort_error. Qed.
Print Assumptions C75_sort.
(** nodes 2 and 5 were removed from layer 0, and 9 is new *)
Example C75_case : wf demo /\ out demo 2%nat /\ ~ unnumbered demo 2%nat /\ unnumbered demo 9%nat /\ n_collof demo 0%nat = Some 0%nat /\ n_collof demo 2%nat <> Some 0%nat /\
  off_list (l_nodesof demo 0%nat) (-7) /\ off_list (l_nodesof demo 0%nat) 6 /\ ~ off_list (l_nodesof demo 0%nat) (-6) /\
  nodespan_iter demo 2%nat 4%nat = Err AttributeError /\ nodespan_iter demo 0%nat 2%nat = Err AssertionError /\ iter_span demo 2%nat 9%nat = Err AssertionError /\
  first_raising (fun n => if Nat.eqb n 1 then Err KeyError else if Nat.eqb n 3 then Err TypeError else Ok 0) [0; 1; 3; 4]%nat KeyError.
Proof.
  split; [exact demo_wf|]. split; [vm_compute; reflexivity|]. split; [vm_compute; discriminate|]. split; [vm_compute; reflexivity|]. split; [vm_compute; reflexivity|]. split; [vm_compute; discriminate|].
  split; [left; vm_compute; reflexivity|]. split; [right; vm_compute; discriminate|]. split; [intros [H|H]; vm_compute in H; congruence|].
  split; [vm_compute; reflexivity|]. split; [vm_compute; reflexivity|]. split; [vm_compute; reflexivity|].
  exists [0%nat], 1%nat, [3; 4]%nat. split; [reflexivity|]. split; [intros y [<-|[]]; exists 0; reflexivity|reflexivity].
Qed.

(** C50: is_none and has_value *)
Theorem C50_none : forall same h n f, exists b, sat same h (is_none f) n = Ok b /\ sat same h (has_value f) n = Ok (negb b) /\ (b = true <-> fget h n f = VNone).
Proof. exact none_spec. Qed.
Print Assumptions C50_none.
(** the comparisons answer or raise TypeError, on every pair of values *)
Theorem C50_ordered : forall same h n f o v, proper (fget h n f) -> proper v ->
  (comparable (fget h n f) v /\ exists b, sat same h (POrd o f v) n = Ok b) \/ (~ comparable (fget h n f) v /\ sat same h (POrd o f v) n = Err TypeError).
Proof. exact ord_spec. Qed.
Print Assumptions C50_ordered.
Theorem C50_lists : forall same h n f x r,
  (fget h n f = VNodeList (map Some x) -> let q o := sat same h (POrd o f (VNodeList (map Some (x ++ r)))) n in
     q OLt = Ok (match r with [] => false | _ => true end) /\ q OLe = Ok true /\ q OGt = Ok false /\ q OGe = Ok (match r with [] => true | _ => false end)) /\
  (fget h n f = VNodeList (map Some (x ++ r)) -> let q o := sat same h (POrd o f (VNodeList (map Some x))) n in
     q OGt = Ok (match r with [] => false | _ => true end) /\ q OGe = Ok true /\ q OLt = Ok false /\ q OLe = Ok (match r with [] => true | _ => false end)).
Proof. exact ord_lists. Qed.
Print Assumptions C50_lists.
(** nodes: == is identity, != is false also of two nodes with equal fields *)
Theorem C50_nodes : forall same h n f a b, fget h n f = VNode a -> NoDup (dkeys (n_fieldsof h a)) -> NoDup (dkeys (n_fieldsof h b)) ->
  (exists e, sat same h (PEq f (VNode b)) n = Ok e /\ (e = true <-> a = b)) /\
  (exists d, sat same h (PNeq f (VNode b)) n = Ok d /\ (d = false <-> a = b \/
     forall k, match dget (n_fieldsof h a) k, dget (n_fieldsof h b) k with Some x, Some y => same_value same x y | None, None => True | _, _ => False end)).
Proof. exact node_ne_spec. Qed.
Print Assumptions C50_nodes.
(** a list of nodes cannot be looked for in a set, nor be in one *)
Theorem C50_any_lists : forall same h n f items, (sat same h (PAny f items) n = Err TypeError <-> exists l, fget h n f = VNodeList l) /\
  (is_any f items = Err TypeError <-> exists l, In (VNodeList l) items) /\ (is_any f items = Err TypeError \/ is_any f items = Ok (PAny f items)).
Proof. exact any_refuses. Qed.
Print Assumptions C50_any_lists.
(** covered_by and intersected_by: of a missing field, a field of another type, a node whose field is no span *)
Theorem C50_spans_refused : forall test h c f start stop,
  (dget (coll_fields h c) f = None -> span_pred test h c f start stop = Err KeyError) /\
  (forall t, dget (coll_fields h c) f = Some t -> dt_name t <> TSpan -> span_pred test h c f start stop = Err AssertionError) /\
  (forall same p h' n, span_pred test h c f start stop = Ok p -> (forall tn x a b, fget h' n f <> VSpan tn x a b) -> sat same h' p n = Err AttributeError).
Proof. intros. destruct (span_pred_refuses test h c f start stop) as [A B]. split; [exact A|]. split; [exact B|]. intros same p h' n. exact (span_pred_other same test h c f start stop p h' n). Qed.
Print Assumptions C50_spans_refused.
Example C50_errors_case : comparable (VInt 3) (VFloat 4616752568008179712) /\ ~ comparable (VStr (s "a")) (VInt 3) /\ comparable (VNodeList [Some 1]%nat) (VNodeList [Some 1; Some 2]%nat) /\
  proper (VNodeList [Some 1; Some 2]%nat) /\ fget q_heap 6%nat (s "ref") = VNode 4%nat /\
  sat no_same q_heap (POrd OLt (s "pos") (VInt 3)) 0%nat = Err TypeError /\ sat no_same q_heap (is_none (s "pos")) 3%nat = Ok true /\
  is_any (s "pos") [VStr (s "NN"); VNodeList []] = Err TypeError /\ span_pred covered_by_tuple q_heap (CLayer 0%nat) (s "pos") 0 1 = Err AssertionError.
Proof.
  split; [apply cp_num; constructor|]. split; [intros C; inversion C as [? ? A B| | | |]; inversion A|]. split; [exact (cp_list [1%nat] [2%nat])|].
  split; [intros l [= <-]; exists [1; 2]%nat; reflexivity|]. repeat split; reflexivity.
Qed.

(** C45: what the document lacks is found before anything is changed, the first lack counts *)
Theorem C45_refuses : forall h d mapping tf sf remap sf2 tf2 pre r post e,
  [RLayer mapping; RField mapping tf; RField mapping sf; RLayer remap; RField remap sf2; RField remap tf2] = pre ++ r :: post ->
  (forall q e', In q pre -> ~ fails h d q e') -> fails h d r e -> span_translate h d mapping tf sf remap sf2 tf2 = (h, Err e).
Proof. exact translate_refuses. Qed.
Print Assumptions C45_refuses.
Theorem C45_no_text : forall h d mapping tf sf remap sf2 tf2 ml t ctx,
  (forall q e', In q [RLayer mapping; RField mapping tf; RField mapping sf; RLayer remap; RField remap sf2; RField remap tf2] -> ~ fails h d q e') ->
  dget (d_layers d) mapping = Some ml -> dget (l_fields (h_layer h ml)) tf = Some t ->
  dget (dt_opts t) (s "context") = None \/ (dget (dt_opts t) (s "context") = Some (VStr ctx) /\ dget (d_texts d) ctx = None) ->
  span_translate h d mapping tf sf remap sf2 tf2 = (h, Err KeyError).
Proof. exact translate_no_text. Qed.
Print Assumptions C45_no_text.
Example C45_refuses_case : let d := mkDoc (MMap []) [] [(s "token", 0%nat); (s "phrase", 1%nat)] in
  fails doc_heap d (RLayer (s "nope")) KeyError /\ fails doc_heap d (RField (s "token") (s "pos")) AssertionError /\ fails doc_heap d (RField (s "phrase") (s "pos")) KeyError /\
  (forall e, ~ fails doc_heap d (RField (s "token") (s "text")) e) /\
  snd (span_translate doc_heap d (s "token") (s "text") (s "pos") (s "phrase") (s "a") (s "b")) = Err AssertionError /\
  snd (span_translate doc_heap d (s "token") (s "text") (s "text") (s "token") (s "text") (s "text")) = Err KeyError.
Proof.
  cbv zeta. split; [apply fl_layer; reflexivity|]. split; [eapply fl_type; [reflexivity|vm_compute; reflexivity|discriminate]|]. split; [eapply fl_field; vm_compute; reflexivity|].
  split; [|split; vm_compute; reflexivity].
  intros e F. inversion F as [|? l ? L N|? l ? t L N T]; subst; vm_compute in L; injection L as <-; vm_compute in N; [discriminate|]. injection N as <-. apply T. reflexivity.
Qed.

(** C44: children of values that are no nodes, of a field that should hold a list *)
Theorem C44_children_refused : forall fields f y h, children_of fields [f] = Ok y ->
  (forall v, v = VNone \/ numeric_value v -> y h v = Err TypeError) /\
  (forall n t v, dget fields f = Some t -> dt_name t = TNodeRefMany -> dget (n_fieldsof h n) f = Some v -> v = VNone \/ numeric_value v -> y h (VNode n) = Err TypeError).
Proof. intros fields f y h E. split; [intros v; exact (children_refuses fields f y h v E)|]. intros n t v. exact (children_not_list fields f y h n t v E). Qed.
Print Assumptions C44_children_refused.
Example C44_children_refused_case : exists y, children_of [(s "a", T_noderef_many (s "t"))] [s "a"] = Ok y /\ y (set_fields empty_heap 0%nat [(s "a", VInt 3)]) (VNode 0%nat) = Err TypeError /\
  children_of [(s "a", T_noderef_many (s "t"))] [] = Err ValueError.
Proof. eexists. split; [reflexivity|]. split; reflexivity. Qed.
