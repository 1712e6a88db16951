(** Property C50: predicates and queries.  [same] stands for object identity where the model has none. *)
From Verif Require Import PyBase Model_Heap Model_Layer Model_Text Model_Types Model_Query Spec_Layer Spec_Query Proof_Query Proof_Query2.
Local Open Scope Z_scope.

(** A query over a layer holds the nodes that satisfy the predicate, in the order of the layer. *)
Theorem C50_layer : forall same h l p b, wf h -> (forall n, In n (content h l) -> sat same h p n = Ok (b n)) ->
  found (query same h (CLayer l) p) h (filter b (content h l)).
Proof. exact query_layer. Qed.
Print Assumptions C50_layer.
(** The same over any collection (layer, node span, list of nodes, another query). *)
Theorem C50_filter : forall same h c p ns b, nodes_of h c ns -> (forall n, In n ns -> sat same h p n = Ok (b n)) -> found (query same h c p) h (filter b ns).
Proof. exact query_found. Qed.
Print Assumptions C50_filter.
(** p & q, p | q and ~p: intersection, union and complement, in the order of the collection *)
Theorem C50_and : forall same h c p q ns a b, nodes_of h c ns -> found (query same h c p) h a -> found (query same h c q) h b ->
  found (query same h c (PAnd p q)) h (filter (fun n => mem n a && mem n b) ns).
Proof. exact query_and. Qed.
Print Assumptions C50_and.
Theorem C50_or : forall same h c p q ns a b, nodes_of h c ns -> found (query same h c p) h a -> found (query same h c q) h b ->
  found (query same h c (POr p q)) h (filter (fun n => mem n a || mem n b) ns).
Proof. exact query_or. Qed.
Print Assumptions C50_or.
Theorem C50_not : forall same h c p ns a, nodes_of h c ns -> found (query same h c p) h a -> found (query same h c (PNot p)) h (filter (fun n => negb (mem n a)) ns).
Proof. exact query_not. Qed.
Print Assumptions C50_not.
(** a query on a query is the conjunction, exceptions included *)
Theorem C50_nested : forall same h c p q ns qp, nodes_of h c ns -> query same h c p = Ok qp ->
  match query same h qp q, query same h c (PAnd p q) with Ok x, Ok y => coll_iter h x = coll_iter h y | Err e, Err e' => e = e' | _, _ => False end.
Proof. exact query_nested. Qed.
Print Assumptions C50_nested.
(** a predicate that raises: the exception of the first such node *)
Theorem C50_raises : forall same h c p a n z b e, nodes_of h c (a ++ n :: z) -> (forall m, In m a -> sat same h p m = Ok (b m)) -> sat same h p n = Err e -> query same h c p = Err e.
Proof. exact query_raises. Qed.
Print Assumptions C50_raises.
(** the result is fixed until update(), which re-evaluates; if that raises the old result stays *)
Theorem C50_update : forall same h h' c p q, query same h c p = Ok q -> coll_iter h' q = coll_iter h q /\
  match query same h' c p with Ok q' => query_update same h' q = (q', Ok tt) | Err e => query_update same h' q = (q, Err e) end.
Proof. exact update_ok. Qed.
Print Assumptions C50_update.
(** ** What the field predicates mean.  Numbers of any two types are compared exactly. *)
Theorem C50_numbers : forall same h n f o v x y, number (fget h n f) x -> number v y ->
  exists b, sat same h (POrd o f v) n = Ok b /\ (b = true <-> ord_num o x y).
Proof. exact order_numbers. Qed.
Print Assumptions C50_numbers.
Theorem C50_equal_numbers : forall same h n f v x y, number (fget h n f) x -> number v y ->
  exists b, sat same h (PEq f v) n = Ok b /\ (b = true <-> (x == y)%Q) /\ sat same h (PNeq f v) n = Ok (negb b).
Proof. exact equal_numbers. Qed.
Print Assumptions C50_equal_numbers.
(** Infinities lie beyond all numbers and equal themselves only; a NaN compares false with everything, itself included. *)
Theorem C50_infinite : forall same h n f o s x v,
  (infinite s (fget h n f) -> number v x -> sat same h (POrd o f v) n = Ok (ord_of o (if s then Gt else Lt)) /\ sat same h (PEq f v) n = Ok false) /\
  (number (fget h n f) x -> infinite s v -> sat same h (POrd o f v) n = Ok (ord_of o (if s then Lt else Gt)) /\ sat same h (PEq f v) n = Ok false) /\
  (forall s', infinite s (fget h n f) -> infinite s' v ->
     sat same h (POrd o f v) n = Ok (ord_of o (if Bool.eqb s s' then Eq else if s then Gt else Lt)) /\ sat same h (PEq f v) n = Ok (Bool.eqb s s')).
Proof. intros same h n f o s x v. split; [apply inf_fin|]. split; [apply fin_inf|]. intros s'. apply inf_inf. Qed.
Print Assumptions C50_infinite.
Theorem C50_nan : forall same h n f o v, (nan (fget h n f) /\ numeric v) \/ (numeric (fget h n f) /\ nan v) ->
  sat same h (POrd o f v) n = Ok false /\ sat same h (PEq f v) n = Ok false /\ sat same h (PNeq f v) n = Ok true.
Proof. exact nan_any. Qed.
Print Assumptions C50_nan.
Example C50_infinite_case : infinite true (VFloat 9218868437227405312) /\ infinite false (VFloat 18442240474082181120) /\ nan (VFloat 9221120237041090560).
Proof. split; [constructor; reflexivity|]. split; [constructor; reflexivity|]. apply (nan_intro 0 (2 ^ 51)); [left; reflexivity|lia|reflexivity]. Qed.
Theorem C50_strings : forall same h n f o x y, fget h n f = VStr x -> exists b, sat same h (POrd o f (VStr y)) n = Ok b /\ (b = true <-> ord_str o x y).
Proof. exact order_strings. Qed.
Print Assumptions C50_strings.
Theorem C50_equal_strings : forall same h n f x y, fget h n f = VStr x -> exists b, sat same h (PEq f (VStr y)) n = Ok b /\ (b = true <-> x = y) /\ sat same h (PNeq f (VStr y)) n = Ok (negb b).
Proof. exact equal_strings. Qed.
Print Assumptions C50_equal_strings.
Theorem C50_span_text : forall same h n f tn t a b y, fget h n f = VSpan tn t a b -> exists r, sat same h (PEq f (VStr y)) n = Ok r /\ (r = true <-> span_str (mkSpan t a b) = y).
Proof. exact equal_span. Qed.
Print Assumptions C50_span_text.
Theorem C50_absent : forall same h n f o v, fget h n f = VNone -> sat same h (POrd o f v) n = Err TypeError.
Proof. exact absent_order. Qed.
Print Assumptions C50_absent.
Theorem C50_any : forall same h n f items v, (exists x, v = VStr x) \/ (exists a b c d, v = VSpan a b c d) \/ v = VNone \/ (exists m, v = VNode m) -> fget h n f = v ->
  exists b, sat same h (PAny f items) n = Ok b /\ (b = true <-> In v items).
Proof. exact any_exact. Qed.
Print Assumptions C50_any.
Theorem C50_any_numbers : forall same h n f items x, number (fget h n f) x -> (forall v, In v items -> exists y, number v y) ->
  exists b, sat same h (PAny f items) n = Ok b /\ (b = true <-> exists v y, In v items /\ number v y /\ (x == y)%Q).
Proof. exact any_numbers. Qed.
Print Assumptions C50_any_numbers.
(** covered_by(start, stop) and intersected_by(start, stop) on a span field; a node without the span raises *)
Theorem C50_spans : forall same test h c f start stop t, dget (coll_fields h c) f = Some t -> dt_name t = TSpan -> exists p, span_pred test h c f start stop = Ok p /\
  forall h' n, (forall tn x a b, fget h' n f = VSpan tn x a b -> sat same h' p n = Ok (test (mkSpan x a b) start stop)) /\ (fget h' n f = VNone -> sat same h' p n = Err AttributeError).
Proof. exact span_pred_ok. Qed.
Print Assumptions C50_spans.
(** collection[field] yields the field of each node *)
Theorem C50_field : forall h c f ns, nodes_of h c ns -> field_values h c f = Ok (map (fun n => fget h n f) ns).
Proof. exact field_ok. Qed.
Print Assumptions C50_field.

(** Layer 0: node 0 {pos: NN, i: 3}, node 1 {pos: VB, i: 5}, a gap, node 2 {pos: NN, i: 4.5}, node 3 {}.  Nodes 4 and 5 are equal in
    content; node 6 refers to node 4 and has a span "ab". *)
Definition no_same (a b : value) : bool := false.
Definition q_heap : heap := mkHeap (fun n => match n with
  | 0 => mkNode [(s "pos", VStr (s "NN")); (s "i", VInt 3)] 0 (Some 0)
  | 1 => mkNode [(s "pos", VStr (s "VB")); (s "i", VInt 5)] 1 (Some 0)
  | 2 => mkNode [(s "pos", VStr (s "NN")); (s "i", VFloat 4616752568008179712)] 3 (Some 0)
  | 3 => mkNode [] 4 (Some 0)
  | 6 => mkNode [(s "ref", VNode 4); (s "text", VSpan (s "main") (s "abc") 0 2)] (-1) None
  | _ => mkNode [] (-1) None end%nat) 7%nat
  (fun l => match l with O => mkLayer (s "tok") [(s "pos", T_string VNone); (s "i", T_int32 VNone)] [Some 0; Some 1; None; Some 2; Some 3]%nat 4 (defaults_of [(s "pos", T_string VNone); (s "i", T_int32 VNone)])
            | _ => mkLayer [] [] [] 0 [] end) 1%nat.
Ltac number_4_5 := apply (nu_normal 0 1025 562949953421312); [left; reflexivity|lia|lia|reflexivity].
Lemma q_wf : wf q_heap.
Proof.
  assert (F : forall n l, n_collof q_heap n = Some l -> l = 0%nat /\ (n < 4)%nat).
  { intros n l E. destruct n as [|[|[|[|[|[|[|n]]]]]]]; vm_compute in E; try discriminate E; injection E as <-; lia. }
  constructor.
  - intros l. constructor.
    + destruct l; reflexivity.
    + intros i n E. destruct l as [|l]; [|destruct i; discriminate E]. do 5 (destruct i as [|i]; [vm_compute in E; first [discriminate E|injection E as <-; split; reflexivity]|]). destruct i; discriminate E.
    + intros n E. destruct (F n l E) as (-> & L). exists (match n with 0 => 0 | 1 => 1 | 2 => 3 | _ => 4 end)%nat. do 4 (destruct n as [|n]; [split; reflexivity|]). lia.
  - intros n L. destruct (n_collof q_heap n) as [l|] eqn:E; [|reflexivity]. apply F in E. cbn [h_nnext q_heap] in L. lia.
  - intros l L. destruct l; [cbn [h_lnext q_heap] in L; lia|reflexivity].
  - intros l. destruct l; reflexivity.
  - intros l. destruct l; cbn; repeat constructor; simpl; intuition discriminate.
Qed.
Example C50_case : wf q_heap /\
  found (query no_same q_heap (CLayer 0%nat) (PEq (s "pos") (VStr (s "NN")))) q_heap [0; 2]%nat /\
  found (query no_same q_heap (CLayer 0%nat) (PAnd (has_value (s "i")) (POrd OLt (s "i") (VInt 5)))) q_heap [0; 2]%nat /\
  found (query no_same q_heap (CLayer 0%nat) (PNot (PEq (s "pos") (VStr (s "NN"))))) q_heap [1; 3]%nat /\
  query no_same q_heap (CLayer 0%nat) (POrd OLt (s "i") (VInt 5)) = Err TypeError /\
  number (fget q_heap 2%nat (s "i")) (inject_Z 5066549580791808 * pow2 (-50)) /\ (inject_Z 5066549580791808 * pow2 (-50) == 9 # 2)%Q /\
  str_lt (s "NN") (s "VB") /\
  field_values q_heap (CLayer 0%nat) (s "pos") = Ok [VStr (s "NN"); VStr (s "VB"); VStr (s "NN"); VNone].
Proof.
  split; [exact q_wf|]. split; [eexists; split; [reflexivity|]; split; reflexivity|]. split; [eexists; split; [reflexivity|]; split; reflexivity|].
  split; [eexists; split; [reflexivity|]; split; reflexivity|]. split; [reflexivity|]. split; [number_4_5|]. split; [reflexivity|].
  split; [right; exists [], 78%N, 86%N, [78%N], [66%N]; repeat split; reflexivity|reflexivity].
Qed.
(** Findings.  != between nodes is not the complement of ==: dict.__ne__ compares contents. *)
Theorem C50_node_neq : exists h n f m, fget h n f <> VNode m /\ forall same, sat same h (PEq f (VNode m)) n = Ok false /\ sat same h (PNeq f (VNode m)) n = Ok false.
Proof. exists q_heap, 6%nat, (s "ref"), 5%nat. split; [discriminate|]. intros same. split; reflexivity. Qed.
Print Assumptions C50_node_neq.
(** A span equals its text, but is_any(text) does not select it. *)
Theorem C50_any_text : exists h n f x, forall same, sat same h (PEq f (VStr x)) n = Ok true /\ sat same h (PAny f [VStr x]) n = Ok false.
Proof. exists q_heap, 6%nat, (s "text"), (s "ab"). intros same. split; reflexivity. Qed.
Print Assumptions C50_any_text.
(** A field of a query over anything but a layer raises; a missing field of a query over a layer is None. *)
Theorem C50_query_field : (forall h c p q r r' f, coll_field h (CQuery (CQuery c p r) q r') f = Err AttributeError) /\
  forall h l p r f, dmem (l_fields (h_layer h l)) f = false -> coll_field h (CQuery (CLayer l) p r) f = Ok None /\ coll_field h (CLayer l) f = Err AssertionError.
Proof. split; [reflexivity|]. intros h l p r f E. cbn [coll_field coll_fields]. rewrite E. split; reflexivity. Qed.
Print Assumptions C50_query_field.
