(** Span sweeps of the Java port: DominantRight (C91), GroupBySpan (C92). *)
From Verif Require Import PyBase Model_Heap Model_Layer Model_Text Model_Types Model_Document Model_Algorithm Model_JAlgorithm Model_JGroup
  Spec_Layer Spec_Algorithm Spec_JAlgorithm Spec_JGroup Proof_JAlgorithm Proof_JAlgorithm2 Proof_JGroup Proof_JGroup2 Proof_JGroup3 Prop_Algorithm.
From Coq Require Import Sorting.Sorted Sorting.Permutation.
Local Open Scope Z_scope.

(** C91: Java returns what Python returns, except segments that a longer one, which neither returns, wholly precedes. *)
Theorem C91_against_python : forall A (segs : list (seg A)), (forall x, In x segs -> sg_start x <= sg_stop x) -> exists lp lj,
  dominant_right segs = map (fun p => sg_item (snd p)) lp /\ java_resolve segs = map (fun p => sg_item (snd p)) lj /\
  (forall i x, In (i, x) lp -> nth_error segs i = Some x) /\ subseq lj lp /\
  (forall j y, In (j, y) lp -> In (j, y) lj \/ exists i x, nth_error segs i = Some x /\ ~ In (i, x) lp /\ before (fst x) (fst y) /\ longer (fst x) (fst y)).
Proof. exact @java_against_python. Qed.
Print Assumptions C91_against_python.
(** Members, in order, without overlap; each other segment is beaten by one that it overlaps, or preceded by a longer one. *)
Theorem C91_dominant_partial : forall A (segs : list (seg A)), (forall x, In x segs -> sg_start x <= sg_stop x) -> exists l,
  java_resolve segs = map (fun p => sg_item (snd p)) l /\
  (forall i x, In (i, x) l -> nth_error segs i = Some x) /\
  StronglySorted (fun a b => before (fst (snd a)) (fst (snd b))) l /\
  (forall j y, nth_error segs j = Some y -> In (j, y) l \/ (exists i x, nth_error segs i = Some x /\ shares (fst x) (fst y) /\ beats i (fst x) j (fst y)) \/
     exists i x, nth_error segs i = Some x /\ before (fst x) (fst y) /\ longer (fst x) (fst y)).
Proof. exact @java_dominant. Qed.
Print Assumptions C91_dominant_partial.
(** The same result if every segment that precedes a shorter one beats all that it overlaps. *)
Theorem C91_same : forall A (segs : list (seg A)), (forall x, In x segs -> sg_start x <= sg_stop x) ->
  (forall i x j y, nth_error segs i = Some x -> nth_error segs j = Some y -> before (fst x) (fst y) -> longer (fst x) (fst y) ->
    forall k z, nth_error segs k = Some z -> k <> i -> shares (fst z) (fst x) -> beats i (fst x) k (fst z)) ->
  java_resolve segs = dominant_right segs.
Proof. exact @java_same. Qed.
Print Assumptions C91_same.
(** Missing: the dominant right rule itself.  A segment that overlaps none is lost after one that lost. *)
Definition stale : list (seg Z) := [(0, 10, 1); (8, 12, 2); (20, 22, 3); (30, 34, 4)].
Theorem C91_refuted : exists (segs : list (seg Z)) j y, (forall x, In x segs -> sg_start x <= sg_stop x) /\ nth_error segs j = Some y /\
  (forall i x, nth_error segs i = Some x -> i <> j -> ~ shares (fst x) (fst y)) /\
  In (sg_item y) (dominant_right segs) /\ ~ In (sg_item y) (java_resolve segs).
Proof.
  exists stale, 2%nat, (20, 22, 3). split; [|split; [reflexivity|split; [|split; vm_compute; [tauto|intuition discriminate]]]].
  - intros x [<-|[<-|[<-|[<-|[]]]]]; vm_compute; discriminate.
  - intros [|[|[|[|[|i]]]]] x E N; try discriminate E; try congruence; injection E as <-; intros (q & Q1 & Q2); unfold on in *; simpl in *; lia.
Qed.
Print Assumptions C91_refuted.
Example C91_case : java_resolve stale = [1; 4] /\ dominant_right stale = [1; 3; 4].
Proof. split; vm_compute; reflexivity. Qed.
Definition fine : list (seg Z) := [(0, 4, 1); (2, 6, 2); (9, 13, 3); (20, 24, 4)].
Example C91_same_case : java_resolve fine = [2; 3; 4] /\ dominant_right fine = [2; 3; 4] /\
  (forall x, In x fine -> sg_start x <= sg_stop x) /\
  (forall i x j y, nth_error fine i = Some x -> nth_error fine j = Some y -> before (fst x) (fst y) -> longer (fst x) (fst y) ->
    forall k z, nth_error fine k = Some z -> k <> i -> shares (fst z) (fst x) -> beats i (fst x) k (fst z)).
Proof.
  split; [vm_compute; reflexivity|]. split; [vm_compute; reflexivity|]. split.
  - intros x [<-|[<-|[<-|[<-|[]]]]]; vm_compute; discriminate.
  - intros i x j y Ei Ej _ L. exfalso. apply nth_error_In in Ei, Ej. unfold longer in L.
    destruct Ei as [<-|[<-|[<-|[<-|[]]]]], Ej as [<-|[<-|[<-|[<-|[]]]]]; simpl in L; lia.
Qed.
(** Nodes: all of them must have the span; then the segments are Python's. *)
Theorem C91_nodes : forall h ns f, (forall n, In n ns -> exists p, span_at h n f p) -> exists segs,
  map snd segs = ns /\ (forall p n, In (p, n) segs -> span_at h n f p) /\
  java_resolve_span h ns f = Ok (java_resolve segs) /\ dominant_right_span h ns f = Ok (dominant_right segs).
Proof. exact java_nodes. Qed.
Print Assumptions C91_nodes.
Theorem C91_missing : forall h ns f n, In n ns -> (forall p, ~ span_at h n f p) -> java_resolve_span h ns f = Err NotImplementedError.
Proof. exact java_nodes_missing. Qed.
Print Assumptions C91_missing.
(** Node spans count node ids, both ends included. *)
Theorem C91_nodespans : forall h ns f, (forall n, In n ns -> exists a b, dget (n_fieldsof h n) f = Some (VNodeSpan a b)) -> exists segs,
  map snd segs = ns /\ (forall p n, In (p, n) segs -> exists a b, dget (n_fieldsof h n) f = Some (VNodeSpan a b) /\
     forall q, n_idof h a <= n_idof h b -> on p q <-> n_idof h a <= q <= n_idof h b) /\
  java_resolve_nodespans h ns f = Ok (java_resolve segs).
Proof. exact java_nodespans. Qed.
Print Assumptions C91_nodespans.
(** A node without a range of nodes in the field is refused. *)
Theorem C91_nodespans_missing : forall h ns f n, In n ns -> (forall a b, dget (n_fieldsof h n) f <> Some (VNodeSpan a b)) -> java_resolve_nodespans h ns f = Err NotImplementedError.
Proof. exact nodespans_missing. Qed.
Print Assumptions C91_nodespans_missing.
Definition ns_heap : heap := mkHeap (fun n => match n with
  | 7%nat => mkNode [(s "ns", VNodeSpan 0%nat 3%nat)] 0 (Some 1%nat) | 8%nat => mkNode [(s "ns", VNodeSpan 3%nat 5%nat)] 1 (Some 1%nat)
  | 9%nat => mkNode [(s "ns", VNodeSpan 4%nat 4%nat)] 2 (Some 1%nat) | _ => mkNode [] (Z.of_nat n) (Some 0%nat) end) 10%nat (h_layer empty_heap) 2%nat.
Example C91_nodespans_case : java_resolve_nodespans ns_heap [7; 8; 9]%nat (s "ns") = Ok [7; 9]%nat /\
  java_resolve_nodespans ns_heap [9; 8]%nat (s "ns") = Ok [8%nat] /\ java_resolve_nodespans ns_heap [9; 0]%nat (s "ns") = Err NotImplementedError.
Proof. repeat split; vm_compute; reflexivity. Qed.
Example C91_nodes_case : java_resolve_span gr_heap [0; 1; 2; 4]%nat (s "text") = Ok [1; 2]%nat /\ dominant_right_span gr_heap [0; 1; 2; 4]%nat (s "text") = Ok [1; 2]%nat /\
  java_resolve_span gr_heap [0; 3]%nat (s "text") = Err NotImplementedError.
Proof. repeat split; vm_compute; reflexivity. Qed.

(** C92: the groups are Python's, with the layers in the order of their names and sets iterated over in some order. *)
Theorem C92_python : forall og ol h b0 calls, any_order og -> any_layer_order ol -> bg_layers b0 = [] -> bg_fields b0 = [] ->
  let b := called b0 calls in
  group_input h (bg_groups b0) (bg_layers b) (bg_field b0) (Some (bg_fields b)) -> told_apart h b ->
  exists on, any_order on /\
    java_solve og ol h b = group_by_span og on h (bg_groups b0) (bg_layers b) (if bg_cover b0 then s "cover" else s "intersect") (bg_field b0) (Some (bg_fields b)) (bg_empty b0).
Proof. exact java_python. Qed.
Print Assumptions C92_python.
(** Under each name the nodes and the field of the last call, names in order. *)
Theorem C92_layers : forall b0 calls, bg_layers b0 = [] -> bg_fields b0 = [] -> let b := called b0 calls in
  StronglySorted (fun x y => Model_Query.str_cmp x y = Lt) (dkeys (bg_layers b)) /\
  (forall name, dget (bg_layers b) name = option_map fst (last_call calls name)) /\
  (forall name, dget (bg_fields b) name = option_map snd (last_call calls name)).
Proof. exact called_layers. Qed.
Print Assumptions C92_layers.
Theorem C92_intersect : forall og ol h b0 calls, any_order og -> any_layer_order ol -> bg_layers b0 = [] -> bg_fields b0 = [] -> bg_cover b0 = false -> bg_empty b0 = true ->
  let b := called b0 calls in
  group_input h (bg_groups b0) (bg_layers b) (bg_field b0) (Some (bg_fields b)) -> told_apart h b ->
  exists gl, java_solve og ol h b = Ok gl /\ grouped h (bg_groups b0) (bg_layers b) (bg_field b0) (Some (bg_fields b)) shares gl.
Proof. exact java_intersect. Qed.
Print Assumptions C92_intersect.
Theorem C92_cover : forall og ol h b0 calls, any_order og -> any_layer_order ol -> bg_layers b0 = [] -> bg_fields b0 = [] -> bg_cover b0 = true -> bg_empty b0 = true ->
  let b := called b0 calls in
  group_input h (bg_groups b0) (bg_layers b) (bg_field b0) (Some (bg_fields b)) -> told_apart h b ->
  exists gl, java_solve og ol h b = Ok gl /\ grouped h (bg_groups b0) (bg_layers b) (bg_field b0) (Some (bg_fields b)) (fun p q => shares p q /\ inside p q) gl.
Proof. exact java_cover. Qed.
Print Assumptions C92_cover.
(** Groups without nodes are left out unless asked for. *)
Theorem C92_empty : forall og ol h b, match java_solve og ol h (set_include_empty b true) with
  | Ok full => exists keep, java_solve og ol h (set_include_empty b false) = Ok (filter keep full) /\
      forall g o, keep (g, o) = true <-> exists layer l, In (layer, l) o /\ l <> []
  | Err e => java_solve og ol h (set_include_empty b false) = Err e
  end.
Proof. exact java_empty. Qed.
Print Assumptions C92_empty.
(** A builder for a layer takes the layer's nodes, and only a span field of it; so does group for a layer. *)
Theorem C92_builder : forall h l f,
  (is_span_field h l f -> builder_layer h l f = Ok (new_builder (present (layer_iter h l)) f) /\
     forall b name, add_group_layer h b name l f = Ok (add_group b name (present (layer_iter h l)) f)) /\
  (~ is_span_field h l f -> builder_layer h l f = Err ValueError /\ forall b name, add_group_layer h b name l f = Err ValueError).
Proof. exact builder_ok. Qed.
Print Assumptions C92_builder.
(** A new builder has its nodes and field, no layers, groups by intersection and leaves out empty groups; the one for a list has the field "text". *)
Theorem C92_defaults : forall gs f, (bg_groups (new_builder gs f) = gs /\ bg_field (new_builder gs f) = f /\ bg_layers (new_builder gs f) = [] /\ bg_fields (new_builder gs f) = []) /\
  new_builder gs f = set_include_empty (set_resolution (new_builder gs f) false) false /\ builder_list gs f = new_builder gs (s "text").
Proof. exact builder_defaults. Qed.
Print Assumptions C92_defaults.
(** A value that is no span, in a group node or a node of a layer that counts, is refused. *)
Theorem C92_no_span : forall og ol h b0 calls n, bg_layers b0 = [] -> bg_fields b0 = [] ->
  In n (bg_groups b0) /\ no_span_value h (bg_field b0) n \/ (exists name ns f, last_call calls name = Some (ns, f) /\ In n ns /\ no_span_value h f n) ->
  java_solve og ol h (called b0 calls) = Err NotImplementedError.
Proof. exact no_span_refused. Qed.
Print Assumptions C92_no_span.
(** If there is none, a node with a span that is in no layer is refused. *)
Theorem C92_no_layer : forall og ol h b0 calls n, any_order og -> any_layer_order ol -> bg_layers b0 = [] -> bg_fields b0 = [] ->
  let b := called b0 calls in
  (forall g, In g (bg_groups b) -> ~ no_span_value h (bg_field b) g) ->
  (forall name ns f m, last_call calls name = Some (ns, f) -> In m ns -> ~ no_span_value h f m) ->
  n_collof h n = None ->
  (In n (bg_groups b) /\ (exists p, span_at h n (bg_field b) p) \/ exists name ns f p, last_call calls name = Some (ns, f) /\ In n ns /\ span_at h n f p) ->
  java_solve og ol h b = Err AttributeError.
Proof. exact no_layer. Qed.
Print Assumptions C92_no_layer.
(** A builder for a list of nodes should group by the field it is given; it groups by "text". *)
Theorem C92_field_refuted : exists h gs f, (forall g, In g gs -> exists p, span_at h g f p) /\ NoDup gs /\ gs <> [] /\
  forall og ol, java_solve og ol h (set_include_empty (builder_list gs f) true) = Ok [].
Proof.
  exists (mkHeap (fun n => mkNode [(s "span", VSpan (s "main") [] 0 4)] 0 (Some 0%nat)) 1%nat (h_layer empty_heap) 1%nat), [0%nat], (s "span").
  split; [|split; [repeat constructor; simpl; tauto|split; [discriminate|reflexivity]]].
  intros g _. exists (0, 4), (s "main"), []. reflexivity.
Qed.
Print Assumptions C92_field_refuted.
(** Groups 0 [0,4), 1 [3,9), 2 [20,22), 3 without span; layer a: 4 [2,5), 5 [4,6), 6 [3,3); layer b: 7 [0,4), 8 [9,9), 9 without span. *)
Definition jgr_heap : heap := mkHeap (fun n => mkNode (match gr_span n with Some (a, b) => [(s "text", VSpan (s "main") [] a b)] | None => [] end) (Z.of_nat n) (Some 0%nat)) 10%nat (h_layer empty_heap) 1%nat.
Definition jgr_calls : list (pystr * (list nid * pystr)) :=
  [(s "b", ([7; 8; 9]%nat, s "text")); (s "a", ([1]%nat, s "none")); (s "a", ([4; 5; 6]%nat, s "text"))].
Definition jgr (cover empty : bool) : gbuilder := called (set_include_empty (set_resolution (new_builder [0; 1; 2; 3]%nat (s "text")) cover) empty) jgr_calls.
Example C92_input_case : bg_layers (jgr true true) = gr_layers /\ group_input jgr_heap [0; 1; 2; 3]%nat (bg_layers (jgr true true)) (s "text") (Some (bg_fields (jgr true true))) /\
  told_apart jgr_heap (jgr true true) /\ any_layer_order (fun k layer l => rev l).
Proof.
  assert (S1 : forall n, In n [0; 1; 2; 3; 4; 5; 6; 7; 8; 9]%nat -> span_or_absent jgr_heap (s "text") n).
  { intros n I. unfold span_or_absent, span_at. change (n_fieldsof jgr_heap n) with (match gr_span n with Some (a, b) => [(s "text", VSpan (s "main") [] a b)] | None => [] end).
    destruct (gr_span n) as [[a b]|] eqn:E; [right; exists (a, b); split; [exists (s "main"), []; reflexivity|]|left; reflexivity].
    destruct I as [<-|[<-|[<-|[<-|[<-|[<-|[<-|[<-|[<-|[<-|[]]]]]]]]]]]; simpl in E; inversion E; simpl; lia. }
  split; [vm_compute; reflexivity|]. split; [|split].
  - split; [repeat constructor; simpl; intuition discriminate|]. split; [intros g I; apply S1; simpl in *; tauto|].
    split; [repeat constructor; vm_compute; intuition discriminate|]. change (bg_layers (jgr true true)) with gr_layers.
    intros layer ns [E|[E|[]]]; injection E as <- <-; (split; [repeat constructor; simpl; intuition discriminate|]);
      exists (s "text"); (split; [vm_compute; reflexivity|]); intros n I; apply S1; simpl in *; tauto.
  - split; [intros n _; discriminate|]. intros n m _ _ E _. change (Z.of_nat n = Z.of_nat m) in E. lia.
  - intros k layer l. symmetry. apply Permutation_rev.
Qed.
Example C92_case : java_solve plain (fun k layer l => rev l) jgr_heap (jgr false true) =
    Ok [(0, [(s "a", [4; 6]); (s "b", [7])]); (1, [(s "a", [4; 6; 5]); (s "b", [7])]); (2, [(s "a", []); (s "b", [])])]%nat /\
  java_solve plain (fun k layer l => l) jgr_heap (jgr true false) = Ok [(0, [(s "a", [6]); (s "b", [7])]); (1, [(s "a", [6; 5]); (s "b", [])])]%nat.
Proof. split; vm_compute; reflexivity. Qed.
Definition span_layer_heap : heap := mkHeap (h_node jgr_heap) 10%nat (fun _ => mkLayer (s "g") [(s "text", T_span (s "main")); (s "x", T_nodespan (s "g"))] [Some 0%nat; None; Some 1%nat] 2 []) 1%nat.
Example C92_builder_case : builder_layer span_layer_heap 0%nat (s "text") = Ok (new_builder [0; 1]%nat (s "text")) /\
  builder_layer span_layer_heap 0%nat (s "x") = Err ValueError /\ builder_layer span_layer_heap 0%nat (s "y") = Err ValueError.
Proof. repeat split; vm_compute; reflexivity. Qed.
(** Node 1 holds a number; node 2 is in no layer. *)
Definition odd_heap : heap := mkHeap (fun n => match n with 0%nat => mkNode [(s "text", VSpan (s "main") [] 0 4)] 0 (Some 0%nat) | 1%nat => mkNode [(s "text", VInt 3)] 1 (Some 0%nat)
  | _ => mkNode [(s "text", VSpan (s "main") [] 2 4)] (-1) None end) 3%nat (h_layer empty_heap) 1%nat.
Lemma odd_fine f m : m <> 1%nat -> ~ no_span_value odd_heap f m.
Proof.
  intros N (v & E & B). assert (Q : f = s "text").
  { assert (D : forall x : value, dget [(s "text", x)] f = Some v -> f = s "text") by (intros x D; cbn [dget] in D; destruct (str_eqb f (s "text")) eqn:Ef; [apply PyBaseFacts.str_eqb_eq in Ef; exact Ef|discriminate D]).
    destruct m as [|[|m]]; [eapply D; exact E|congruence|eapply D; exact E]. }
  subst f. destruct m as [|[|m]]; [apply (B (0, 4))|congruence|apply (B (2, 4))]; exists (s "main"), []; reflexivity.
Qed.
Example C92_refused_case : let one := [(s "a", ([0%nat], s "text"))] in
  no_span_value odd_heap (s "text") 1%nat /\ n_collof odd_heap 2%nat = None /\ span_at odd_heap 2%nat (s "text") (2, 4) /\ (forall f m, m <> 1%nat -> ~ no_span_value odd_heap f m) /\
  java_solve plain (fun k layer l => l) odd_heap (called (new_builder [0; 1]%nat (s "text")) one) = Err NotImplementedError /\
  java_solve plain (fun k layer l => l) odd_heap (called (new_builder [0; 2]%nat (s "text")) one) = Err AttributeError.
Proof.
  split; [exists (VInt 3); split; [reflexivity|intros p (tn & tt & E); discriminate E]|]. split; [reflexivity|]. split; [exists (s "main"), []; reflexivity|]. split; [exact odd_fine|]. split; vm_compute; reflexivity.
Qed.
