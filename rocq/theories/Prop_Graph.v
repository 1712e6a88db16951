(** Properties C41 to C44: graph searches. *)
From Verif Require Import PyBase Model_Heap Model_Layer Model_Types Model_Graph Spec_Layer Spec_Graph Proof_Graph Proof_Graph2.
Local Open Scope Z_scope.

(** C41: bfs yields the nodes level by level, in the order in which they are met (see [levels]) ... *)
Theorem C41_order : forall ch s0, finite_from ch s0 -> exists out, levels ch 0 [] [s0] out /\
  forall p, settles (fun f => bfs f s0 (fun x => Ok (ch x)) p) (map (fun dx => (Z.of_nat (fst dx), snd dx)) (filter (fun dx => wanted p (snd dx)) out), Ok tt).
Proof. exact bfs_order. Qed.
Print Assumptions C41_order.
(** ... and such an order holds each reachable node once, with its distance, by increasing distance. *)
Theorem C41_nodes : forall ch s0 out, levels ch 0 [] [s0] out -> (forall x, reach ch s0 x <-> In x (map snd out)) /\ NoDup (map snd out) /\ Sorted le (map fst out) /\
  forall k x, In (k, x) out -> distance ch s0 x k.
Proof. exact bfs_nodes. Qed.
Print Assumptions C41_nodes.

(** C42: dfs yields the recursive preorder ... *)
Theorem C42_order : forall ch s0, finite_from ch s0 -> exists v o, preorder ch [] [s0] v o /\
  forall p, settles (fun f => dfs f s0 (fun x => Ok (ch x)) p) (filter (wanted p) o, Ok tt).
Proof. intros ch s0 F. destruct (dfs_order ch s0 F) as (v & o & P & D & _). exists v, o. auto. Qed.
Print Assumptions C42_order.
(** ... which holds each reachable node once. *)
Theorem C42_nodes : forall ch s0 v o, preorder ch [] [s0] v o -> NoDup o /\ forall x, In x o <-> reach ch s0 x.
Proof. exact dfs_nodes. Qed.
Print Assumptions C42_nodes.

(** C43: dfs_leaves yields, in the order of dfs, the nodes all of whose children were met no later than themselves;
    these include every reachable node without children, and in a tree they are exactly those. *)
Theorem C43_order : forall ch s0, finite_from ch s0 -> exists v o, preorder ch [] [s0] v o /\
  forall p, settles (fun f => dfs_leaves f s0 (fun x => Ok (ch x)) p) (filter (wanted p) (closed_ones ch [] o), Ok tt).
Proof. intros ch s0 F. destruct (dfs_order ch s0 F) as (v & o & P & _ & D). exists v, o. auto. Qed.
Print Assumptions C43_order.
Theorem C43_nodes : forall ch s0 v o, preorder ch [] [s0] v o -> NoDup (closed_ones ch [] o) /\
  (forall x, In x (closed_ones ch [] o) <-> exists a b, o = a ++ x :: b /\ forall c, In c (ch x) -> In c (a ++ [x])) /\
  (forall x, reach ch s0 x -> ch x = [] -> In x (closed_ones ch [] o)) /\
  (tree_from ch s0 -> forall x, In x (closed_ones ch [] o) -> ch x = []).
Proof. exact leaves_nodes. Qed.
Print Assumptions C43_nodes.
(** If children raises for some nodes ([bad]), the searches go on until they meet the first of them: bfs and dfs yield it, dfs_leaves does not,
    and all raise what children raised. *)
Theorem C41_raises : forall ch s0, finite_from ch s0 -> exists out, levels ch 0 [] [s0] out /\
  forall p bad, let u := until (fun dx => bad (snd dx)) out in
  settles (fun f => bfs f s0 (raising ch bad) p) (map (fun dx => (Z.of_nat (fst dx), snd dx)) (filter (fun dx => wanted p (snd dx)) (fst u ++ raiser (snd u))), ending (snd u)).
Proof. exact bfs_raises. Qed.
Print Assumptions C41_raises.
Theorem C42_raises : forall ch s0, finite_from ch s0 -> exists v o, preorder ch [] [s0] v o /\
  forall p bad, let u := until bad o in settles (fun f => dfs f s0 (raising ch bad) p) (filter (wanted p) (fst u ++ raiser (snd u)), ending (snd u)).
Proof. intros ch s0 F. destruct (dfs_raises ch s0 F) as (v & o & P & D). exists v, o. split; [exact P|]. intros p bad. apply D. Qed.
Print Assumptions C42_raises.
Theorem C43_raises : forall ch s0, finite_from ch s0 -> exists v o, preorder ch [] [s0] v o /\
  forall p bad, let u := until bad o in settles (fun f => dfs_leaves f s0 (raising ch bad) p) (filter (wanted p) (closed_ones ch [] (fst u)), ending (snd u)).
Proof. intros ch s0 F. destruct (dfs_raises ch s0 F) as (v & o & P & D). exists v, o. split; [exact P|]. intros p bad. apply D. Qed.
Print Assumptions C43_raises.
(** a cycle and shared children: 0 -> 2, 1, 1; 1 -> 3, 1; 2 -> 1, 4; 3 -> 0; 4 and 5 have none *)
Definition sample (x : nat) : list nat := match x with 0 => [2; 1; 1] | 1 => [3; 1] | 2 => [1; 4] | 3 => [0] | _ => [] end%nat.
Lemma sample_finite : finite_from sample 0.
Proof.
  exists [0; 1; 2; 3; 4]%nat. intros y [n W]. remember 0%nat as s0 eqn:E0. induction W as [|x n y z W IH I]; [left; auto|].
  specialize (IH E0). subst x. simpl in IH. destruct IH as [<-|[<-|[<-|[<-|[<-|[]]]]]]; simpl in I; simpl; lia.
Qed.
Example C41_case : finite_from sample 0 /\ bfs 12 0 (fun x => Ok (sample x)) None = ([(0, 0%nat); (1, 2%nat); (1, 1%nat); (2, 4%nat); (2, 3%nat)], Ok tt).
Proof. split; [exact sample_finite|]. vm_compute. reflexivity. Qed.
Example C42_case : finite_from sample 0 /\ dfs 12 0 (fun x => Ok (sample x)) None = ([0; 2; 1; 3; 4]%nat, Ok tt) /\
  dfs 12 0 (fun x => Ok (sample x)) (Some Nat.odd) = ([1; 3]%nat, Ok tt).
Proof. split; [exact sample_finite|]. vm_compute. split; reflexivity. Qed.
Example C41_raises_case : let ch := raising sample (fun x => if Nat.eqb x 1 then Some KeyError else None) in
  bfs 12 0 ch None = ([(0, 0%nat); (1, 2%nat); (1, 1%nat)], Err KeyError) /\ dfs 12 0 ch None = ([0; 2; 1]%nat, Err KeyError) /\ dfs_leaves 12 0 ch None = ([], Err KeyError).
Proof. vm_compute. repeat split; reflexivity. Qed.
(** Node 3 is yielded though it has a child. *)
Theorem C43_only_refuted : exists ch s0 x, finite_from ch s0 /\ ch x <> [] /\ exists l, settles (fun f => dfs_leaves f s0 (fun y => Ok (ch y)) None) (l, Ok tt) /\ In x l.
Proof.
  exists sample, 0%nat, 3%nat. split; [exact sample_finite|]. split; [discriminate|]. exists [3; 4]%nat. split; [|left; reflexivity].
  destruct (C43_order sample 0 sample_finite) as (v & o & _ & D). destruct (D None) as (n & N). exists n. intros k L. rewrite (N k L).
  rewrite <- (N (12 + n)%nat ltac:(lia)). clear. unfold dfs_leaves.
  repeat (cbn [Nat.add leaves_loop pop rev app memb existsb Nat.eqb orb sample filter negb emit]). reflexivity.
Qed.
Print Assumptions C43_only_refuted.
(** a tree *)
Definition small_tree (x : nat) : list nat := match x with 0 => [1; 2] | 2 => [3; 4] | 4 => [5] | _ => [] end%nat.
Example C43_case : tree_from small_tree 0 /\ dfs_leaves 9 0 (fun x => Ok (small_tree x)) None = ([1; 3; 5]%nat, Ok tt).
Proof.
  split; [|vm_compute; reflexivity]. split.
  - intros y _ I. do 5 (destruct y as [|y]; [simpl in I; lia|]). contradiction.
  - intros y z c _ _ I J. do 5 (destruct y as [|y]; [do 5 (destruct z as [|z]; [simpl in I, J; lia|]); contradiction|]). contradiction.
Qed.

(** C44: with one field, the nodes that the field refers to. *)
Theorem C44_one : forall fields h n f, field_fits fields h n f -> exists y, children_of fields [f] = Ok y /\ y h (VNode n) = Ok (referred h n f).
Proof. exact one_field. Qed.
Print Assumptions C44_one.
(** With more fields this holds of nodes that fill only the last of them; missing: all others. *)
Theorem C44_last_partial : forall fields h n fs f, (forall g, In g (fs ++ [f]) -> field_fits fields h n g) -> (forall g, In g fs -> referred h n g = []) ->
  exists y, children_of fields (fs ++ [f]) = Ok y /\ y h (VNode n) = Ok (flat_map (referred h n) (fs ++ [f])).
Proof. exact last_field. Qed.
Print Assumptions C44_last_partial.
Theorem C44_refuses : forall fields f, (forall t, dget fields f = Some t -> dt_name t <> TNodeRef /\ dt_name t <> TNodeRefMany) ->
  children_of fields [f] = Err (if dmem fields f then ValueError else KeyError).
Proof. exact no_children. Qed.
Print Assumptions C44_refuses.
(** Node 0 has children 1 (field a) and 2 (field b), node 1 has child 3 in field b: 1 and 3 are yielded. *)
Definition kin_fields : dict dtype := [(s "a", T_noderef (s "l")); (s "b", T_noderef_many (s "l"))].
Definition kin : heap := mkHeap (fun n => match n with
  | 0 => mkNode [(s "a", VNode 1); (s "b", VNodeList [Some 2])] 0%Z (Some 0)
  | 1 => mkNode [(s "b", VNodeList [Some 3])] 1%Z (Some 0)
  | _ => mkNode [] (Z.of_nat n) (Some 0) end)%nat 4%nat (h_layer empty_heap) 0%nat.
Lemma kin_fits n f : In f [s "a"; s "b"] -> field_fits kin_fields kin n f.
Proof.
  intros [<-|[<-|[]]]; eexists; (split; [vm_compute; reflexivity|]); [left|right]; (split; [reflexivity|]); intros v E;
    (destruct n as [|[|n]]; vm_compute in E; [injection E as <-; eauto|try (injection E as <-; eauto); discriminate|discriminate]).
Qed.
Theorem C44_several_refuted : exists fields h n fs, (forall f, In f fs -> field_fits fields h n f) /\
  exists y l, children_of fields fs = Ok y /\ y h (VNode n) = Ok l /\ l <> flat_map (referred h n) fs.
Proof.
  exists kin_fields, kin, 0%nat, [s "a"; s "b"]. split; [intros f; apply kin_fits|].
  eexists. exists [VNode 1%nat; VNode 3%nat]. split; [reflexivity|]. split; [vm_compute; reflexivity|]. vm_compute. discriminate.
Qed.
Print Assumptions C44_several_refuted.
Example C44_case : field_fits kin_fields kin 0%nat (s "b") /\ referred kin 0%nat (s "b") = [VNode 2%nat] /\ field_fits kin_fields kin 1%nat (s "b") /\ referred kin 1%nat (s "a") = [] /\
  match children_of kin_fields [s "a"; s "b"] with Ok y => y kin (VNode 1%nat) = Ok [VNode 3%nat] | Err _ => False end.
Proof. split; [apply kin_fits; simpl; tauto|]. split; [reflexivity|]. split; [apply kin_fits; simpl; tauto|]. split; reflexivity. Qed.
