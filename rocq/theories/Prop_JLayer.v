(** Properties C93, C94: the layer of the Java port.  [layer_ok] (Spec_Layer): slots, count, ids and owners agree. *)
From Verif Require Import PyBase Model_Heap Model_Layer Spec_Layer Proof_Layer2 Model_JLayer Spec_JLayer Proof_JLayer Proof_JLayer2 Proof_Names.
Local Open Scope Z_scope.

(** [k] new nodes, added one after the other to a new layer 0 *)
Definition filled (k : nat) : heap := fst (jl_calls empty_heap 0%nat (map JAdd (seq 0 k))).
Definition calls (k : nat) (cs : list jcall) : heap := fst (jl_calls (filled k) 0%nat cs).
Lemma empty_ok l : layer_ok empty_heap l.
Proof. split; [reflexivity|intros [|i] n; discriminate|discriminate]. Qed.
Lemma filled_ok : layer_ok (filled 3) 0%nat.
Proof. refine (calls_ok empty_heap 0%nat (map JAdd (seq 0 3)) ([0; 1; 2]%nat, 3) (repeat (JBool true) 3) (empty_ok _) _). vm_compute. reflexivity. Qed.

(** C93: calls on a consistent layer do to a plain list what they say, as long as add and clear meet no gap;
    the layer stays consistent, other layers are as before *)
Theorem C93_history : forall h l cs st t,
  layer_ok h l -> list_calls (elsewhere h l) (content h l, zlen (l_nodesof h l)) cs = Some (st, t) ->
  exists h', jl_calls h l cs = (h', t) /\ layer_ok h' l /\ jl_iter h' l = fst st /\ zlen (l_nodesof h' l) = snd st /\ others_untouched l h h'.
Proof. exact jhistory_C93_thm. Qed.
Print Assumptions C93_history.
Definition long_calls : list jcall :=
  map JAdd (seq 0 20) ++ [JAdd 3%nat; JRemove 4%nat; JRemove 4%nat; JDiscard RNone; JRemoveAll [RNode 5%nat; ROther; RNode 40%nat; RNode 6%nat];
    JRemoveAll (map RNode (seq 8 6)); JAdd 4%nat; JAdd 5%nat].
(** twenty nodes; the sixth removal leaves less than three quarters, so that slots are given back; after three more there
    are gaps again: the last two calls are not covered *)
Example C93_case :
  list_calls (elsewhere empty_heap 0%nat) ([], 0) long_calls = None /\
  list_calls (elsewhere empty_heap 0%nat) ([], 0) (firstn 25 long_calls ++ [JRemoveAll (map RNode (seq 8 3)); JAdd 4%nat; JAdd 5%nat]) =
    Some (([0; 1; 2; 3; 7; 11; 12; 13; 14; 15; 16; 17; 18; 19; 4; 5]%nat, 16),
          repeat (JBool true) 20 ++ [JFail ValueError; JUnit; JFail RuntimeError; JBool false; JBool true; JBool true; JBool true; JBool true]).
Proof. vm_compute. split; reflexivity. Qed.
(** adding keeps a layer consistent exactly if it has no gap *)
Theorem C93_add : forall h l n, layer_ok h l -> n_collof h n = None ->
  snd (jl_add h l n) = Ok true /\ (layer_ok (fst (jl_add h l n)) l <-> no_gaps h l).
Proof. exact jadd_C93_thm. Qed.
Print Assumptions C93_add.
(** with a gap the new node takes the slot numbered [size], whatever is in it, and an id that names no slot *)
Theorem C93_add_gap : forall h l n, layer_ok h l -> n_collof h n = None -> ~ no_gaps h l ->
  exists h', jl_add h l n = (h', Ok true) /\ l_nodesof h' l = upd_nth (l_nodesof h l) (length (content h l)) (Some n) /\
    jl_size h' l = zlen (content h l) + 1 /\ jl_get h' l (n_idof h' n) = Err IndexError /\ snd (jl_remove h' l n) = Err IndexError /\ others_untouched l h h'.
Proof. exact jadd_gap_C93_thm. Qed.
Print Assumptions C93_add_gap.
(** three nodes, the first removed, one added: the last is no longer listed, though it is "in" the layer; the new one has no slot of its own *)
Theorem C93_add_refuted : exists cs l n m, let h := fst (jl_calls empty_heap l cs) in
  Forall (fun a => a = JBool true \/ a = JUnit) (snd (jl_calls empty_heap l cs)) /\
  In (JAdd n) cs /\ ~ In (JRemove n) cs /\ ~ In n (jl_iter h l) /\ jl_contains h l n = true /\
  In m (jl_iter h l) /\ jl_get h l (n_idof h m) = Err IndexError.
Proof.
  exists (map JAdd (seq 0 3) ++ [JRemove 0%nat; JAdd 3%nat]), 0%nat, 2%nat, 3%nat. vm_compute. split; [|split; [|split; [|split; [|split; [|split]]]]].
  - repeat first [apply Forall_nil | apply Forall_cons; [first [left; reflexivity | right; reflexivity]|]].
  - tauto.
  - intros H. repeat (destruct H as [H|H]; [discriminate|]). exact H.
  - intros H. repeat (destruct H as [H|H]; [discriminate|]). exact H.
  - reflexivity.
  - tauto.
  - reflexivity.
Qed.
Print Assumptions C93_add_refuted.
Example C93_add_case : layer_ok (filled 3) 0%nat /\ n_collof (filled 3) 9%nat = None /\ no_gaps (filled 3) 0%nat /\
  layer_ok (calls 3 [JRemove 0%nat]) 0%nat /\ ~ no_gaps (calls 3 [JRemove 0%nat]) 0%nat /\
  jl_iter (calls 3 [JRemove 0%nat; JAdd 3%nat]) 0%nat = [1; 3]%nat /\ jl_size (calls 3 [JRemove 0%nat; JAdd 3%nat]) 0%nat = 3.
Proof.
  split; [exact filled_ok|]. split; [reflexivity|]. split; [vm_compute; intros H; repeat (destruct H as [H|H]; [discriminate|]); exact H|].
  split; [refine (calls_ok (filled 3) 0%nat [JRemove 0%nat] ([1; 2]%nat, 3) [JUnit] filled_ok _); vm_compute; reflexivity|].
  split; [vm_compute; intros H; apply H; left; reflexivity|]. vm_compute. split; reflexivity.
Qed.
(** clear: with no gap every node is cut off; with one it fails, having cut off the nodes before the gap, which stay listed *)
Theorem C93_clear : forall h l, layer_ok h l ->
  (no_gaps h l -> exists h', jl_clear h l = (h', Ok tt) /\ layer_ok h' l /\ jl_iter h' l = [] /\ (forall n, In n (content h l) -> n_collof h' n = None /\ n_idof h' n = -1) /\ others_untouched l h h') /\
  (~ no_gaps h l -> exists h', jl_clear h l = (h', Err AttributeError) /\ jl_iter h' l = jl_iter h l /\ jl_size h' l = jl_size h l /\
     exists before after, l_nodesof h l = map Some before ++ None :: after /\ (forall n, In n before -> jl_contains h' l n = false) /\ (forall n, ~ In n before -> n_collof h' n = n_collof h n /\ n_idof h' n = n_idof h n)).
Proof. exact jclear_C93_thm. Qed.
Print Assumptions C93_clear.
Example C93_clear_case : snd (jl_clear (filled 3) 0%nat) = Ok tt /\
  let r := jl_clear (calls 3 [JRemove 1%nat]) 0%nat in snd r = Err AttributeError /\ jl_iter (fst r) 0%nat = [0; 2]%nat /\
  jl_contains (fst r) 0%nat 0%nat = false /\ jl_contains (fst r) 0%nat 2%nat = true.
Proof. vm_compute. repeat split. Qed.

(** C94: reading a consistent layer *)
Theorem C94_reading : forall h l, layer_ok h l ->
  jl_iter h l = content h l /\ jl_size h l = zlen (content h l) /\ jl_is_empty h l = (match content h l with [] => true | _ => false end) /\
  (forall n, jl_contains h l n = true <-> In n (content h l)) /\ jl_first h l = hd_error (content h l) /\ jl_last h l = hd_error (rev (content h l)) /\
  (forall n, In n (content h l) -> jl_get h l (n_idof h n) = Ok (Some n)) /\ (forall i n, jl_get h l i = Ok (Some n) -> In n (content h l) /\ n_idof h n = i).
Proof. exact reading. Qed.
Print Assumptions C94_reading.
(** get raises IndexOutOfBoundsException exactly outside of the slots and gives null exactly for the ids of no node. *)
Theorem C94_get : forall h l, layer_ok h l -> forall i,
  (forall e, jl_get h l i = Err e <-> e = IndexError /\ ~ (0 <= i < zlen (l_nodesof h l))) /\
  (jl_get h l i = Ok None <-> 0 <= i < zlen (l_nodesof h l) /\ forall n, In n (content h l) -> n_idof h n <> i).
Proof. exact get_exact. Qed.
Print Assumptions C94_get.
Example C94_get_case : layer_ok (filled 3) 0%nat /\ jl_get (filled 3) 0%nat (-1) = Err IndexError /\ jl_get (filled 3) 0%nat 3 = Err IndexError /\ jl_get (calls 3 [JRemove 1%nat]) 0%nat 1 = Ok None.
Proof. split; [exact filled_ok|]. vm_compute. repeat split. Qed.
(** node spans: the run of nodes from one to the other, whatever gaps there are; refused if they are the other way round or not in the layer *)
Theorem C94_nodespan : forall h l, layer_ok h l ->
  (forall p q x y, nth_error (content h l) p = Some x -> nth_error (content h l) q = Some y ->
     jl_nodespan h l x y = if (p <=? q)%nat then Ok (firstn (S q - p) (skipn p (content h l))) else Err DataError) /\
  (forall x y, ~ In x (content h l) \/ ~ In y (content h l) -> jl_nodespan h l x y = Err DataError).
Proof. exact jnodespan_C94_thm. Qed.
Print Assumptions C94_nodespan.
Example C94_nodespan_case : let h := calls 6 [JRemove 2%nat] in content h 0%nat = [0; 1; 3; 4; 5]%nat /\
  jl_nodespan h 0%nat 1%nat 4%nat = Ok [1; 3; 4]%nat /\ jl_nodespan h 0%nat 4%nat 1%nat = Err DataError /\ jl_nodespan h 0%nat 2%nat 4%nat = Err DataError /\
  jl_first h 0%nat = Some 0%nat /\ jl_last h 0%nat = Some 5%nat.
Proof. vm_compute. repeat split. Qed.
(** sort: the list is sorted, but ids stay as they were before: the layer is consistent only if it was in order already *)
Theorem C94_sort : forall leb h l, layer_ok h l -> exists h', jl_sort leb h l = (h', Ok tt) /\
  jl_iter h' l = ssort (fun n => n) leb (content h l) /\ (layer_ok h' l <-> ssort (fun n => n) leb (content h l) = content h l) /\
  (forall i n, nth_error (content h l) i = Some n -> n_idof h' n = Z.of_nat i) /\ others_untouched l h h'.
Proof. exact jsort_C94_thm. Qed.
Print Assumptions C94_sort.
(** after a sort, removing a node takes out another one *)
Theorem C94_sort_refuted : exists leb l n m, let h := fst (jl_sort leb (filled 3) l) in
  n <> m /\ snd (jl_remove h l n) = Ok tt /\ In n (jl_iter (fst (jl_remove h l n)) l) /\
  In m (jl_iter h l) /\ ~ In m (jl_iter (fst (jl_remove h l n)) l).
Proof.
  exists (fun a b => Nat.leb b a), 0%nat, 0%nat, 2%nat. vm_compute. split; [discriminate|]. split; [reflexivity|]. split; [tauto|]. split; [tauto|].
  intros H. repeat (destruct H as [H|H]; [discriminate|]). exact H.
Qed.
Print Assumptions C94_sort_refuted.
(** retainAll, given nodes of the layer: it keeps those given an odd number of times, except the one with id 0; a node
    dropped still says it is in the layer, so that the layer is consistent afterwards only if nothing was dropped *)
Theorem C94_retain : forall h l ns, layer_ok h l -> ns <> [] -> (forall n, In n ns -> In n (content h l)) ->
  exists h', jl_retain_all h l (map RNode ns) = (h', Ok true) /\ jl_iter h' l = odd_kept h l ns /\ jl_size h' l = zlen (odd_kept h l ns) /\
    (forall n, In n (odd_kept h l ns) -> jl_get h' l (n_idof h' n) = Ok (Some n)) /\
    (forall n, jl_contains h' l n = jl_contains h l n) /\ (layer_ok h' l <-> odd_kept h l ns = content h l) /\ others_untouched l h h'.
Proof. exact jretain_C94_thm. Qed.
Print Assumptions C94_retain.
(** given nothing, it keeps everything *)
Theorem C94_retain_nothing : forall h l, jl_retain_all h l [] = (h, Ok false).
Proof. reflexivity. Qed.
Print Assumptions C94_retain_nothing.
(** so it is not what retainAll of a Collection is: keep what is given, drop the rest *)
Theorem C94_retain_refuted : exists l,
  jl_iter (fst (jl_retain_all (filled 4) l [RNode 0%nat; RNode 2%nat])) l = [2]%nat /\
  jl_iter (fst (jl_retain_all (filled 4) l [RNode 2%nat; RNode 2%nat])) l = [] /\
  jl_iter (fst (jl_retain_all (filled 4) l [])) l = [0; 1; 2; 3]%nat /\
  snd (jl_retain_all (filled 4) l [RNode 2%nat; RNode 7%nat]) = Err ValueError /\
  n_idof (fst (jl_retain_all (filled 4) l [RNode 2%nat; RNode 7%nat])) 2%nat = -2.
Proof. exists 0%nat. vm_compute. repeat split. Qed.
Print Assumptions C94_retain_refuted.
Example C94_retain_case : let h := filled 4 in content h 0%nat = [0; 1; 2; 3]%nat /\ odd_kept h 0%nat [3; 1]%nat = [1; 3]%nat /\
  let r := jl_retain_all h 0%nat [RNode 3%nat; RNode 1%nat] in snd r = Ok true /\ jl_contains (fst r) 0%nat 2%nat = true.
Proof. vm_compute. repeat split. Qed.
