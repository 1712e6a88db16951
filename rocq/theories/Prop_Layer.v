(** Properties C08-C18: layers and nodes.  [wf h] is the consistency of a heap (Spec_Layer); it holds in
    every state a history leads to (C08_reachable_consistent). *)
From Verif Require Import PyBase PyBaseFacts Model_Heap Model_Layer Model_Types Spec_Layer Spec_History
  Proof_Heap Proof_Layer Proof_Layer2 Proof_Layer3 Proof_History Proof_Layer4.
Local Open Scope Z_scope.
Local Arguments layer_iter _ _%nat.
Local Arguments layer_len _ _%nat.
Local Arguments slots _ _%nat.
Local Arguments layer_contains _ _%nat _%nat.
Local Arguments node_i _ _%nat.
Local Arguments layer_getitem _ _%nat _.
Local Arguments no_gaps _ _%nat.
Local Arguments compact _ _%nat.
Local Arguments layer_left _ _%nat _%nat.
Local Arguments layer_right _ _%nat _%nat.
Local Arguments nodespan_iter _ _%nat _%nat.
Local Arguments nodespan_len _ _%nat _%nat.
Local Arguments iter_span _ _%nat _%nat.
Local Arguments new_nodespan _ _%nat _%nat.
Local Arguments layer_remove _ _%nat _%nat.
Local Arguments layer_remove_many _ _%nat _ _.
Local Arguments layer_sort {K} _ _ _ _%nat.
Local Arguments layer_retain _ _%nat _.
Local Arguments layer_add_kw _ _%nat _.
Local Arguments layer_add_many _ _%nat _ _ _ _.
Local Arguments layer_add_field _ _%nat _ _ _.
Local Arguments layer_remove_field _ _%nat _ _.
Local Arguments n_fieldsof _ _%nat.
Local Arguments h_layer _ _%nat.

(** C08: histories whose calls meet [op_ok] (arguments exist; positional add is given unbound nodes,
    retain is used on a layer without gaps).  Without the last two conditions the claim is false. *)
Theorem C08_history_partial : forall (K : Type) (leb : K -> K -> bool) os h a,
  hist leb empty_heap a_empty os h a ->
  forall l, layer_iter h l = map Some (a_list a l) /\ layer_len h l = zlen (a_list a l).
Proof. exact @history_main. Qed.
Print Assumptions C08_history_partial.
Theorem C08_outcomes : forall (K : Type) (leb : K -> K -> bool) os h a o h' ok b,
  hist leb empty_heap a_empty os h a -> op_ok h o -> exec leb h o = (h', ok) -> spec_ok a o = Some b -> ok = b.
Proof. exact @outcomes_spec. Qed.
Print Assumptions C08_outcomes.
Theorem C08_reachable_consistent : forall (K : Type) (leb : K -> K -> bool) h, reachable leb h -> wf h.
Proof. exact @reachable_wf. Qed.
Print Assumptions C08_reachable_consistent.
Example C08_case : (exists a, hist Z.leb empty_heap a_empty demo_ops demo a) /\
  layer_iter demo 0 = [Some 0; Some 1; Some 3; Some 4]%nat /\ layer_len demo 0 = 4 /\ slots demo 0 = 6.
Proof. split; [exact (ops_ok_hist Z.leb demo_ops empty_heap a_empty demo_ok)|]. vm_compute. repeat split. Qed.
(** adding a bound node again: it is listed twice, and after one remove it is listed but not "in" the layer *)
Definition twice_ops : list (@lop Z) :=
  [OLayer (s "l") []; OAdd 0%nat []; OAddNodes 0%nat [Some 0%nat]; ORemove 0%nat 0%nat].
Theorem C08_add_bound_refuted : exists os l n,
  let h := exec_all Z.leb empty_heap os in In (Some n) (layer_iter h l) /\ layer_contains h l n = false.
Proof. exists twice_ops, 0%nat, 0%nat. vm_compute. split; [left|]; reflexivity. Qed.
Print Assumptions C08_add_bound_refuted.

(** C09 *)
Theorem C09_membership : forall h l,
  wf h ->
  NoDup (layer_iter h l) /\
  (forall n, layer_contains h l n = true <-> In (Some n) (layer_iter h l)) /\
  (forall n, layer_contains h l n = true -> exists i, node_i h n = Ok i /\ layer_getitem h l i = Ok (Some n)) /\
  (forall p q x y, nth_error (layer_iter h l) p = Some (Some x) -> nth_error (layer_iter h l) q = Some (Some y) ->
     (p < q)%nat -> exists i j, node_i h x = Ok i /\ node_i h y = Ok j /\ i < j).
Proof. exact membership_spec. Qed.
Print Assumptions C09_membership.

(** with no gaps (in particular right after compact, C13) node.i is the iteration position *)
Theorem C09_position : forall h l p n,
  wf h -> no_gaps h l -> nth_error (layer_iter h l) p = Some (Some n) -> node_i h n = Ok (Z.of_nat p).
Proof. exact position_spec. Qed.
Print Assumptions C09_position.
Example C09_case : wf demo /\ layer_contains demo 0 3 = true /\ node_i demo 3 = Ok 3 /\ layer_getitem demo 0 3 = Ok (Some 3%nat)
  /\ layer_contains demo 0 2 = false /\ no_gaps (compact demo 0) 0 /\ node_i (compact demo 0) 3 = Ok 2.
Proof. split; [exact demo_wf|]. vm_compute. repeat split. intros H. repeat destruct H as [H|H]; try discriminate. exact H. Qed.

(** C10 *)
Theorem C10_neighbours : forall h l,
  wf h ->
  (forall a x n b, layer_iter h l = map Some (a ++ x :: n :: b) -> layer_left h l n = Ok (Some x) /\ layer_right h l x = Ok (Some n)) /\
  (forall n b, layer_iter h l = map Some (n :: b) -> layer_left h l n = Ok None) /\
  (forall a n, layer_iter h l = map Some (a ++ [n]) -> layer_right h l n = Ok None) /\
  (forall n, layer_contains h l n = true -> node_left h n = layer_left h l n /\ node_right h n = layer_right h l n).
Proof. exact neighbours_spec. Qed.
Print Assumptions C10_neighbours.
Example C10_case : wf demo /\ layer_iter demo 0 = map Some [0; 1; 3; 4]%nat /\ layer_left demo 0 3 = Ok (Some 1%nat)
  /\ layer_right demo 0 1 = Ok (Some 3%nat) /\ layer_left demo 0 0 = Ok None /\ layer_right demo 0 4 = Ok None.
Proof. split; [exact demo_wf|]. vm_compute. repeat split. Qed.

(** C11 *)
Theorem C11_node_spans : forall h l,
  wf h ->
  (forall a x m y b, layer_iter h l = map Some (a ++ (x :: m ++ [y]) ++ b) ->
     new_nodespan h x y = Ok (x, y) /\ nodespan_iter h x y = Ok (x :: m ++ [y]) /\
     nodespan_len h x y = Ok (zlen m + 2) /\
     iter_span h x y = Ok (x :: m ++ [y]) /\ iter_span h y x = Ok (x :: m ++ [y]) /\
     new_nodespan h y x = Err AssertionError) /\
  (forall n, layer_contains h l n = true ->
     new_nodespan h n n = Ok (n, n) /\ nodespan_iter h n n = Ok [n] /\ nodespan_len h n n = Ok 1 /\ iter_span h n n = Ok [n]).
Proof. exact nodespan_runs. Qed.
Print Assumptions C11_node_spans.
Example C11_case : wf demo /\ layer_iter demo 0 = map Some ([0] ++ (1 :: [3] ++ [4]) ++ [])%nat /\ nodespan_iter demo 1 4 = Ok [1; 3; 4]%nat
  /\ nodespan_len demo 1 4 = Ok 3 /\ iter_span demo 4 1 = Ok [1; 3; 4]%nat /\ new_nodespan demo 4 1 = Err AssertionError.
Proof. split; [exact demo_wf|]. vm_compute. repeat split. Qed.

(** C12: partial because the exception for a dangling node that has fields is AttributeError (its repr fails) *)
Theorem C12_remove_one_partial : forall h l n h' r,
  wf h -> (l < h_lnext h)%nat -> layer_remove h l n = (h', r) ->
  wf h' /\ (forall m, n_fieldsof h' m = n_fieldsof h m) /\
  (forall l', l' <> l -> layer_iter h' l' = layer_iter h l') /\
  (layer_contains h l n = true ->
     r = Ok tt /\ layer_iter h' l = filter (fun o => negb (opt_lid_eqb o (Some n))) (layer_iter h l) /\
     forall l', layer_contains h' l' n = false) /\
  (layer_contains h l n = false -> h' = h /\ (r = Err ValueError \/ (r = Err AttributeError /\ n_collof h n = None /\ n_fieldsof h n <> []))).
Proof. exact remove_one_spec. Qed.
Print Assumptions C12_remove_one_partial.

(** the items before the first one that is not in the layer are removed; list_remove is the plain-list reading *)
Theorem C12_remove_many_partial : forall h l b items h' r,
  wf h -> (l < h_lnext h)%nat -> layer_remove_many h l b items = (h', r) ->
  wf h' /\ (forall m, n_fieldsof h' m = n_fieldsof h m) /\
  (forall l', l' <> l -> layer_iter h' l' = layer_iter h l') /\
  (forall c, layer_iter h l = map Some c ->
     layer_iter h' l = map Some (fst (list_remove c items)) /\
     (forall n, In n c -> ~ In n (fst (list_remove c items)) -> forall l', layer_contains h' l' n = false) /\
     (snd (list_remove c items) = true -> r = Ok tt) /\
     (snd (list_remove c items) = false -> r = Err ValueError \/ r = Err AttributeError) /\
     (snd (list_remove c items) = false -> b = false -> r = Err ValueError)).
Proof. exact remove_list_spec. Qed.
Print Assumptions C12_remove_many_partial.
Example C12_case : wf demo /\ snd (layer_remove demo 0 3) = Ok tt /\ layer_iter (fst (layer_remove demo 0 3)) 0 = map Some [0; 1; 4]%nat
  /\ snd (layer_remove_many demo 0 false [RNode 4; RNode 0; RNode 4; RNode 1]%nat) = Err ValueError
  /\ layer_iter (fst (layer_remove_many demo 0 false [RNode 4; RNode 0; RNode 4; RNode 1]%nat)) 0 = map Some [1; 3]%nat.
Proof. split; [exact demo_wf|]. vm_compute. repeat split. Qed.
Theorem C12_error_kind_refuted : exists h l n, wf h /\ (l < h_lnext h)%nat /\ layer_contains h l n = false /\
  snd (layer_remove h l n) = Err AttributeError.
Proof. exists demo, 0%nat, 2%nat. split; [exact demo_wf|]. vm_compute. repeat split. repeat constructor. Qed.
Print Assumptions C12_error_kind_refuted.

(** C13 *)
Theorem C13_compact : forall h l,
  wf h ->
  wf (compact h l) /\ (forall l', layer_iter (compact h l) l' = layer_iter h l' /\ layer_len (compact h l) l' = layer_len h l') /\
  (forall n, n_fieldsof (compact h l) n = n_fieldsof h n) /\
  (forall l' n, layer_contains (compact h l) l' n = layer_contains h l' n) /\
  (forall p n, nth_error (layer_iter (compact h l) l) p = Some (Some n) -> node_i (compact h l) n = Ok (Z.of_nat p)).
Proof. exact compact_invisible. Qed.
Print Assumptions C13_compact.

(** the renumbering that compilation does is equally invisible *)
Theorem C13_compile : forall h ls,
  wf h -> Forall (fun l => (l < h_lnext h)%nat) ls ->
  let h' := fold_left layer_prepare ls h in
  wf h' /\ (forall l, layer_iter h' l = layer_iter h l /\ layer_len h' l = layer_len h l) /\
  (forall n, n_fieldsof h' n = n_fieldsof h n) /\
  (forall l n, layer_contains h' l n = layer_contains h l n) /\
  (forall l p n, In l ls -> nth_error (layer_iter h' l) p = Some (Some n) -> node_i h' n = Ok (Z.of_nat p)).
Proof. exact compile_invisible. Qed.
Print Assumptions C13_compile.

(** gaps are bounded after every successful remove *)
Theorem C13_gaps_after_remove : forall h l n h',
  wf h -> layer_remove h l n = (h', Ok tt) ->
  slots h' l <= 16 \/ 3 * slots h' l <= 4 * layer_len h' l.
Proof. exact remove1_bounds_gaps. Qed.
Print Assumptions C13_gaps_after_remove.

Theorem C13_gaps_after_remove_many : forall h l b items h',
  wf h -> layer_remove_many h l b items = (h', Ok tt) ->
  slots h' l <= 16 \/ 3 * slots h' l <= 4 * layer_len h' l.
Proof. exact remove_bounds_gaps. Qed.
Print Assumptions C13_gaps_after_remove_many.
Definition many_ops (adds removes : nat) : list (@lop Z) :=
  OLayer (s "l") [] :: repeat (OAdd 0%nat []) adds ++ map (fun n => ORemove 0%nat n) (seq 0 removes).
Example C13_case : slots (exec_all Z.leb empty_heap (many_ops 20 5)) 0 = 20 /\ slots (exec_all Z.leb empty_heap (many_ops 20 6)) 0 = 14
  /\ layer_len (exec_all Z.leb empty_heap (many_ops 20 6)) 0 = 14.
Proof. vm_compute. repeat split. Qed.
Example C13_case2 : wf demo /\ layer_getitem demo 0 3 = Ok (Some 3%nat) /\ layer_getitem (compact demo 0) 0 3 = Ok (Some 4%nat)
  /\ layer_iter (compact demo 0) 0 = layer_iter demo 0.
Proof. split; [exact demo_wf|]. vm_compute. repeat split. Qed.
(** the bound is not an invariant: adding nodes to a small gapped layer (or a raising remove) exceeds it *)
Theorem C13_gap_bound_refuted : exists os, let h := exec_all Z.leb empty_heap os in ops_ok Z.leb empty_heap os /\
  ~ (slots h 0 <= 16 \/ 3 * slots h 0 <= 4 * layer_len h 0).
Proof.
  exists (many_ops 16 10 ++ [OAdd 0%nat []]). cbv zeta. split.
  - apply ops_okb_sound. vm_compute. reflexivity.
  - vm_compute. intros [H|H]; apply H; reflexivity.
Qed.
Print Assumptions C13_gap_bound_refuted.

(** C14 *)
Theorem C14_sort : forall (K : Type) (leb : K -> K -> bool) (keyfn : nid -> res K) (key : nid -> K) h l c,
  (forall x y, leb x y = true \/ leb y x = true) ->
  (forall x y z, leb x y = true -> leb y z = true -> leb x z = true) ->
  wf h -> (l < h_lnext h)%nat -> layer_iter h l = map Some c -> (forall n, In n c -> keyfn n = Ok (key n)) ->
  exists h' c', layer_sort leb keyfn h l = (h', Ok tt) /\ wf h' /\ layer_iter h' l = map Some c' /\
    Permutation c c' /\ StronglySorted (fun x y => leb (key x) (key y) = true) c' /\
    (forall z, filter (fun x => leb (key z) (key x) && leb (key x) (key z)) c' =
               filter (fun x => leb (key z) (key x) && leb (key x) (key z)) c) /\
    (forall n, n_fieldsof h' n = n_fieldsof h n) /\
    (forall l', l' <> l -> layer_iter h' l' = layer_iter h l') /\
    (forall p n, nth_error c' p = Some n -> node_i h' n = Ok (Z.of_nat p)).
Proof. exact @sort_stable_spec. Qed.
Print Assumptions C14_sort.

(** if a key cannot be computed, nothing but gaps has changed *)
Theorem C14_sort_raises : forall (K : Type) (leb : K -> K -> bool) (keyfn : nid -> res K) h l c n e h' r,
  wf h -> layer_iter h l = map Some c -> In n c -> keyfn n = Err e -> layer_sort leb keyfn h l = (h', r) ->
  wf h' /\ (exists e', r = Err e') /\ (forall l', layer_iter h' l' = layer_iter h l') /\ (forall n, n_fieldsof h' n = n_fieldsof h n).
Proof. exact @sort_raises_spec. Qed.
Print Assumptions C14_sort_raises.
Definition by_id (h : heap) (n : nid) : res Z := match dget (n_fieldsof h n) (s "id") with Some (VInt i) => Ok i | _ => Err KeyError end.
Example C14_case : wf demo /\ (0 < h_lnext demo)%nat /\ layer_iter demo 0 = map Some [0; 1; 3; 4]%nat /\ mapM (by_id demo) [0; 1; 3; 4]%nat = Ok [3; 1; 0; 1]
  /\ layer_iter (fst (layer_sort Z.leb (by_id demo) demo 0)) 0 = map Some [3; 1; 4; 0]%nat.
Proof. split; [exact demo_wf|]. vm_compute. repeat split. repeat constructor. Qed.

(** C15: on a layer without gaps and nodes of that layer *)
Theorem C15_retain_partial : forall h l ns h' r c,
  wf h -> (l < h_lnext h)%nat -> no_gaps h l -> layer_iter h l = map Some c ->
  (forall n, In n ns -> In n c) -> layer_retain h l (map Some ns) = (h', r) ->
  r = Ok tt /\ wf h' /\ layer_iter h' l = map Some (filter (fun n => mem_nid n ns) c) /\
  (forall n, In n c -> ~ In n ns -> forall l', layer_contains h' l' n = false) /\
  (forall n, n_fieldsof h' n = n_fieldsof h n) /\ (forall l', l' <> l -> layer_iter h' l' = layer_iter h l') /\
  (forall p n, nth_error (layer_iter h' l) p = Some (Some n) -> node_i h' n = Ok (Z.of_nat p)).
Proof. exact retain_keeps. Qed.
Print Assumptions C15_retain_partial.
Definition demo2 : heap := compact demo 0.
Example C15_case : wf demo2 /\ no_gaps demo2 0 /\ layer_iter demo2 0 = map Some [0; 1; 3; 4]%nat
  /\ layer_iter (fst (layer_retain demo2 0 (map Some [4; 1; 4]%nat))) 0 = map Some [1; 4]%nat.
Proof.
  split; [apply wf_compact, demo_wf|]. vm_compute. repeat split.
  intros H. repeat destruct H as [H|H]; try discriminate. exact H.
Qed.
(** with a gap, retain raises AttributeError and leaves the layer inconsistent *)
Theorem C15_gap_refuted : exists h l ns, wf h /\ (forall n, In (Some n) ns -> layer_contains h l n = true) /\
  snd (layer_retain h l ns) = Err AttributeError /\ ~ wf (fst (layer_retain h l ns)).
Proof.
  exists demo, 0%nat, [Some 1%nat]. split; [exact demo_wf|]. split; [intros n [[= <-]|[]]; reflexivity|]. split; [vm_compute; reflexivity|].
  intros W. destruct (membership_spec _ 0%nat W) as (H & _). vm_compute in H. inversion H as [|x y H1 H2]. apply H1. left. reflexivity.
Qed.
Print Assumptions C15_gap_refuted.

(** C16 *)
Theorem C16_add : forall h l kw h' r,
  wf h -> (l < h_lnext h)%nat -> NoDup (dkeys kw) -> layer_add_kw h l kw = (h', r) ->
  (exists n, r = Ok n /\ wf h' /\ (forall l', layer_contains h l' n = false) /\
     layer_iter h' l = layer_iter h l ++ [Some n] /\
     (forall k, dget (n_fieldsof h' n) k =
        match dget kw k with
        | Some v => Some v
        | None => match dget (l_fields (h_layer h l)) k with Some d => dt_default d | None => None end
        end) /\
     validate h' l n = Ok true /\
     (forall l', l' <> l -> layer_iter h' l' = layer_iter h l') /\
     (forall m, m <> n -> n_fieldsof h' m = n_fieldsof h m)) \/
  (exists e, r = Err e /\ h' = h).
Proof. exact add_atomic. Qed.
Print Assumptions C16_add.
Example C16_case : wf demo /\ (exists n, snd (layer_add_kw demo 0 [(s "w", VStr (s "z"))]) = Ok n) /\
  layer_iter (fst (layer_add_kw demo 0 [(s "w", VStr (s "z"))])) 0 = layer_iter demo 0 ++ [Some 6%nat] /\
  snd (layer_add_kw demo 0 [(s "w", VInt 2)]) = Err AssertionError.
Proof. split; [exact demo_wf|]. split; [exists 6%nat; vm_compute; reflexivity|]. vm_compute. repeat split. Qed.

(** C17: take_unbound walks the arguments up to the first bound (or repeated) node *)
Theorem C17_add_many : forall h l one_shot ns df fv h' r,
  wf h -> (l < h_lnext h)%nat -> Forall (fun n => (n < h_nnext h)%nat) (live ns) ->
  layer_add_many h l one_shot ns df fv = (h', r) ->
  let added := fst (take_unbound (is_bound h) [] ns) in
  let ok := snd (take_unbound (is_bound h) [] ns) in
  wf h' /\ layer_iter h' l = layer_iter h l ++ map Some added /\
  (forall l', l' <> l -> layer_iter h' l' = layer_iter h l') /\
  (forall n, ~ In n added -> n_fieldsof h' n = n_fieldsof h n) /\
  match r with
  | Ok _ => ok = true /\ map Some added = ns /\
      (forall n, In n added -> forall k, dget (n_fieldsof h' n) k =
         match dget (n_fieldsof h n) k with
         | Some v => Some v
         | None => if df then match dget (l_fields (h_layer h l)) k with Some d => dt_default d | None => None end else None
         end) /\
      (fv = true -> one_shot = false -> df = false -> forall n, In n added -> validate h' l n = Ok true)
  | Err e => (forall n, n_fieldsof h' n = n_fieldsof h n) /\
      ((ok = false /\ e = AssertionError) \/
       (ok = true /\ fv = true /\ one_shot = false /\ exists n, In n added /\ validate h' l n <> Ok true))
  end.
Proof. exact add_many_main. Qed.
Print Assumptions C17_add_many.
Definition demo3 : heap := exec_all Z.leb empty_heap (demo_ops ++ [ONode [(s "id", VInt 7)]; ONode [(s "w", VStr [])]]).
Example C17_case : let r := layer_add_many demo3 0 false [Some 6; Some 2; Some 7]%nat true true in
  snd r = Ok tt /\ layer_iter (fst r) 0 = layer_iter demo3 0 ++ map Some [6; 2; 7]%nat /\
  dget (n_fieldsof (fst r) 7) (s "id") = Some (VInt 0) /\ dget (n_fieldsof (fst r) 6) (s "id") = Some (VInt 7) /\
  let r2 := layer_add_many demo3 0 false [Some 6; Some 1; Some 7]%nat true true in
  snd r2 = Err AssertionError /\ layer_iter (fst r2) 0 = layer_iter demo3 0 ++ [Some 6%nat].
Proof. vm_compute. repeat split. Qed.
(** full_validation runs before the defaults are filled in: a node that is invalid afterwards is accepted *)
Theorem C17_validated_refuted : exists h l ns, wf h /\ snd (layer_add_many h l false (map Some ns) true true) = Ok tt /\
  exists n, In n ns /\ validate (fst (layer_add_many h l false (map Some ns) true true)) l n <> Ok true.
Proof.
  exists (exec_all Z.leb empty_heap [OLayer (s "l") [(s "x", T_float64 (VFloat 0))]; ONode []]), 0%nat, [0%nat].
  split; [apply ops_ok_wf, ops_okb_sound; vm_compute; reflexivity|].
  split; [vm_compute; reflexivity|]. exists 0%nat. split; [left; reflexivity|]. intros H. vm_compute in H. discriminate.
Qed.
Print Assumptions C17_validated_refuted.

(** C18 *)
Theorem C18_add_field : forall h l name d init h' r,
  wf h -> layer_add_field h l name d init = (h', r) ->
  wf h' /\ (forall l', layer_iter h' l' = layer_iter h l') /\
  match r with
  | Ok _ => dget (l_fields (h_layer h l)) name = None /\ l_fields (h_layer h' l) = l_fields (h_layer h l) ++ [(name, d)]
  | Err _ => dget (l_fields (h_layer h l)) name <> None /\ h' = h
  end /\
  (forall n k, (n_fieldsof h' n = n_fieldsof h n \/ layer_contains h l n = true) /\
     (k <> name -> dget (n_fieldsof h' n) k = dget (n_fieldsof h n) k)) /\
  (r = Ok tt -> init = true -> forall n v, layer_contains h l n = true -> dt_default d = Some v ->
     dget (n_fieldsof h' n) name = Some v) /\
  (init = false \/ dt_default d = None -> forall n, n_fieldsof h' n = n_fieldsof h n).
Proof. exact add_field_main. Qed.
Print Assumptions C18_add_field.

Theorem C18_remove_field : forall h l name leave h' r,
  wf h -> wf_keys h -> layer_remove_field h l name leave = (h', r) ->
  wf h' /\ (forall l', layer_iter h' l' = layer_iter h l') /\
  (dmem (l_fields (h_layer h l)) name = false -> r = Ok false /\ h' = h) /\
  (dmem (l_fields (h_layer h l)) name = true ->
     r = Ok true /\ dget (l_fields (h_layer h' l)) name = None /\
     (forall k, k <> name -> dget (l_fields (h_layer h' l)) k = dget (l_fields (h_layer h l)) k) /\
     (leave = true -> forall n, n_fieldsof h' n = n_fieldsof h n) /\
     (leave = false -> forall n, layer_contains h l n = true -> dget (n_fieldsof h' n) name = None)) /\
  (forall n k, (n_fieldsof h' n = n_fieldsof h n \/ layer_contains h l n = true) /\
     (k <> name -> dget (n_fieldsof h' n) k = dget (n_fieldsof h n) k)).
Proof. exact remove_field_main. Qed.
Print Assumptions C18_remove_field.

(** adding then removing restores, when no node of the layer has the undeclared key *)
Theorem C18_add_then_remove : forall h l name d h1 h2 r2,
  wf h -> dget (l_fields (h_layer h l)) name = None ->
  (forall n, layer_contains h l n = true -> dget (n_fieldsof h n) name = None) ->
  layer_add_field h l name d true = (h1, Ok tt) -> layer_remove_field h1 l name false = (h2, r2) ->
  r2 = Ok true /\ l_fields (h_layer h2 l) = l_fields (h_layer h l) /\
  (forall n, n_fieldsof h2 n = n_fieldsof h n) /\ (forall l', layer_iter h2 l' = layer_iter h l').
Proof. exact add_remove_field. Qed.
Print Assumptions C18_add_then_remove.
Example C18_case : wf demo /\ dget (l_fields (h_layer demo 0)) (s "x") = None /\
  let h1 := fst (layer_add_field demo 0 (s "x") (T_int64 (VInt 5)) true) in
  dget (n_fieldsof h1 3) (s "x") = Some (VInt 5) /\ dget (n_fieldsof h1 2) (s "x") = None /\
  let h2 := fst (layer_remove_field h1 0 (s "x") false) in
  map (n_fieldsof h2) (seq 0 7) = map (n_fieldsof demo) (seq 0 7).
Proof. split; [exact demo_wf|]. vm_compute. repeat split. Qed.
(** without the premise that no node has the undeclared key, an undeclared value is lost *)
Theorem C18_undeclared_refuted : exists h l k d n, wf h /\ dget (l_fields (h_layer h l)) k = None /\
  let h1 := fst (layer_add_field h l k d true) in
  let h2 := fst (layer_remove_field h1 l k false) in n_fieldsof h2 n <> n_fieldsof h n.
Proof.
  exists (exec_all Z.leb empty_heap (demo_ops ++ [OSetField 1%nat (s "x") (VInt 1)])), 0%nat, (s "x"), (T_int64 (VInt 5)), 1%nat.
  split; [|vm_compute; split; [reflexivity|discriminate]].
  apply ops_ok_wf, ops_okb_sound. vm_compute. reflexivity.
Qed.
Print Assumptions C18_undeclared_refuted.
