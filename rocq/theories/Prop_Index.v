(** Property C39: searching an index. *)
From Verif Require Import PyBase Model_Text Model_Heap Model_Layer Model_Types Model_Msgpack Model_Document Model_Codec Model_Lazy Model_Collection Model_Index
  Spec_Layer Spec_History Spec_Msgpack Spec_Codec Spec_Lazy Spec_Collection Spec_Index Proof_Codec6 Proof_Index2 Prop_Collection.
Local Open Scope Z_scope.

(** C39: the documents that satisfy all conditions, in file order: lazily with their data and reference, otherwise decoded. *)
Theorem C39_search : forall c per h ops f g, is_file c per h ops f -> undoes g c -> wf h -> only_documents ops -> (forall d, In d (docs_of ops) -> readable h d) ->
  forall names fuel, (forall d, In d (docs_of ops) -> indexable names d) -> (length (docs_of ops) < fuel)%nat ->
  exists ix bs, index_build fuel g f names = Ok ix /\ List.concat bs = written_data h ops /\
  forall conds, (forall k v, In (k, v) conds -> ~ container v) ->
  exists sel, (forall d, sel d = true <-> matches names conds d) /\
  (forall h0, index_search take_lazy g h0 f ix conds = (h0, map fresh (picked sel (docs_of ops) (stored (header (c_name c) per) (c_comp c) bs)), Ok tt)) /\
  (forall h0, wf h0 -> exists h1 l, index_search take_doc g h0 f ix conds = (h1, l, Ok tt) /\
     Forall2 (fun d d' => same_doc h d h1 d') (filter sel (docs_of ops)) l /\ wf h1 /\ untouched h0 h1).
Proof. exact build_search. Qed.
Print Assumptions C39_search.
(** An indexed property that is a list or a dict stops the building; such a condition stops the search. *)
Theorem C39_build_refuses : forall c per h ops f g, is_file c per h ops f -> undoes g c -> wf h -> only_documents ops -> (forall d, In d (docs_of ops) -> readable h d) ->
  forall names fuel, (length (docs_of ops) < fuel)%nat -> (exists d, In d (docs_of ops) /\ ~ indexable names d) -> index_build fuel g f names = Err TypeError.
Proof. exact build_refuses. Qed.
Print Assumptions C39_build_refuses.
Theorem C39_search_refuses : forall A (take : heap -> block -> block * hres A) g h f ix conds k v, In (k, v) conds -> container v -> index_search take g h f ix conds = (h, [], Err TypeError).
Proof. exact @search_unhashable. Qed.
Print Assumptions C39_search_refuses.
(** DocumentIndex: the results of its files one after the other. *)
Theorem C39_files : forall g conds fs ls h, Forall2 (fun p l => index_search take_lazy g h (fst p) (snd p) conds = (h, l, Ok tt)) fs ls ->
  search_all take_lazy g h fs conds = (h, List.concat ls, Ok tt).
Proof. exact search_files. Qed.
Print Assumptions C39_files.

(** four documents in blocks of two: x is 1, 1.0, True, 2; y is only in the second and third *)
Definition pdoc_of (l : dict mobj) : doc := mkDoc (MMap l) [] [].
Definition one_float : mobj := MFloat 4607182418800017408.
Definition with_props : list doc := map pdoc_of [[(s "x", MInt 1)]; [(s "x", one_float); (s "y", MStr (s "a"))]; [(s "y", MStr (s "a")); (s "x", MBool true)]; [(s "x", MInt 2); (s "z", MArr [])]].
Definition prop_ops : list wop := map (fun d => WWrite (WDocument d false true)) with_props.
Definition prop_file : list N := match writer_open backwards 2 with Ok w => match writer_run empty_heap w prop_ops with (_, w1, _) => out_bytes (w_out w1) end | _ => [] end.
Definition prop_names : list pystr := [s "x"; s "y"].
Definition found_x (conds : dict mobj) : res (list (res mobj)) :=
  let* ix := index_build 5 back_registry prop_file prop_names in
  match index_search take_lazy back_registry empty_heap prop_file ix conds with
  | (_, l, Ok _) => Ok (map (fun m => snd (md_properties m [])) l)
  | (_, _, Err e) => Err e
  end.
Lemma pdoc_readable l : python_value (MMap l) -> readable empty_heap (pdoc_of l).
Proof.
  intros P. split; [|exists l; reflexivity]. split; try exact P; try exact wf_empty; try solve [constructor].
  - intros k l' I. contradiction.
  - intros k f t (l' & A & _). contradiction.
  - intros k l' n f v t [A _]. contradiction.
Qed.
Example C39_case : is_file backwards 2 empty_heap prop_ops prop_file /\ undoes back_registry backwards /\ wf empty_heap /\ only_documents prop_ops /\ (forall d, In d (docs_of prop_ops) -> readable empty_heap d) /\
  (forall d, In d (docs_of prop_ops) -> indexable prop_names d) /\ length (docs_of prop_ops) = 4%nat /\
  found_x [(s "x", MInt 1)] = Ok (map (fun d => Ok (d_props d)) (firstn 3 with_props)) /\
  found_x [(s "x", one_float); (s "y", MStr (s "a"))] = Ok (map (fun d => Ok (d_props d)) (firstn 2 (skipn 1 with_props))) /\
  found_x [(s "z", MNil)] = Ok [] /\ found_x [(s "y", MArr [])] = Err TypeError /\ index_build 5 back_registry prop_file [s "z"] = Err TypeError.
Proof.
  split; [unfold is_file, prop_file; eexists _, _, _; split; [vm_compute; reflexivity|split; vm_compute; reflexivity]|].
  split; [exact back_undoes|]. split; [exact wf_empty|].
  split; [intros x I; cbn in I; repeat (destruct I as [I|I]; [injection I as <-; eauto|]); contradiction|].
  split.
  { intros d I; cbn in I; repeat (destruct I as [<-|I]; [apply pdoc_readable; constructor; [repeat (constructor; [cbn; intuition discriminate|]); constructor|repeat constructor]|]). contradiction. }
  split.
  { intros d I k v props P N J C. cbn in I. destruct N as [<-|[<-|[]]]; repeat (destruct I as [<-|I]; [cbn in P; injection P as <-; cbn in J;
      repeat (destruct J as [J|J]; [try discriminate; injection J as <-; inversion C|]); contradiction|]); contradiction. }
  split; [reflexivity|]. repeat split; vm_compute; reflexivity.
Qed.
