(** C84: indexes of document files of any origin. *)
From Coq Require Import QArith.
From Verif Require Import PyBase Model_Heap Model_Msgpack Model_Document Model_Codec Model_Lazy Model_Collection Model_Index
  Spec_Collection Spec_Index Spec_AnyFile Spec_AnyIndex Proof_AnyIndex Prop_Collection Prop_AnyFile Spec_Layer.
Local Open Scope Z_scope.

(** The outcome of the building is determined by the documents of the file and the names. *)
Theorem C84_one_outcome names ds e : (forall d, In d ds -> exists q, props_in (snd d) q) -> exists q, builds names ds e q /\ forall q', builds names ds e q' -> q = q'.
Proof. intros H. destruct (builds_total names ds e H) as [q B]. exists q. split; [exact B|]. exact (builds_one names ds e q B). Qed.
Print Assumptions C84_one_outcome.
(** Building ends as described, and a search yields exactly the documents whose properties satisfy the conditions, in file order;
    a file that can no longer be opened is noticed when there is something to read. *)
Theorem C84_build_search g f r p body l e0 ds e names q fuel : reader_open g f = Ok r -> opened g f (r_codec r) p body -> blocks_of (r_codec r) p body l e0 -> docs_in l e0 ds e ->
  builds names ds e q -> (length ds < fuel)%nat ->
  match q with
  | Err x => index_build fuel g f names = Err x
  | Ok os => exists ix, index_build fuel g f names = Ok ix /\ forall conds, (forall k v, In (k, v) conds -> ~ container v) ->
      exists sel, (forall o, sel o = true <-> satisfies names conds o) /\
      (forall h, index_search take_lazy g h f ix conds = (h, map fresh (chosen sel os ds), Ok tt)) /\
      (forall h, index_search take_doc g h f ix conds = decode_each h (map snd (chosen sel os ds))) /\
      (forall A (take : heap -> block -> block * hres A) h f' x, reader_open g f' = Err x -> chosen sel os ds <> [] ->
         index_search take g h f' ix conds = (h, [], Err (match x with StopIteration => RuntimeError | x => x end)))
  end.
Proof. exact (index_any g f r p body l e0 ds e names q fuel). Qed.
Print Assumptions C84_build_search.
Theorem C84_unopened g f names fuel x : reader_open g f = Err x -> index_build fuel g f names = Err x.
Proof. exact (index_unopened g f names fuel x). Qed.
Print Assumptions C84_unopened.
(** An index made by hand whose numbers have no reference. *)
Theorem C84_number_missing : forall A (take : heap -> block -> block * hres A) g h f r k v i refs, reader_open g f = Ok r -> py_equal v v -> (length refs <= i)%nat ->
  index_search take g h f (mkFI [(k, [(v, [i])])] refs) [(k, v)] = (h, [], Err IndexError).
Proof. exact @number_missing. Qed.
Print Assumptions C84_number_missing.
(** The files of a DocumentIndex are searched one after the other, up to the first exception. *)
Theorem C84_several : forall A (take : heap -> block -> block * hres A) g conds fs gs h,
  search_all take g h (fs ++ gs) conds =
  match search_all take g h fs conds with
  | (h1, l, Err e) => (h1, l, Err e)
  | (h1, l, Ok _) => let '(h2, l', e) := search_all take g h1 gs conds in (h2, l ++ l', e)
  end.
Proof. exact @search_all_app. Qed.
Print Assumptions C84_several.
Theorem C84_single : forall A (take : heap -> block -> block * hres A) g conds f ix h, search_all take g h [(f, ix)] conds = index_search take g h f ix conds.
Proof. exact @search_all_one. Qed.
Print Assumptions C84_single.

(** documents of properties only, cut behind them: {x: 1}, [x2], {x: 1, y: []}, and a block with a number in the end *)
Definition small (o : mobj) : list N := packed (s "DM_1" ++ [0%N] ++ match pack o with Ok b => b | Err _ => [] end).
Definition small_file (bs : list (list N)) : list N := s "Dmf1" ++ [164%N] ++ s "none" ++ [7; 194]%N ++ List.concat (map packed bs).
Definition x1 : mobj := MMap [(s "x", MInt 1)].
Definition mixed_file : list N := small_file [small x1 ++ small (MArr [MStr (s "x2")]); small (MMap [(s "x", MInt 1); (s "y", MArr [])])].
Definition refs_found (f : list N) (names : list pystr) (conds : dict mobj) : res (list (option (Z * Z))) :=
  let* ix := index_build 5 back_registry f names in
  match index_search take_lazy back_registry empty_heap f ix conds with (_, l, Ok _) => Ok (map md_ref l) | (_, _, Err e) => Err e end.
Example C84_case :
  refs_found mixed_file [s "x"] [(s "x", MBool true)] = Ok [Some (11, 0); Some (35, 0)] /\
  refs_found mixed_file [s "x2"] [] = Err TypeError /\ refs_found mixed_file [s "y"; s "x"] [] = Err TypeError /\ refs_found mixed_file [] [(s "x", MInt 1)] = Ok [] /\
  refs_found (small_file [small (MStr (s "axb"))]) [s "xb"] [] = Err TypeError /\ refs_found (small_file [small (MStr (s "axb"))]) [s "xa"] [(s "xa", MNil)] = Ok [] /\
  refs_found (small_file [small MNil]) [s "x"] [] = Err TypeError /\ refs_found (small_file [small x1 ++ [7%N]]) [s "x"] [] = Err ValueError /\
  refs_found (small_file [small x1; packed (s "DM_1")]) [s "x"] [] = Err StopIteration /\
  match index_build 5 back_registry mixed_file [s "x"] with
  | Ok ix => index_search take_doc back_registry empty_heap mixed_file ix [(s "x", MInt 1)] = (empty_heap, [], Err IOError) /\
             index_search take_doc back_registry empty_heap (s "Dmf1") ix [(s "x", MInt 1)] = (empty_heap, [], Err RuntimeError)
  | Err _ => False
  end.
Proof. vm_compute. repeat split. Qed.
(** the hypotheses hold of the first of these files *)
Definition bytes_of (o : mobj) : list N := match pack o with Ok b => b | Err _ => [] end.
Definition data_of (o : mobj) : list N := s "DM_1" ++ [0%N] ++ bytes_of o.
Definition xy : mobj := MMap [(s "x", MInt 1); (s "y", MArr [])].
Definition x2 : mobj := MArr [MStr (s "x2")].
Definition none_codec : codec := mkCodec (s "none") (fun x => x) (fun x => Ok x).
Definition mixed_docs : list ((Z * Z) * list N) := [((11, 0), data_of x1); ((11, 11), data_of x2); ((35, 0), data_of xy)].
Example C84_hypotheses : opened back_registry mixed_file (c_decomp none_codec) 11 (skipn 11 mixed_file) /\
  blocks_of (c_decomp none_codec) 11 (skipn 11 mixed_file) [(11, small x1 ++ small x2); (35, small xy)] Finished /\
  docs_in [(11, small x1 ++ small x2); (35, small xy)] Finished mixed_docs Finished /\ builds [s "x"] mixed_docs Finished (Ok [x1; x2; xy]).
Proof.
  split; [exists (s "none"), none_codec, (MInt 7), (MBool false), (skipn 4 mixed_file), (skipn 9 mixed_file), (skipn 10 mixed_file); repeat split|].
  split.
  { apply (bo_block _ 11 _ (small x1 ++ small x2) (skipn 35 mixed_file) (small x1 ++ small x2)); [vm_compute; reflexivity|reflexivity|].
    apply (bo_block _ 35 _ (small xy) [] (small xy)); [vm_compute; reflexivity|reflexivity|]. apply bo_over. left. reflexivity. }
  split.
  { apply (di_block 11 (small x1 ++ small x2) [(35, small xy)] Finished [((11, 0), data_of x1); ((11, 11), data_of x2)] [((35, 0), data_of xy)] Finished).
    - apply (ib_doc 11 0 _ (data_of x1) (small x2)); [vm_compute; reflexivity|reflexivity|]. apply (ib_doc 11 11 _ (data_of x2) []); [vm_compute; reflexivity|reflexivity|]. apply ib_over. left. reflexivity.
    - apply (di_block 35 (small xy) [] Finished [((35, 0), data_of xy)] [] Finished); [|constructor]. apply (ib_doc 35 0 _ (data_of xy) []); [vm_compute; reflexivity|reflexivity|]. apply ib_over. left. reflexivity. }
  assert (Nr : forall d v, dget d (s "x") = Some v -> ~ container v -> ~ refused [s "x"] (MMap d)).
  { intros d v V C R. inversion R as [d' k v' I V' C' X| | |o k I N1 N2 N3]; subst; [|destruct (N1 d); reflexivity]. destruct I as [<-|[]]. assert (v' = v) by congruence. subst v'. contradiction. }
  apply (bl_doc _ ((11, 0), data_of x1) _ _ x1); [apply (pi_props _ 0 (bytes_of x1) _ []); vm_compute; reflexivity|apply (Nr _ (MInt 1)); [reflexivity|intros C; inversion C]|].
  apply (bl_doc _ ((11, 11), data_of x2) _ _ x2); [apply (pi_props _ 0 (bytes_of x2) _ []); vm_compute; reflexivity| |].
  { intros R. inversion R as [|l k I J X| |o k I N1 N2 N3]; subst; [|destruct (N2 [MStr (s "x2")]); reflexivity]. destruct I as [<-|[]]. destruct J as [J|[]]. discriminate. }
  apply (bl_doc _ ((35, 0), data_of xy) _ _ xy); [apply (pi_props _ 0 (bytes_of xy) _ []); vm_compute; reflexivity|apply (Nr _ (MInt 1)); [reflexivity|intros C; inversion C]|]. apply bl_end.
Qed.
Example C84_number_case : py_equal (MInt 1) (MInt 1).
Proof. apply (pe_num _ _ 1%Q 1%Q); try apply num_int. reflexivity. Qed.
