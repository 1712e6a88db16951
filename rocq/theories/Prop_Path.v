(** Properties C65 and C66: the paths of an index of several files; the files of a directory. *)
From Verif Require Import PyBase Model_Text Model_Heap Model_Msgpack Model_Document Model_Codec Model_Lazy Model_Collection Model_Index Model_Tar Model_Path
  Spec_Layer Spec_Path Proof_Path Proof_Path2 Proof_Path3 Prop_Collection Prop_Index.
Local Open Scope nat_scope.

(** C65: os.path.abspath keeps the place a path leads to, and its result leads there from anywhere. *)
Theorem C65_abspath : forall cwd p at_, absolute cwd -> leads [] cwd at_ ->
  exists to, leads at_ p to /\ parts (abspath cwd p) = to /\ leads [] (abspath cwd p) to.
Proof. exact abspath_leads. Qed.
Print Assumptions C65_abspath.
(** os.path.normpath: the slashes kept, steps up (of relative paths only), then names, with single slashes between them; a dot if nothing is left. *)
Theorem C65_normal : forall p, exists k names, slashes_of p k /\ normal_names (negb (Nat.eqb k 0)) names /\
  normpath p = match k, names with O, [] => s "." | _, _ => repeat 47%N k ++ List.concat (match names with [] => [] | x :: r => x :: map (cons 47%N) r end) end.
Proof. exact normal_form. Qed.
Print Assumptions C65_normal.
(** os.path.relpath: a relative path that leads from the base directory to where the path led. *)
Theorem C65_relpath : forall cwd p base at_ dir to, absolute cwd -> leads [] cwd at_ -> p <> [] -> leads at_ base dir -> leads at_ p to ->
  exists q, relpath cwd p base = Ok q /\ leads dir q to /\ (forall r, q <> 47%N :: r).
Proof. exact relpath_leads. Qed.
Print Assumptions C65_relpath.
(** Two spellings of one file have one entry. *)
Theorem C65_spelling : forall cwd at_ p p' base to, absolute cwd -> leads [] cwd at_ -> p <> [] -> p' <> [] -> leads at_ p to -> leads at_ p' to ->
  relpath cwd p base = relpath cwd p' base.
Proof. exact relpath_same. Qed.
Print Assumptions C65_spelling.
(** In the base directory an index of different files finds what their indexes find, file after file. Missing: other working directories (C65_cwd_refuted). *)
Theorem C65_search_partial : forall cwd0 at_ base dir fl, absolute cwd0 -> leads [] cwd0 at_ -> leads at_ base dir ->
  (forall p ix, In (p, ix) fl -> p <> []) ->
  (forall i j p q ix jx to, nth_error fl i = Some (p, ix) -> nth_error fl j = Some (q, jx) -> leads at_ p to -> leads at_ q to -> i = j) ->
  exists m, multi_adds cwd0 (new_index cwd0 base) fl = Ok m /\
    forall A (take : heap -> block -> block * hres A) g fs cwd h conds, absolute cwd -> leads [] cwd dir ->
      multi_search take g fs cwd h (mi_index m) conds = multi_search take g fs cwd0 h fl conds.
Proof. exact multi_ok. Qed.
Print Assumptions C65_search_partial.
(** The search over files is the search of C39 in the bytes of each file. *)
Theorem C65_files : forall g fs cwd at_ h conds (fl : list (pystr * findex)) ls, absolute cwd -> leads [] cwd at_ ->
  Forall2 (fun e l => exists to b, leads at_ (fst e) to /\ fs to = Some b /\ index_search take_lazy g h b (snd e) conds = (h, l, Ok tt)) fl ls ->
  multi_search take_lazy g fs cwd h fl conds = (h, List.concat ls, Ok tt).
Proof. exact multi_files. Qed.
Print Assumptions C65_files.
(** A search without results opens no file: it does not matter whether the file is still there. *)
Theorem C65_no_hits : forall A (take : heap -> block -> block * hres A) g h f ix conds h', index_search take g h f ix conds = (h', [], Ok tt) ->
  forall fs cwd p h0, path_search take g fs cwd h0 p ix conds = (h0, [], Ok tt).
Proof. exact @none_opened. Qed.
Print Assumptions C65_no_hits.

(** /data holds a file with the four documents of C39 and a copy in a subdirectory; /else has another file of the same name *)
Definition disk : files := fun p =>
  if forallb (fun e => str_eqb (fst e) (snd e)) (combine p [s "data"; s "a.docria"]) && Nat.eqb (length p) 2 then Some prop_file
  else if forallb (fun e => str_eqb (fst e) (snd e)) (combine p [s "data"; s "sub"; s "b.docria"]) && Nat.eqb (length p) 3 then Some prop_file
  else if forallb (fun e => str_eqb (fst e) (snd e)) (combine p [s "else"; s "a.docria"]) && Nat.eqb (length p) 2 then Some []
  else None.
Definition disk_ix : findex := match file_index 5 back_registry disk (s "/home") (s "../data/a.docria") prop_names with Ok ix => ix | _ => mkFI [] [] end.
Definition two_files : list (pystr * findex) := [(s "../data//sub/../a.docria", disk_ix); (s "/data/./sub/b.docria", disk_ix)].
Definition disk_index : multi := match multi_adds (s "/home") (new_index (s "/home") (s "/data/sub/..")) two_files with Ok m => m | _ => mkMI [] [] end.
Definition count {A} (x : heap * list A * res unit) : nat * res unit := let '(_, l, r) := x in (length l, r).
Definition hits (cwd : pystr) (l : dict findex) := count (multi_search take_lazy back_registry disk cwd empty_heap l [(s "x", MInt 1)]).
Lemma leads_demo at_ p to : fold_left walk (split_slash p) (match p with 47%N :: _ => [] | _ => at_ end) = to -> leads at_ p to.
Proof.
  intros <-. destruct (isabs p) eqn:A.
  - destruct p as [|c p]; [discriminate|]. apply N.eqb_eq in A. change (c = 47%N) in A. subst c. eapply leads_abs; [reflexivity|apply split_is_pieces|reflexivity].
  - replace (match p with 47%N :: _ => [] | _ => at_ end) with at_.
    + eapply leads_rel; [|apply split_is_pieces|reflexivity]. intros q ->. discriminate A.
    + destruct p as [|c p]; [reflexivity|]. simpl in A. destruct c as [|c]; [reflexivity|]. do 6 (destruct c as [c|c|]; try reflexivity; try discriminate A).
Qed.
Ltac leads_tac := match goal with |- leads ?a ?p ?t => apply leads_demo; vm_compute; reflexivity end.
Example C65_case : absolute (s "/home") /\ leads [] (s "/home") [s "home"] /\ leads [s "home"] (s "/data/sub/..") [s "data"] /\
  leads [s "home"] (s "../data//sub/../a.docria") [s "data"; s "a.docria"] /\ leads [s "home"] (s "/data/./sub/b.docria") [s "data"; s "sub"; s "b.docria"] /\
  dkeys (mi_index disk_index) = [s "a.docria"; s "sub/b.docria"] /\ mi_base disk_index = s "/data" /\
  hits (s "/home") two_files = (6, Ok tt) /\ hits (s "/data") (mi_index disk_index) = (6, Ok tt) /\ hits (s "/data/sub/..") (mi_index disk_index) = (6, Ok tt) /\
  relpath (s "/home/x") (s "../../data/a") (s "/data/b/c") = Ok (s "../../a") /\ relpath (s "/") (s "/data/b") (s "data/b/") = Ok (s ".") /\ relpath (s "/") [] (s "/") = Err ValueError /\
  abspath (s "/home") (s "a/../../b") = s "/b" /\ abspath (s "/home") (s "//a//b/") = s "//a/b" /\ normpath (s "a/../../b") = s "../b" /\ normpath (s "a/..") = s ".".
Proof. split; [eexists; reflexivity|]. repeat (split; [first [leads_tac|vm_compute; reflexivity]|]). vm_compute; reflexivity. Qed.
Example C65_normal_case : slashes_of (s "//a//b/") 2 /\ normpath (s "//a//b/") = s "//a/b" /\ slashes_of (s "///a") 1 /\ normpath (s "///../a") = s "/a" /\
  slashes_of (s "x/../../y") 0 /\ normpath (s "x/../../y/./z") = s "../y/z" /\ normal_names false [s ".."; s "y"; s "z"] /\ normpath [] = s ".".
Proof.
  assert (A : forall p, slashes_of p (initial_slashes p)) by exact slashes_kept.
  split; [exact (A (s "//a//b/"))|]. split; [reflexivity|]. split; [exact (A (s "///a"))|]. split; [reflexivity|]. split; [exact (A (s "x/../../y"))|]. split; [reflexivity|]. split; [|reflexivity].
  exists [s ".."], [s "y"; s "z"]. split; [reflexivity|]. split; [repeat constructor|]. split; [|discriminate].
  repeat constructor; try discriminate; vm_compute; intros [H|[]]; discriminate.
Qed.
Example C65_no_hits_case : index_search take_lazy back_registry empty_heap prop_file disk_ix [(s "x", MInt 5)] = (empty_heap, [], Ok tt) /\ disk [s "gone"] = None.
Proof. split; vm_compute; reflexivity. Qed.

(** The code opens the relative path in whatever directory the program is: the index that finds six documents in /data fails in /home, where it was
    built, and takes another file's bytes in /else. *)
Theorem C65_cwd_refuted : exists cwd fl m, absolute cwd /\ multi_adds cwd (new_index cwd (s "/data")) fl = Ok m /\
  hits cwd fl = (6, Ok tt) /\ hits cwd (mi_index m) = (0, Err IOError) /\ hits (s "/data") (mi_index m) = (6, Ok tt) /\
  open_file disk (s "/else") (s "a.docria") = Ok [] /\ hits (s "/else") (mi_index m) <> (6, Ok tt).
Proof.
  exists (s "/home"), two_files, disk_index. split; [eexists; reflexivity|]. split; [vm_compute; reflexivity|]. do 4 (split; [vm_compute; reflexivity|]). vm_compute. discriminate.
Qed.
Print Assumptions C65_cwd_refuted.

(** C66: the filter takes the names with a stem without dots, .docria and at most one ending. *)
Theorem C66_filter : forall x, name_filter x = true <-> docria_name x.
Proof. exact filter_ok. Qed.
Print Assumptions C66_filter.
(** The index of a directory has exactly the files with such names, and in the base directory it finds what their own indexes find. *)
Theorem C66_directory_partial : forall fuel g fs cwd0 at_ path dir0 names props base dir m, absolute cwd0 -> leads [] cwd0 at_ -> leads at_ base dir -> leads at_ path dir0 ->
  NoDup names -> (forall n, In n names -> ~ In 47%N n) -> directory_index fuel g fs cwd0 path names props base = Ok m ->
  exists docs ixs, Forall2 (fun n ix => exists b, fs (dir0 ++ [n]) = Some b /\ index_build fuel g b props = Ok ix) docs ixs /\
    (forall n, In n docs <-> In n names /\ docria_name n) /\ NoDup docs /\
    forall A (take : heap -> block -> block * hres A) cwd h conds, absolute cwd -> leads [] cwd dir ->
      multi_search take g fs cwd h (mi_index m) conds = multi_search take g fs cwd0 h (combine (map (path_join path) docs) ixs) conds.
Proof. exact directory_ok. Qed.
Print Assumptions C66_directory_partial.

Definition listing : list pystr := [s "a.docria"; s "notes.txt"; s "a.b.docria"; s ".docria"; s "a.docria.gz"; s "docria"].
Example C66_case : NoDup listing /\ (forall n, In n listing -> ~ In 47%N n) /\ leads [s "home"] (s "../data") [s "data"] /\
  (exists m, directory_index 5 back_registry disk (s "/home") (s "../data") listing prop_names (s "/data") = Ok m /\ dkeys (mi_index m) = [s "a.docria"] /\ hits (s "/data") (mi_index m) = (3, Ok tt)) /\
  docria_files (s "d/") (listing ++ [s "b.docria.xz"; s "c.docria.lz4"]) = [s "d/a.docria"; s "d/b.docria.xz"; s "d/c.docria.lz4"].
Proof.
  split; [repeat (constructor; [cbn; intuition discriminate|]); constructor|]. split; [intros n I J; cbn in I; repeat (destruct I as [<-|I]; [cbn in J; intuition discriminate|]); contradiction|].
  split; [leads_tac|]. split; [eexists; split; [vm_compute; reflexivity|split; vm_compute; reflexivity]|vm_compute; reflexivity].
Qed.
(** A compressed file passes the filter, but nothing decompresses it: its first bytes (here those of xz) stop the building of the whole index. *)
Theorem C66_compressed_refuted : exists fs names, Forall docria_name names /\ (forall n, In n names -> exists b, fs [s "data"; n] = Some b) /\
  (exists ix, file_index 5 back_registry fs (s "/") (s "data/a.docria") prop_names = Ok ix) /\
  directory_index 5 back_registry fs (s "/") (s "data") names prop_names (s "data") = Err IOError.
Proof.
  exists (fun p => match p with [d; n] => if str_eqb n (s "a.docria") then Some prop_file else Some [253; 55; 122; 88; 90; 0; 0; 4]%N | _ => None end), [s "a.docria"; s "b.docria.xz"].
  split; [repeat (constructor; [apply filter_ok; vm_compute; reflexivity|]); constructor|]. split; [intros n I; cbn in I; destruct I as [<-|[<-|[]]]; eexists; vm_compute; reflexivity|].
  split; [eexists; vm_compute; reflexivity|vm_compute; reflexivity].
Qed.
Print Assumptions C66_compressed_refuted.
