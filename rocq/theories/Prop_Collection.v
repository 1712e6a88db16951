(** Properties C32 to C34: document files. *)
From Verif Require Import PyBase Model_Text Model_Heap Model_Layer Model_Types Model_Msgpack Model_Document Model_Codec Model_Lazy Model_Collection
  Spec_Layer Spec_History Spec_Msgpack Spec_Codec Spec_Lazy Spec_Collection Proof_Codec6 Proof_Lazy2 Proof_Collection Proof_Collection2 Prop_Document Prop_Codec.
Local Open Scope Z_scope.

(** C32: iterating over a written file gives the written documents in order, for every block size, every pattern of
    flushes and every codec that can be undone. *)
Theorem C32_round_trip : forall c per h ops f g, is_file c per h ops f -> all_proper ops -> undoes g c ->
  exists r, reader_open g f = Ok r /\ forall fuel, (length (written h ops) < fuel)%nat ->
  exists r1 ms, reader_iter fuel r = (r1, Ok ms) /\ map md_raw ms = written_data h ops /\
    Forall (fun m => md_prop m = None /\ md_schema m = None /\ md_texts m = None /\ md_layers m = None /\ exists ref, md_ref m = Some ref) ms.
Proof. exact iterate. Qed.
Print Assumptions C32_round_trip.
(** DocumentReader gives documents equal to those written. *)
Theorem C32_documents : forall c per h ops f g h0, is_file c per h ops f -> undoes g c -> wf h -> wf h0 -> only_documents ops -> (forall d, In d (docs_of ops) -> readable h d) ->
  exists r, reader_open g f = Ok r /\ forall fuel, (length (docs_of ops) < fuel)%nat ->
  exists h1 r1 l, docreader_iter fuel h0 r = (h1, r1, Ok l) /\ Forall2 (fun d d' => same_doc h d h1 d') (docs_of ops) l /\ wf h1 /\ untouched h0 h1.
Proof. exact document_reader. Qed.
Print Assumptions C32_documents.
(** The file: header, then blocks; each run of writes between flushes is cut into full blocks and a rest. *)
Theorem C32_layout : forall c per h ops f, is_file c per h ops f -> all_proper ops ->
  exists bss, Forall2 (cut_in per) (runs h ops) bss /\ f = header (c_name c) per ++ blocks_bytes (c_comp c) (List.concat bss) /\
    List.concat (List.concat bss) = written_data h ops /\ storable (c_comp c) (List.concat bss) /\ str_fits (c_name c) /\ - 9223372036854775808 <= per < 18446744073709551616.
Proof. exact file_layout. Qed.
Print Assumptions C32_layout.
(** Writing succeeds when the documents can be encoded and documents and compressed blocks stay below 2^32 bytes. *)
Theorem C32_writes : forall c per h ops, str_fits (c_name c) -> - 9223372036854775808 <= per < 18446744073709551616 -> all_encoded h ops ->
  Forall small (written_data h ops) -> (forall pre ds post, written_data h ops = pre ++ ds ++ post -> small (c_comp c (block_bytes ds))) ->
  exists f, is_file c per h ops f.
Proof. exact file_total. Qed.
Print Assumptions C32_writes.

(** Files that are not ours are refused: another header, a codec that is not registered, the flag for a later format. *)
Theorem C32_refuses_header : forall g f, firstn 4 f <> dmf1 -> reader_open g f = Err IOError.
Proof. exact refuse_header. Qed.
Print Assumptions C32_refuses_header.
Theorem C32_refuses_codec : forall g name a rest, pack (MStr name) = Ok a -> ~ In name (dkeys g) -> reader_open g (dmf1 ++ a ++ rest) = Err NotImplementedError.
Proof. exact refuse_codec. Qed.
Print Assumptions C32_refuses_codec.
Theorem C32_refuses_advanced : forall g name c per a b o q rest, pack (MStr name) = Ok a -> dget g name = Some c -> pack (MInt per) = Ok b ->
  python_value o -> pack o = Ok q -> truth o = true -> reader_open g (dmf1 ++ a ++ b ++ q ++ rest) = Err NotImplementedError.
Proof. exact refuse_advanced. Qed.
Print Assumptions C32_refuses_advanced.

(** five documents, blocks of two, a flush in the middle, a codec that reverses *)
Definition backwards : codec := mkCodec (s "back") (@rev N) (fun x => Ok (rev x)).
Definition back_registry : registry := [(s "none", mkCodec (s "none") (fun x => x) (fun x => Ok x)); (s "back", backwards)].
Definition raw_doc (i : N) : mdoc := mkMD (magic ++ [i]) None None None None None.
Definition five : list wop := [WWrite (WMsgpack (raw_doc 1)); WWrite (WMsgpack (raw_doc 2)); WWrite (WMsgpack (raw_doc 3)); WFlush; WFlush; WWrite (WMsgpack (raw_doc 4)); WWrite (WMsgpack (raw_doc 5))].
Definition five_file : list N := match writer_open backwards 2 with Ok w => match writer_run empty_heap w five with (_, w1, _) => out_bytes (w_out w1) end | _ => [] end.
Example C32_refuses_case : reader_open back_registry (s "Dmf2" ++ skipn 4 five_file) = Err IOError /\
  reader_open [] five_file = Err NotImplementedError /\
  firstn 11 five_file = dmf1 ++ [164%N] ++ s "back" ++ [2%N] ++ [194%N] /\
  reader_open back_registry (firstn 10 five_file ++ [195%N] ++ skipn 11 five_file) = Err NotImplementedError.
Proof. vm_compute. repeat split. Qed.
Lemma five_is_file : is_file backwards 2 empty_heap five five_file.
Proof.
  unfold is_file, five_file. eexists _, _, _. split; [vm_compute; reflexivity|]. split; [vm_compute; reflexivity|]. vm_compute. reflexivity.
Qed.
Lemma five_proper : all_proper five.
Proof. intros x I. simpl in I. repeat (destruct I as [I|I]; [injection I as <- || discriminate; try reflexivity|]). contradiction. Qed.
Lemma back_undoes : undoes back_registry backwards.
Proof. exists backwards. split; [reflexivity|]. intros x. cbn. rewrite rev_involutive. reflexivity. Qed.
Example C32_case : is_file backwards 2 empty_heap five five_file /\ all_proper five /\ undoes back_registry backwards /\
  match reader_open back_registry five_file with
  | Ok r => rmap (map (fun m => (md_raw m, md_ref m))) (snd (reader_iter 6 r)) =
      Ok [(magic ++ [1%N], Some (11, 0)); (magic ++ [2%N], Some (11, 7)); (magic ++ [3%N], Some (27, 0)); (magic ++ [4%N], Some (36, 0)); (magic ++ [5%N], Some (36, 7))]
  | Err _ => False
  end.
Proof. split; [exact five_is_file|]. split; [exact five_proper|]. split; [exact back_undoes|]. vm_compute. reflexivity. Qed.
Definition twice : list wop := [WWrite (WDocument sample_doc false true); WFlush; WWrite (WDocument sample_doc true false)].
Example C32_case_documents : wf doc_heap /\ only_documents twice /\ (forall d, In d (docs_of twice) -> readable doc_heap d) /\ length (docs_of twice) = 2%nat /\
  exists f, is_file backwards 128 doc_heap twice f /\ (length f > 20)%nat.
Proof.
  split; [exact (do_wf _ _ (dv_ok _ _ sample_valid))|].
  split; [intros x I; simpl in I; repeat (destruct I as [I|I]; [injection I as <- || discriminate; eauto|]); contradiction|].
  split; [intros d I; simpl in I; repeat (destruct I as [<-|I]; [split; [exact (dv_ok _ _ sample_valid)|eexists; reflexivity]|]); contradiction|].
  split; [reflexivity|].
  destruct (writer_open backwards 128) as [w|] eqn:Ew; [|vm_compute in Ew; discriminate].
  destruct (writer_run doc_heap w twice) as [[h1 w1] r] eqn:Er.
  assert (Q : r = Ok tt /\ Nat.ltb 20 (length (out_bytes (w_out w1))) = true).
  { replace r with (snd (writer_run doc_heap w twice)) by (rewrite Er; reflexivity). replace w1 with (snd (fst (writer_run doc_heap w twice))) by (rewrite Er; reflexivity).
    vm_compute in Ew. injection Ew as <-. vm_compute. split; reflexivity. }
  destruct Q as [-> Q]. exists (out_bytes (w_out w1)). split; [exists w, h1, w1; auto|]. apply Nat.ltb_lt in Q. lia.
Qed.

(** C33: any sequence of next, get with the reference of a document, and seek to the start of a block, answers as a
    cursor over the list of stored documents does: next hands out the document at the cursor with its reference; get
    hands out the document of that reference and moves the cursor behind it. *)
Theorem C33_access : forall c per h ops f g, is_file c per h ops f -> all_proper ops -> undoes g c ->
  exists bs r, List.concat bs = written_data h ops /\ reader_open g f = Ok r /\
  let docs := stored (header (c_name c) per) (c_comp c) bs in
  map snd docs = written_data h ops /\
  forall cs, Forall (inside docs bs) cs -> rcalls r (map (concrete docs (block_at (header (c_name c) per) (c_comp c) bs)) cs) = sanswers docs bs 0 cs.
Proof. exact access. Qed.
Print Assumptions C33_access.
Example C33_case : match reader_open back_registry five_file with
  | Ok r => rcalls r [RNext; RGet (36, 0); RNext; RNext; RGet (11, 7); RNext; RSeek 11; RNext] =
      map (fun p => ADoc (Ok (Some (fresh p)))) [((11, 0), magic ++ [1%N]); ((36, 0), magic ++ [4%N]); ((36, 7), magic ++ [5%N])] ++ [ADoc (Ok None)] ++
      map (fun p => ADoc (Ok (Some (fresh p)))) [((11, 7), magic ++ [2%N]); ((27, 0), magic ++ [3%N])] ++ [ADone (Ok tt); ADoc (Ok (Some (fresh ((11, 0), magic ++ [1%N]))))]
  | Err _ => False
  end.
Proof. vm_compute. reflexivity. Qed.
(** The same of every file of that format, whoever wrote it: blocks may be empty and of any size. *)
Theorem C33_any : forall c per bs g, str_fits (c_name c) -> - 9223372036854775808 <= per < 18446744073709551616 -> acceptable (c_comp c) bs -> undoes g c ->
  let docs := stored (header (c_name c) per) (c_comp c) bs in
  exists r, reader_open g (header (c_name c) per ++ blocks_bytes (c_comp c) bs) = Ok r /\ map snd docs = List.concat bs /\
    (forall fuel, (length docs < fuel)%nat -> exists r1, reader_iter fuel r = (r1, Ok (map fresh docs))) /\
    (forall cs, Forall (inside docs bs) cs -> rcalls r (map (concrete docs (block_at (header (c_name c) per) (c_comp c) bs)) cs) = sanswers docs bs 0 cs).
Proof. exact any_file. Qed.
Print Assumptions C33_any.
Definition gappy : list (list (list N)) := [[]; [magic ++ [1%N]]; []; []; [magic ++ [2%N]; magic ++ [3%N]]; []].
Lemma gappy_ok : str_fits (c_name backwards) /\ acceptable (c_comp backwards) gappy.
Proof.
  split; [split; [repeat constructor; unfold scalar; lia|vm_compute; reflexivity]|].
  repeat constructor; vm_compute; reflexivity.
Qed.
Example C33_any_case : str_fits (c_name backwards) /\ acceptable (c_comp backwards) gappy /\ undoes back_registry backwards /\
  match reader_open back_registry (header (s "back") 2 ++ blocks_bytes (@rev N) gappy) with
  | Ok r => rmap (map md_raw) (snd (reader_iter 6 r)) = Ok (List.concat gappy)
  | Err _ => False
  end.
Proof. split; [exact (proj1 gappy_ok)|]. split; [exact (proj2 gappy_ok)|]. split; [exact back_undoes|]. vm_compute. reflexivity. Qed.
(** With readblock (or blocks) in between, next hands out a document with the reference of another one. *)
Definition four : list wop := map (fun i => WWrite (WMsgpack (raw_doc i))) [1; 2; 3; 4]%N.
Definition four_file : list N := match writer_open backwards 2 with Ok w => match writer_run empty_heap w four with (_, w1, _) => out_bytes (w_out w1) end | _ => [] end.
Theorem C33_readblock_refuted : exists c per ops f g r, is_file c per empty_heap ops f /\ all_proper ops /\ undoes g c /\ reader_open g f = Ok r /\
  exists b d ref d', rcalls r [RNext; RBlock; RNext; RGet ref] = [ADoc (Ok (Some (fresh ((11, 0), magic ++ [1%N])))); ABlock (Ok (Some b)); ADoc (Ok (Some d)); ADoc (Ok (Some d'))] /\
    md_ref d = Some ref /\ md_raw d <> md_raw d'.
Proof.
  exists backwards, 2, four, four_file, back_registry. destruct (reader_open back_registry four_file) as [r|] eqn:E; [|vm_compute in E; discriminate]. exists r.
  split; [unfold is_file, four_file; eexists _, _, _; split; [vm_compute; reflexivity|split; vm_compute; reflexivity]|].
  split; [intros x I; simpl in I; repeat (destruct I as [I|I]; [injection I as <-; reflexivity|]); contradiction|].
  split; [exact back_undoes|]. split; [reflexivity|]. vm_compute in E. injection E as <-.
  eexists _, _, (27, 7), _. split; [vm_compute; reflexivity|]. split; [reflexivity|discriminate].
Qed.
Print Assumptions C33_readblock_refuted.

(** C34: of a file cut anywhere after its header, exactly the documents of the complete blocks are read, with the same references. *)
Theorem C34_truncated : forall c per h ops f g, is_file c per h ops f -> all_proper ops -> undoes g c ->
  exists bs, List.concat bs = written_data h ops /\ f = header (c_name c) per ++ blocks_bytes (c_comp c) bs /\
  forall n, (length (header (c_name c) per) <= n)%nat ->
  exists r m r1 fuel, reader_open g (firstn n f) = Ok r /\ complete (block_at (header (c_name c) per) (c_comp c) bs) bs (Z.of_nat n) m /\
    reader_iter fuel r = (r1, Ok (map fresh (firstn (first_of bs m) (stored (header (c_name c) per) (c_comp c) bs)))).
Proof. exact truncated. Qed.
Print Assumptions C34_truncated.
Example C34_case : map (fun n => match reader_open back_registry (firstn n five_file) with
    | Ok r => match snd (reader_iter 6 r) with Ok l => Ok (length l) | Err e => Err e end | Err e => Err e end) [3; 7; 10; 11; 26; 27; 35; 36; 51; 52]%nat =
  [Err IOError; Err StopIteration; Err StopIteration; Ok 0; Ok 0; Ok 2; Ok 2; Ok 3; Ok 3; Ok 5]%nat.
Proof. vm_compute. reflexivity. Qed.
