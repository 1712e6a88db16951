(** Properties C89 and C90: document files and the Java port. *)
From Verif Require Import PyBase Model_Text Model_Heap Model_Layer Model_Types Model_Msgpack Model_Document Model_Codec Model_Lazy Model_Collection Model_Boundary Model_JBoundary Model_JStream
  Spec_Layer Spec_Msgpack Spec_Codec Spec_Collection Spec_Boundary Spec_JBoundary Spec_JStream Proof_Collection2 Proof_JStream Proof_JStream2 Prop_Document Prop_Codec Prop_Collection.
Local Open Scope Z_scope.

(** C89: the Java writer and the Python writer, given the same byte arrays and flushes, produce the same file, or fail
    alike, if at least one document is written. *)
Theorem C89_same_bytes : forall ahead c per h ops w h1 w1 r, 1 <= per -> writer_open c per = Ok w -> writer_run h w (map py_op ops) = (h1, w1, r) ->
  exists j j1, dw_open ahead (c_name c) (c_comp c) per = Ok j /\ dw_run j ops = (j1, r) /\
  (r = Ok tt -> writes ops = true -> out_bytes (dw_out j1) = out_bytes (w_out w1)).
Proof.
  intros ahead c per h ops w h1 w1 r P O R. destruct (same_bytes ahead c per h ops w h1 w1 r P O R) as (j & j1 & A & B & C & _). exists j, j1. split; [exact A|]. split; [exact B|].
  intros E T. rewrite (C E), T. reflexivity.
Qed.
Print Assumptions C89_same_bytes.
(** What the Java writer has written is a document file in the sense of C32 to C34. *)
Theorem C89_is_file : forall ahead name comp dec per h ops j j1, dw_open ahead name comp per = Ok j -> dw_run j ops = (j1, Ok tt) -> writes ops = true ->
  is_file (mkCodec name comp dec) per h (map py_op ops) (out_bytes (dw_out j1)).
Proof. intros ahead name comp dec per h ops j j1 O R. exact (proj1 (proj2 (proj2 (proj2 (java_file ahead name comp dec per h ops j j1 O R))))). Qed.
Print Assumptions C89_is_file.
(** Without a document the header stays behind: the file is a piece of the header that no reader accepts. *)
Theorem C89_empty : forall ahead name comp per ops j j1, dw_open ahead name comp per = Ok j -> dw_run j ops = (j1, Ok tt) -> writes ops = false ->
  (ahead < length (header name per))%nat ->
  out_bytes (dw_out j1) = firstn ahead (header name per) /\ (forall g, exists e, reader_open g (out_bytes (dw_out j1)) = Err e) /\
  (forall inflate, java_codec inflate name comp -> per < 2147483648 -> exists e, sr_open inflate None (out_bytes (dw_out j1)) = Err e).
Proof.
  intros ahead name comp per ops j j1 O R T L. destruct (java_file ahead name comp (fun x => Ok x) per empty_heap ops j j1 O R) as (P & F & B & _ & Q & _).
  rewrite (Q T). split; [reflexivity|]. split; [intros g; apply header_cut; auto; lia|]. intros inflate J K. apply (java_header_cut _ _ comp); auto. lia.
Qed.
Print Assumptions C89_empty.
(** Where the Java writer splits: at the start of every block but the first, for which the split comes before what is
    left of the header (the Python writer splits there as well as after the header and the last block, see C36_blocks). *)
Theorem C89_splits : forall ahead name comp per ops j j1, dw_open ahead name comp per = Ok j -> dw_run j ops = (j1, Ok tt) -> writes ops = true ->
  exists bs, bs <> [] /\ List.concat bs = List.concat (map (fun o => match o with Some d => [d] | None => [] end) ops) /\
    out_bytes (dw_out j1) = header name per ++ blocks_bytes comp bs /\
    split_counts 0 (dw_out j1) = zlen (firstn ahead (header name per)) :: map (block_at (header name per) comp bs) (seq 1 (length bs - 1)).
Proof. exact (java_splits empty_heap). Qed.
Print Assumptions C89_splits.

(** three documents, blocks of two, through the codec that reverses twice; then nothing but flushes *)
Definition jrev (x : list N) : res (list N) := Ok (rev x).
Definition java_ops : list (option (list N)) := [Some (magic ++ [1%N]); None; Some (magic ++ [2%N]); Some (magic ++ [3%N]); Some (magic ++ [4%N])].
Definition java_out (ahead : nat) (ops : list (option (list N))) : list oev :=
  match dw_open ahead (s "zip") (@rev N) 2 with Ok j => dw_out (fst (dw_run j ops)) | Err _ => [] end.
Definition py_out (ops : list (option (list N))) : list oev :=
  match writer_open (mkCodec (s "zip") (@rev N) jrev) 2 with Ok w => w_out (snd (fst (writer_run empty_heap w (map py_op ops)))) | Err _ => [] end.
Example C89_case : writes java_ops = true /\ out_bytes (java_out 4 java_ops) = out_bytes (py_out java_ops) /\ zlen (out_bytes (py_out java_ops)) = 44 /\
  split_counts 0 (java_out 4 java_ops) = [4; 19; 35] /\ split_counts 0 (py_out java_ops) = [10; 19; 35; 44] /\
  java_out 4 [None; None] = [OWrite (s "Dmf1")] /\ out_bytes (py_out [None; None]) = header (s "zip") 2 /\
  dw_open 4 (s "zip") (@rev N) 0 = Err ValueError.
Proof. vm_compute. repeat split. Qed.
(** The markers of the two files differ: in the first block the Java marker leads to a place within the header. *)
Definition jev_of (e : oev) : jev := match e with OWrite b => JWrite b | OSplit => JSplit end.
Definition long_ops : list (option (list N)) := [Some (repeat 7%N (Z.to_nat 5000))].
Definition marker_of (es : list oev) : option Z :=
  match jw_open 12 with Ok w => signed32 (sub (bw_out (fst (jw_run w (map jev_of es)))) 4096 4100) | Err _ => None end.
Theorem C89_marker_refuted : exists ops, writes ops = true /\ marker_of (java_out 4 ops) = Some (5 - 4096) /\
  marker_of (py_out ops) = Some (1 + zlen (header (s "zip") 2) - 4096).
Proof. exists long_ops. vm_compute. repeat split. Qed.
Print Assumptions C89_marker_refuted.

(** C90: on every file of the format with a codec of the Java reader, block sizes of type int and arrays of lengths of type
    int, nextRaw, skip(), skip(n) and count() answer like a list of the documents, and nextBlock and skipBlock like a list
    of the blocks. *)
Theorem C90_read : forall inflate name comp per bs fuel, java_codec inflate name comp -> - 2147483648 <= per < 2147483648 -> jacceptable comp bs -> (length (List.concat bs) <= fuel)%nat ->
  exists r, sr_open inflate None (header name per ++ blocks_bytes comp bs) = Ok r /\
    (forall cs, Forall by_document cs -> sr_calls fuel r cs = flat_calls (List.concat bs) cs) /\
    (forall cs, Forall by_block cs -> sr_calls fuel r cs = block_calls bs cs).
Proof. exact java_reading. Qed.
Print Assumptions C90_read.
(** Files of the Python writer. *)
Theorem C90_python : forall inflate c per h ops f fuel, is_file c per h ops f -> all_proper ops -> java_codec inflate (c_name c) (c_comp c) -> - 2147483648 <= per < 2147483648 ->
  Forall jsmall (written_data h ops) -> (forall pre ds post, written_data h ops = pre ++ ds ++ post -> jsmall (c_comp c (block_bytes ds))) -> (length (written_data h ops) <= fuel)%nat ->
  exists r, sr_open inflate None f = Ok r /\ forall cs, Forall by_document cs -> sr_calls fuel r cs = flat_calls (written_data h ops) cs.
Proof. exact python_file. Qed.
Print Assumptions C90_python.
(** Files that are refused: other codecs of the Python code, a block size that is no int. *)
Theorem C90_unknown : forall inflate name per rest, str_fits name -> zlen name < 500000000 -> - 9223372036854775808 <= per < 18446744073709551616 ->
  name <> s "none" -> name <> s "zip" -> name <> s "zipsq" -> sr_open inflate None (header name per ++ rest) = Err NotImplementedError.
Proof. exact unknown_codec. Qed.
Print Assumptions C90_unknown.
Theorem C90_block_size : forall inflate name comp per rest, java_codec inflate name comp -> - 9223372036854775808 <= per < 18446744073709551616 -> ~ (- 2147483648 <= per < 2147483648) ->
  sr_open inflate None (header name per ++ rest) = Err OverflowError.
Proof. exact too_many. Qed.
Print Assumptions C90_block_size.
(** With a codec of the caller's no file of the format can be opened. *)
Theorem C90_own_codec : forall inflate f name per rest, str_fits name -> - 9223372036854775808 <= per < 18446744073709551616 ->
  sr_open inflate (Some f) (header name per ++ rest) = Err TypeError.
Proof. exact own_codec. Qed.
Print Assumptions C90_own_codec.
(** After a block has been taken with nextBlock, nextRaw, skip() and count() fail whatever follows in the file. *)
Theorem C90_mixed : forall inflate name comp per bs ds rest fuel, java_codec inflate name comp -> - 2147483648 <= per < 2147483648 -> jacceptable comp bs -> next_full bs = (Some ds, rest) -> (0 < fuel)%nat ->
  exists r, sr_open inflate None (header name per ++ blocks_bytes comp bs) = Ok r /\
  sr_calls fuel r [SBlock; SNext] = [SA_docs (Ok (Some ds)); SA_doc (Err OutOfData)] /\
  sr_calls fuel r [SBlock; SSkip] = [SA_docs (Ok (Some ds)); SA_bool (Err OutOfData)] /\
  sr_calls fuel r [SBlock; SCount] = [SA_docs (Ok (Some ds)); SA_num (Err OutOfData)].
Proof. exact java_mixed. Qed.
Print Assumptions C90_mixed.

Definition jgappy : list (list (list N)) := [[]; [[1%N]; []]; []; []; [[2%N]; [3%N]; [4%N]]; []; [[5%N]]; []].
Definition calls_on (cs : list scall) : res (list sans) :=
  match sr_open jrev None (header (s "zip") 2 ++ blocks_bytes (@rev N) jgappy) with Ok r => Ok (sr_calls 10 r cs) | Err e => Err e end.
Example C90_case : java_codec jrev (s "zip") (@rev N) /\ java_codec jrev (s "zipsq") (fun x => rev (rev x)) /\ jacceptable (@rev N) jgappy /\
  calls_on [SNext; SSkip; SSkipN 2; SNext; SNext; SNext; SSkip; SCount] =
    Ok [SA_doc (Ok (Some [1%N])); SA_bool (Ok true); SA_num (Ok 2); SA_doc (Ok (Some [4%N])); SA_doc (Ok (Some [5%N])); SA_doc (Ok None); SA_bool (Ok false); SA_num (Ok 0)] /\
  calls_on [SCount] = Ok [SA_num (Ok 6)] /\ calls_on [SSkipN 9; SNext] = Ok [SA_num (Ok 6); SA_doc (Ok None)] /\
  calls_on [SBlock; SSkipBlock; SSkipBlock; SSkipBlock; SSkipBlock; SBlock; SBlock; SSkipBlock] =
    Ok [SA_docs (Ok (Some [[1%N]; []])); SA_bool (Ok true); SA_bool (Ok true); SA_bool (Ok true); SA_bool (Ok true); SA_docs (Ok (Some [[5%N]])); SA_docs (Ok None); SA_bool (Ok false)] /\
  calls_on [SBlock; SNext] = Ok [SA_docs (Ok (Some [[1%N]; []])); SA_doc (Err OutOfData)].
Proof.
  split; [right; left; split; [reflexivity|intros x; unfold jrev; rewrite rev_involutive; reflexivity]|].
  split; [right; right; split; [reflexivity|exists (@rev N), (@rev N); unfold jrev; repeat split; intros x; rewrite rev_involutive; reflexivity]|].
  split; [repeat constructor; vm_compute; reflexivity|]. vm_compute. repeat split.
Qed.
Example C90_refused_case : str_fits (s "bzip2") /\ str_fits (s "none") /\ is_file (mkCodec (s "zip") (@rev N) jrev) 2 empty_heap (map py_op java_ops) (out_bytes (py_out java_ops)) /\
  all_proper (map py_op java_ops) /\ Forall jsmall (written_data empty_heap (map py_op java_ops)).
Proof.
  split; [split; [repeat constructor; unfold scalar; lia|vm_compute; reflexivity]|]. split; [split; [repeat constructor; unfold scalar; lia|vm_compute; reflexivity]|].
  split; [eexists _, _, _; split; [vm_compute; reflexivity|split; vm_compute; reflexivity]|].
  split; [intros x I; simpl in I; repeat (destruct I as [I|I]; [injection I as <- || discriminate; try reflexivity|]); contradiction|].
  repeat constructor; vm_compute; reflexivity.
Qed.
