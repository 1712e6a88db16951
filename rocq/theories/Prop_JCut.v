(** Property C104: documents and document files that end too early, or go on, in the Java port. *)
From Verif Require Import PyBase Model_Text Model_Msgpack Model_Lazy Model_Collection Model_JStream Model_JUnits Model_JCodec Model_JEncode
  Spec_Collection Spec_JStream Spec_JCodec Spec_JEncode Proof_JCut Proof_JCut2 Prop_JDecode.
Local Open Scope Z_scope.

(** Bytes that are read as a document have a front that decides it: whatever follows it, the document is the same; without its last byte or more,
    the decoder raises for want of bytes, and never returns less than the document. *)
Theorem C104_extent : forall bs j, java_decode bs = Ok j -> exists p r, bs = p ++ r /\ (forall r', java_decode (p ++ r') = Ok j) /\
  forall b1 b2, p = b1 ++ b2 -> b2 <> [] -> java_decode b1 = Err OutOfData.
Proof. exact java_extent. Qed.
Print Assumptions C104_extent.

(** For what the port itself writes the front is all of it. *)
Theorem C104_written : forall j bytes, jdoc_ok j -> java_rereadable j -> java_encode j = Ok bytes ->
  forall b1 b2, bytes = b1 ++ b2 -> b2 <> [] -> java_decode b1 = Err OutOfData.
Proof. exact java_written_extent. Qed.
Print Assumptions C104_written.

(** A document file that ends too early: in the header, it is not opened. Later, the reader gives the documents of the whole blocks, in order; then,
    call after call, null if the file ends with a block, and otherwise it raises for want of bytes. *)
Theorem C104_file : forall inflate name comp per bs f g, java_codec inflate name comp -> - 2147483648 <= per < 2147483648 -> jacceptable comp bs ->
  header name per ++ blocks_bytes comp bs = f ++ g ->
  ((length f < length (header name per))%nat -> sr_open inflate None f = Err OutOfData) /\
  ((length (header name per) <= length f)%nat -> exists r bs1 bs2, sr_open inflate None f = Ok r /\ bs = bs1 ++ bs2 /\
    forall fuel k, (length (List.concat bs) <= fuel)%nat -> sr_calls fuel r (repeat SNext (length (List.concat bs1) + k)) =
      map (fun d => SA_doc (Ok (Some d))) (List.concat bs1) ++
      repeat (SA_doc (if Nat.eqb (length f) (length (header name per ++ blocks_bytes comp bs1)) then Ok None else Err OutOfData)) k).
Proof. exact java_cut_file. Qed.
Print Assumptions C104_file.

(** The file of C103 with every byte of its end missing in turn, and with more after it *)
Example C104_word : forallb (fun n => match java_decode (firstn n (word_file 0 2)) with Err OutOfData => true | _ => false end) (seq 0 57) = true /\
  (exists j, java_decode (word_file 0 2) = Ok j /\ java_decode (word_file 0 2 ++ [255; 0]%N) = Ok j).
Proof. split; [vm_compute; reflexivity|]. exists (match java_decode (word_file 0 2) with Ok j => j | Err _ => mkJDoc [] [] [] end). split; vm_compute; reflexivity. Qed.
(** Three documents in two blocks: cut in the first block, after it, and in the second *)
Definition three : list (list (list N)) := [[[1]; [2; 3]]; [[4]]]%N.
Definition three_file (n : nat) : list N := firstn n (header (s "none") 2 ++ blocks_bytes (fun x => x) three).
Definition asked (n : nat) : list sans :=
  match sr_open (fun x => Ok x) None (three_file n) with Ok r => sr_calls 9 r (repeat SNext 4) | Err e => [SA_doc (Err e)] end.
Example C104_three : java_codec (fun x => Ok x) (s "none") (fun x => x) /\ jacceptable (fun x => x) three /\
  asked 10 = [SA_doc (Err OutOfData)] /\
  asked 15 = repeat (SA_doc (Err OutOfData)) 4 /\
  asked 20 = [SA_doc (Ok (Some [1%N])); SA_doc (Ok (Some [2%N; 3%N])); SA_doc (Ok None); SA_doc (Ok None)] /\
  asked 22 = [SA_doc (Ok (Some [1%N])); SA_doc (Ok (Some [2%N; 3%N])); SA_doc (Err OutOfData); SA_doc (Err OutOfData)] /\
  asked 25 = [SA_doc (Ok (Some [1%N])); SA_doc (Ok (Some [2%N; 3%N])); SA_doc (Ok (Some [4%N])); SA_doc (Ok None)].
Proof.
  split; [left; auto|]. split; [repeat constructor|]. repeat split; vm_compute; reflexivity.
Qed.
