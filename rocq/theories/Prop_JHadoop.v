(** Property C105: documents and document files in Hadoop jobs. *)
From Verif Require Import PyBase Model_Text Model_Types Model_Msgpack Model_Collection Model_JUnits Model_JStream Model_JCodec Model_JEncode Model_JEdit Model_JHadoop
  Spec_Collection Spec_JStream Spec_JCodec Spec_JEncode Spec_JHadoop Proof_JHadoop Prop_JDecode.
Local Open Scope Z_scope.

(** What a writable writes, another one reads, whatever it held, and leaves what follows. *)
Theorem C105_written_read : forall w b out rest w2, carries w b -> jsmall b -> snd (w_write w) = Ok out -> w_read w2 (out ++ rest) = (mkW None (Some b), Ok rest).
Proof. exact written_read. Qed.
Print Assumptions C105_written_read.
Theorem C105_document : forall j b out rest w2, jdoc_ok j -> java_rereadable j -> java_encode j = Ok b -> jsmall b -> snd (w_write (mkW (Some j) None)) = Ok out ->
  exists k, w_read w2 (out ++ rest) = (mkW None (Some b), Ok rest) /\ w_get_document (mkW None (Some b)) = (mkW (Some k) (Some b), Ok (Some k)) /\ doc_again j k.
Proof. exact document_carried. Qed.
Print Assumptions C105_document.
(** Any number of them one after the other, all read with one writable. *)
Theorem C105_many : forall ws bs w2 rest, Forall2 carries ws bs -> Forall jsmall bs ->
  exists out, w_write_all ws = Ok out /\ w_read_all (length ws) w2 (out ++ rest) = Ok (map (fun b => mkW None (Some b)) bs, rest).
Proof. exact all_carried. Qed.
Print Assumptions C105_many.
(** With bytes missing at the end the reading fails and the writable is as before. *)
Theorem C105_cut : forall w b out w2 b1 b2, carries w b -> jsmall b -> snd (w_write w) = Ok out -> out = b1 ++ b2 -> b2 <> [] -> w_read w2 b1 = (w2, Err OutOfData).
Proof. exact written_cut. Qed.
Print Assumptions C105_cut.
Theorem C105_set : forall j b, carries (w_set_blob (Some b)) b /\ w_get_document (w_set_document j) = (w_set_document j, Ok j) /\
  (forall d, j = Some d -> java_encode d = Ok b -> carries (w_set_document j) b).
Proof. exact set_carried. Qed.
Print Assumptions C105_set.
Theorem C105_nothing : w_write (mkW None None) = (mkW None None, Err RuntimeError) /\ w_get_document (mkW None None) = (mkW None None, Ok None) /\ w_get_blob (mkW None None) = (mkW None None, Ok None) /\
  forall e, w_edit (mkW None None) e = (mkW None None, Err AttributeError).
Proof. exact nothing_carried. Qed.
Print Assumptions C105_nothing.

(** Edits of a document that the writable was given are written. *)
Theorem C105_edits_kept : forall j es b, java_encode (fold_left (fun d e => fst (run_edit e d)) es j) = Ok b -> carries (fold_left w_call (map WEdit es) (mkW (Some j) None)) b.
Proof. exact edits_kept. Qed.
Print Assumptions C105_edits_kept.
(** A writable that has bytes (it was read, or set, or has been written once) keeps them: whatever is done with its document, they are written. *)
Theorem C105_edits_lost : forall w b cs, w_blob w = Some b -> let w1 := fold_left w_call cs w in w_get_blob w1 = (w1, Ok (Some b)) /\ w_write w1 = (w1, Ok (be 4 (zlen b) ++ b)).
Proof. exact edits_lost. Qed.
Print Assumptions C105_edits_lost.
(** So it is not so that what is written is the document that getDocument shows. *)
Theorem C105_shown_refuted : exists b cs d k, let w := fold_left w_call cs (mkW None (Some b)) in
  snd (w_get_document w) = Ok (Some d) /\ w_get_blob w = (w, Ok (Some b)) /\ java_decode b = Ok k /\ jd_props d <> jd_props k.
Proof.
  exists (word_file 0 2), [WEdit (SetProp (s "n") (JInt 6))]. eexists _, _. split; [vm_compute; reflexivity|]. split; [vm_compute; reflexivity|]. split; [vm_compute; reflexivity|]. cbn. discriminate.
Qed.
Print Assumptions C105_shown_refuted.

(** The output of a task with at least one key, as input: the documents in their order, then no more; the key of the last one stays. *)
Theorem C105_job_file : forall inflate ahead name comp per ks bs d w k, Forall2 carries ks bs -> bs <> [] -> java_codec inflate name comp -> per < 2147483648 -> Forall jsmall bs ->
  (forall pre ds post, bs = pre ++ ds ++ post -> jsmall (comp (block_bytes ds))) ->
  dw_open ahead name comp per = Ok d -> rw_task (mkRW d false) ks = (w, Ok tt) ->
  exists r, rr_open inflate (out_bytes (dw_out (rw_dw w))) = Ok r /\
    rr_calls (length bs + k) r = map (fun b => (Ok true, mkW None (Some b))) bs ++ repeat (Ok false, mkW None (hd_error (rev bs))) k.
Proof. exact job_file. Qed.
Print Assumptions C105_job_file.
Theorem C105_job_documents : forall inflate ahead name comp per js bs d w, Forall2 (fun j b => jdoc_ok j /\ java_rereadable j /\ java_encode j = Ok b) js bs -> js <> [] ->
  java_codec inflate name comp -> per < 2147483648 -> Forall jsmall bs -> (forall pre ds post, bs = pre ++ ds ++ post -> jsmall (comp (block_bytes ds))) ->
  dw_open ahead name comp per = Ok d -> rw_task (mkRW d false) (map (fun j => mkW (Some j) None) js) = (w, Ok tt) ->
  exists r keys, rr_open inflate (out_bytes (dw_out (rw_dw w))) = Ok r /\ rr_calls (length js + 1) r = map (fun k => (Ok true, k)) keys ++ [(Ok false, last keys (mkW None None))] /\
    Forall2 (fun j key => exists w1 k, w_get_document key = (w1, Ok (Some k)) /\ doc_again j k) js keys.
Proof. exact job_documents. Qed.
Print Assumptions C105_job_documents.
(** Nothing is written after the end of a task; closing again does no harm. *)
Theorem C105_closed : forall wr ks w, rw_closed wr = false -> rw_task wr ks = (w, Ok tt) -> rw_close w = (w, Ok tt) /\
  forall k b, carries k b -> exists k1, rw_write w k = (w, k1, Err AttributeError) /\ carries k1 b.
Proof. exact task_ends. Qed.
Print Assumptions C105_closed.
(** Whatever the file is, nextKeyValue shows what nextRaw of DocumentStreamReader answers. *)
Theorem C105_input : forall fuel n sr cur, rr_calls n (mkRR (Some sr) cur) = seen cur (sr_calls fuel sr (repeat SNext n)).
Proof. exact job_input. Qed.
Print Assumptions C105_input.
(** A file that ends too early gives the documents of its whole blocks, and is then reported on every call unless it ends with a block. *)
Theorem C105_input_cut : forall inflate name comp per bs f g, java_codec inflate name comp -> - 2147483648 <= per < 2147483648 -> jacceptable comp bs ->
  header name per ++ blocks_bytes comp bs = f ++ g ->
  ((length f < length (header name per))%nat -> rr_open inflate f = Err OutOfData) /\
  ((length (header name per) <= length f)%nat -> exists r bs1 bs2, rr_open inflate f = Ok r /\ bs = bs1 ++ bs2 /\
    forall k, rr_calls (length (List.concat bs1) + k) r = map (fun d => (Ok true, mkW None (Some d))) (List.concat bs1) ++
      repeat (if Nat.eqb (length f) (length (header name per ++ blocks_bytes comp bs1)) then Ok false else Err OutOfData,
              last (map (fun d => mkW None (Some d)) (List.concat bs1)) (mkW None None)) k).
Proof. exact job_input_cut. Qed.
Print Assumptions C105_input_cut.
(** A task without keys leaves a file that cannot be opened. *)
Theorem C105_empty_refuted : forall inflate ahead name comp per d w, java_codec inflate name comp -> per < 2147483648 -> dw_open ahead name comp per = Ok d ->
  rw_task (mkRW d false) [] = (w, Ok tt) -> (ahead < length (header name per))%nat -> rr_open inflate (out_bytes (dw_out (rw_dw w))) = Err OutOfData.
Proof. exact empty_job. Qed.
Print Assumptions C105_empty_refuted.

(** Three keys: bytes, a document, a document that is shown as well; blocks of two *)
Definition small_doc (x : pystr) : jdoc := mkJDoc [(s "id", JStr x)] [] [].
Definition three_keys : list jwritable := [mkW None (Some (word_file 0 2)); mkW (Some (small_doc (s "a"))) None; mkW (Some (small_doc (s "a"))) (Some (word_file 0 1))].
Definition key_bytes (w : jwritable) : list N := match w_get_blob w with (_, Ok (Some b)) => b | _ => [] end.
Definition job (ks : list jwritable) : rwriter * res unit :=
  match dw_open 4 (s "zip") (@rev N) 2 with Ok d => rw_task (mkRW d false) ks | Err e => (mkRW (mkDW [] [] [] 0 (@rev N) 2) true, Err e) end.
Example C105_case : Forall2 carries three_keys (map key_bytes three_keys) /\ java_codec (fun x => Ok (rev x)) (s "zip") (@rev N) /\
  snd (job three_keys) = Ok tt /\
  match rr_open (fun x => Ok (rev x)) (out_bytes (dw_out (rw_dw (fst (job three_keys))))) with
  | Ok r => map fst (rr_calls 5 r) = [Ok true; Ok true; Ok true; Ok false; Ok false] /\
            map (fun a => snd (w_get_document (snd a))) (firstn 2 (skipn 1 (rr_calls 5 r))) = [Ok (Some (small_doc (s "a"))); snd (w_get_document (mkW None (Some (word_file 0 1))))]
  | Err _ => False
  end /\
  rr_open (fun x => Ok (rev x)) (out_bytes (dw_out (rw_dw (fst (job []))))) = Err OutOfData.
Proof.
  split.
  - repeat constructor.
  - split; [right; left; split; [reflexivity|intros x; rewrite rev_involutive; reflexivity]|]. split; [vm_compute; reflexivity|]. split; [vm_compute; split; reflexivity|]. vm_compute. reflexivity.
Qed.
