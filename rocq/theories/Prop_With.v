(** C115: files of documents by their path, and the with statement. *)
From Verif Require Import PyBase Model_Text Model_Heap Model_Layer Model_Types Model_Msgpack Model_Document Model_Codec Model_Lazy Model_Collection Model_With
  Spec_Layer Spec_Msgpack Spec_Codec Spec_Lazy Spec_Collection Spec_With Proof_With Prop_Collection.
Local Open Scope Z_scope.

(** However the body of the with statement ends, the file is closed and holds, complete, what was written before: a file
    of exactly the calls that came before the one that raised.  The only exception is a block that cannot be packed. *)
Theorem C115_with : forall fs p m c per fs1 x h ops raised h1 x1 r,
  m <> ModeA -> writer_at fs p m c per = (fs1, Ok x) -> with_writer h x ops raised = (h1, x1, r) ->
  (fw_closed x1 = true /\
   exists done rest, ops = done ++ rest /\ is_file c per h done (held x1) /\
     snd (fw_body h x done None) = Ok tt /\
     match rest with [] => r = match raised with Some e => Err e | None => Ok tt end | o :: _ => exists e, r = Err e /\ snd (fw_body h x (done ++ [o]) None) = Err e end) \/
  (fw_closed x1 = false /\ exists e, r = Err e /\ pack (MBin (c_comp c (w_block (fw_w x1)))) = Err e).
Proof. exact with_file. Qed.
Print Assumptions C115_with.

(** The file is found under its path, and read it gives these documents. *)
Theorem C115_read : forall fs p m c per fs1 x h ops raised h1 x1 r g,
  m <> ModeA -> writer_at fs p m c per = (fs1, Ok x) -> with_writer h x ops raised = (h1, x1, r) -> fw_closed x1 = true -> all_proper ops -> undoes g c ->
  exists done rest rd, ops = done ++ rest /\ snd (fw_body h x done None) = Ok tt /\
    match rest with [] => r = match raised with Some e => Err e | None => Ok tt end | o :: _ => exists e, r = Err e /\ snd (fw_body h x (done ++ [o]) None) = Err e end /\
    reader_at g (saved fs1 p x1) p = Ok rd /\
    forall fuel, (length (written h done) < fuel)%nat -> exists r1 ms, reader_iter fuel rd = (r1, Ok ms) /\ map md_raw ms = written_data h done.
Proof. exact with_read. Qed.
Print Assumptions C115_read.

(** Other files stay as they are; mode xb refuses a file that is there; mode wb empties it; a path without a file is not read. *)
Theorem C115_modes : forall fs p m c per fs1 x, writer_at fs p m c per = (fs1, x) ->
  (forall q y, q <> p -> dget (saved fs1 p y) q = dget fs q) /\
  (m = ModeX -> dget fs p <> None -> x = Err IOError /\ fs1 = fs) /\
  (m <> ModeA -> (exists w, x = Ok w) -> dget fs1 p = Some []) /\
  (forall w, x = Ok w -> m = ModeA -> exists new, held w = match dget fs p with Some old => old | None => [] end ++ new) /\
  (forall g, dget fs p = None -> reader_at g fs p = Err IOError).
Proof. exact modes. Qed.
Print Assumptions C115_modes.

(** A closed file does not change any more, whatever is called; documents that were written after that make close raise, and flush. *)
Theorem C115_closed : forall cs h x h1 x1 l, fw_closed x = true -> fw_calls h x cs = (h1, x1, l) ->
  held x1 = held x /\ fw_closed x1 = true /\
  (w_count (fw_w x1) > 0 -> forall c, In c [FFlush; FClose] -> exists e, snd (fw_call h1 x1 c) = Err e) /\
  (w_count (fw_w x1) <= 0 -> fw_call h1 x1 FClose = (h1, x1, Ok tt)).
Proof. exact closed_stays. Qed.
Print Assumptions C115_closed.

(** A program that goes on after documents that are refused: they leave no trace, and the file is that of the others. *)
Theorem C115_skips : forall fs p m c per fs1 x h ops h1 x1 x2 h0,
  m <> ModeA -> writer_at fs p m c per = (fs1, Ok x) -> fw_calls h x (map (fun o => match o with WWrite d => FWrite d | WFlush => FFlush end) ops) = (h1, x1, expected h ops) ->
  fw_close x1 = (x2, Ok tt) -> is_file c per h0 (accepted h ops) (held x2).
Proof. exact skips. Qed.
Print Assumptions C115_skips.

(** ** Cases *)
(** the second document cannot be written; an exception of the program's own comes last *)
Definition shaky : list wop := [WWrite (WMsgpack (raw_doc 1)); WWrite (WMsgpack (raw_doc 2)); WWrite (WMsgpack (raw_doc 3)); WWrite WOther; WWrite (WMsgpack (raw_doc 4))].
Example C115_case :
  match writer_at [(s "a", [1%N])] (s "b") ModeX backwards 2 with
  | (fs1, Ok x) =>
      let '(h1, x1, r) := with_writer empty_heap x shaky (Some KeyError) in
      r = Err ValueError /\ fw_closed x1 = true /\ dkeys (saved fs1 (s "b") x1) = [s "a"; s "b"] /\
      match reader_at back_registry (saved fs1 (s "b") x1) (s "b") with
      | Ok rd => rmap (map md_raw) (snd (reader_iter 6 rd)) = Ok [magic ++ [1%N]; magic ++ [2%N]; magic ++ [3%N]]
      | Err _ => False
      end
  | _ => False
  end.
Proof. vm_compute. repeat split. Qed.
Example C115_case_closed :
  match writer_at [] (s "b") ModeX backwards 2 with
  | (_, Ok x) =>
      let '(_, x1, l) := fw_calls empty_heap x [FWrite (WMsgpack (raw_doc 1)); FClose; FClose; FWrite (WMsgpack (raw_doc 2)); FFlush; FClose; FWrite (WMsgpack (raw_doc 3))] in
      l = [Ok tt; Ok tt; Ok tt; Ok tt; Err ValueError; Err ValueError; Err ValueError] /\ fw_closed x1 = true
  | _ => False
  end.
Proof. vm_compute. repeat split. Qed.

Example C115_case_skips :
  match writer_at [] (s "b") ModeX backwards 2 with
  | (_, Ok x) =>
      let '(_, x1, l) := fw_calls empty_heap x (map (fun o => match o with WWrite d => FWrite d | WFlush => FFlush end) shaky) in
      l = expected empty_heap shaky /\ l = [Ok tt; Ok tt; Ok tt; Err ValueError; Ok tt] /\ snd (fw_close x1) = Ok tt /\
      written_data empty_heap (accepted empty_heap shaky) = [magic ++ [1%N]; magic ++ [2%N]; magic ++ [3%N]; magic ++ [4%N]]
  | _ => False
  end.
Proof. vm_compute. repeat split. Qed.

(** DocumentIO.write does not obey the mode it is given: the file that was there is lost. *)
Theorem C115_mode_refuted : exists fs p c per fs1 x, dget fs p <> None /\ snd (writer_at fs p ModeX c per) = Err IOError /\
  io_write fs p (Some ModeX) c per = (fs1, Ok x) /\ dget fs1 p = Some [].
Proof.
  exists [(s "b", [1%N])], (s "b"), backwards, 2. eexists. eexists. split; [vm_compute; discriminate|]. split; [vm_compute; reflexivity|]. split; vm_compute; reflexivity.
Qed.
Print Assumptions C115_mode_refuted.

(** What is appended to a file (mode ab) is not read: the second header is taken for a block. *)
Theorem C115_append_refuted : exists fs p c per fs1 x h ops h1 x1,
  writer_at fs p ModeA c per = (fs1, Ok x) /\ with_writer h x ops None = (h1, x1, Ok tt) /\ fw_closed x1 = true /\ undoes back_registry c /\ all_proper ops /\
  exists f0, dget fs p = Some f0 /\ is_file c per h ops f0 /\
  match reader_at back_registry (saved fs1 p x1) p with
  | Ok rd => exists e, snd (reader_iter 20 rd) = Err e
  | Err _ => True
  end.
Proof.
  exists [(s "b", five_file)], (s "b"), backwards, 2. eexists. eexists. exists empty_heap, five. eexists. eexists.
  split; [vm_compute; reflexivity|]. split; [vm_compute; reflexivity|]. split; [vm_compute; reflexivity|]. split; [exact back_undoes|]. split; [exact five_proper|].
  exists five_file. split; [reflexivity|]. split; [exact five_is_file|]. vm_compute. eexists. reflexivity.
Qed.
Print Assumptions C115_append_refuted.
