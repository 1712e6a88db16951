(** Properties C35 to C38: files with markers at fixed distances. *)
From Verif Require Import PyBase Model_Text Model_Heap Model_Layer Model_Msgpack Model_Document Model_Codec Model_Lazy Model_Collection Model_Boundary
  Spec_Collection Spec_Boundary Proof_Collection2 Proof_Boundary Proof_Boundary2 Spec_Layer Prop_Collection.
Local Open Scope Z_scope.

(** C35: every program of writes and splits succeeds and leaves a file with that data at the data positions. *)
Theorem C35_layout : forall b es, 12 <= b <= 30 ->
  exists w w1, bw_open b = Ok w /\ bw_run w es = (w1, Ok tt) /\ boundary_file b (out_bytes es) (bw_out w1).
Proof. intros b es B. destruct (writes_file b es B) as (w & w1 & H1 & H2 & H3 & _). exists w, w1. auto. Qed.
Print Assumptions C35_layout.
(** Other exponents are refused, by the writer and by the reader. *)
Theorem C35_exponent : forall b, ~ 12 <= b <= 30 -> bw_open b = Err ValueError /\ forall x f, Z.of_N x = b -> br_open (x :: f) = Err IOError.
Proof. exact exponent_refused. Qed.
Print Assumptions C35_exponent.
(** The layout fixes the file up to the contents of the markers: the data of a file is determined, and files with the same
    data have the same length and agree at every data position. *)
Theorem C35_unique : forall b p f g, 12 <= b <= 30 -> boundary_file b p f -> boundary_file b p g ->
  length f = length g /\ forall x, is_data b (Z.of_nat x) = true -> nth_error f x = nth_error g x.
Proof. exact layout_unique. Qed.
Print Assumptions C35_unique.

(** C36: each marker is the distance back to the latest split, cut off at -2^31. *)
Theorem C36_markers : forall b es, 12 <= b <= 30 ->
  exists w w1, bw_open b = Ok w /\ bw_run w es = (w1, Ok tt) /\
  forall k, 1 <= k -> k * 2 ^ b < zlen (bw_out w1) ->
  exists x, latest_split b es (k * 2 ^ b) x /\ signed32 (sub (bw_out w1) (k * 2 ^ b) (k * 2 ^ b + 4)) = Some (Z.max (-2147483648) (x - k * 2 ^ b)).
Proof. intros b es B. destruct (writes_file b es B) as (w & w1 & H1 & H2 & _ & H3). exists w, w1. auto. Qed.
Print Assumptions C36_markers.
(** The document writer splits after its header and after each block, and nowhere else. *)
Theorem C36_blocks : forall c per h ops w h1 w1, writer_open c per = Ok w -> writer_run h w ops = (h1, w1, Ok tt) ->
  exists bs, List.concat bs = written_data h ops /\ out_bytes (w_out w1) = header (c_name c) per ++ blocks_bytes (c_comp c) bs /\
    split_counts 0 (w_out w1) = map (block_at (header (c_name c) per) (c_comp c) bs) (seq 0 (S (length bs))).
Proof. exact writer_splits. Qed.
Print Assumptions C36_blocks.

(** C37, for sequences of reads, seeks and tells that avoid the offsets of the refutations below: the answers are those of a
    cursor in the data.  Missing: all other reads. *)
Theorem C37_read_partial : forall b p f, 12 <= b <= 30 -> boundary_file b p f ->
  exists r, br_open f = Ok r /\ forall cs, safe_ops b p f 0 cs -> br_ops r cs = cursor_ops p 0 cs.
Proof. exact reads_back. Qed.
Print Assumptions C37_read_partial.

(** 9000 bytes with b = 12: markers at 4096 and 8192 *)
Definition big : list N := map (fun i => Z.to_N (i mod 251)) (zrange (Z.to_nat 9000)).
Lemma big_len : zlen big = 9000.
Proof. vm_compute. reflexivity. Qed.
Definition big_events : list oev := [OWrite (firstn 3000 big); OSplit; OWrite (skipn 3000 big); OSplit].
Definition written_file (es : list oev) : list N := match bw_open 12 with Ok w => bw_out (fst (bw_run w es)) | Err _ => [] end.
Lemma written_is_file es : boundary_file 12 (out_bytes es) (written_file es).
Proof.
  destruct (writes_file 12 es ltac:(lia)) as (w & w1 & E1 & E2 & F & _). unfold written_file. rewrite E1, E2. exact F.
Qed.
Example C35_case : 12 <= 12 <= 30 /\ out_bytes big_events = big /\ zlen (written_file big_events) = 9009 /\
  sub (written_file big_events) 4090 4104 = sub big 4089 4095 ++ [255; 255; 251; 185]%N ++ sub big 4095 4099.
Proof. split; [lia|]. vm_compute. repeat split. Qed.
Example C35_exponent_case : ~ 12 <= 11 <= 30 /\ bw_open 31 = Err ValueError /\ br_open [31%N; 0%N] = Err IOError.
Proof. split; [lia|]. vm_compute. repeat split. Qed.
Example C36_case : signed32 (sub (written_file big_events) 4096 4100) = Some (3001 - 4096) /\
  signed32 (sub (written_file big_events) 8192 8196) = Some (3001 - 8192).
Proof. vm_compute. split; reflexivity. Qed.
Example C36_blocks_case : match writer_open backwards 2 with
  | Ok w => match writer_run empty_heap w five with (_, w1, r) => r = Ok tt /\ split_counts 0 (w_out w1) = [11; 27; 36; 52] end
  | Err _ => False end.
Proof. vm_compute. split; reflexivity. Qed.
Definition safe_calls : list bop := [BRead 10; BRead 4085; BRead 0; BRead 1; BTell; BRead 2000; BSeek 4095; BRead 3; BSeek 7; BRead (-1); BRead 5].
Example C37_case : boundary_file 12 big (written_file big_events) /\ safe_ops 12 big (written_file big_events) 0 safe_calls /\
  match br_open (written_file big_events) with Ok r => br_ops r [BRead 4090; BRead 10] = [ABytes (Ok (firstn 4090 big)); ABytes (Ok (sub big 4090 4100))] | Err _ => False end.
Proof.
  split; [rewrite <- (proj1 (proj2 C35_case)); apply written_is_file|].
  split; [|vm_compute; reflexivity].
  assert (L1 : zlen big = 9000) by (vm_compute; reflexivity). assert (L2 : zlen (written_file big_events) = 9009) by (vm_compute; reflexivity).
  unfold safe_calls, safe_ops, safe_op, exact_at. rewrite L2.
  repeat match goal with |- context [fst (cursor_step big ?o ?c)] => let v := eval vm_compute in (fst (cursor_step big o c)) in change (fst (cursor_step big o c)) with v end.
  change (2 ^ 12) with 4096. rewrite L1. repeat split; intros; try lia; try (left; reflexivity); try (right; split; [lia|]; split; [lia|]; vm_compute; reflexivity); vm_compute; try reflexivity; discriminate.
Qed.
(** The full claim is false: a file whose size is a multiple of 2^b cannot be read to the end ... *)
Definition opened (es : list oev) (cs : list bop) : list bans := match br_open (written_file es) with Ok r => br_ops r cs | Err _ => [] end.
Lemma whole_fails : opened [OWrite (firstn 4095 big)] [BRead (-1)] = [ABytes (Err AssertionError)].
Proof. vm_compute. reflexivity. Qed.
Lemma part_fails : opened big_events [BRead 8187] = [ABytes (Err AssertionError)].
Proof. vm_compute. reflexivity. Qed.
Lemma gap_skips : opened big_events [BSeek 8187; BRead 10; BRead 10] = [APos (Ok 8187); ABytes (Ok (sub big 8187 8197)); ABytes (Ok (sub big 8201 8211))].
Proof. vm_compute. reflexivity. Qed.
Lemma opens es : exists r, br_open (written_file es) = Ok r.
Proof. destruct (reads_back 12 _ _ ltac:(lia) (written_is_file es)) as (r & E & _). eauto. Qed.
Theorem C37_end_refuted : exists p f r, boundary_file 12 p f /\ br_open f = Ok r /\ br_ops r [BRead (-1)] = [ABytes (Err AssertionError)].
Proof.
  destruct (opens [OWrite (firstn 4095 big)]) as (r & E). exists (out_bytes [OWrite (firstn 4095 big)]), (written_file [OWrite (firstn 4095 big)]), r.
  split; [apply written_is_file|]. split; [exact E|]. rewrite <- whole_fails. unfold opened. rewrite E. reflexivity.
Qed.
Print Assumptions C37_end_refuted.
(** ... nor can a read end just before a marker, even in the middle of a file ... *)
Theorem C37_stop_refuted : exists p f r n, boundary_file 12 p f /\ br_open f = Ok r /\ 0 <= n < zlen p /\ br_ops r [BRead n] = [ABytes (Err AssertionError)].
Proof.
  destruct (opens big_events) as (r & E). exists (out_bytes big_events), (written_file big_events), r, 8187.
  split; [apply written_is_file|]. split; [exact E|]. rewrite (proj1 (proj2 C35_case)). split; [rewrite big_len; lia|]. rewrite <- part_fails. unfold opened. rewrite E. reflexivity.
Qed.
Print Assumptions C37_stop_refuted.
(** ... and after a seek to such a place the reads return data with a gap of four bytes, without any exception. *)
Theorem C37_gap_refuted : exists f r o n m, boundary_file 12 big f /\ br_open f = Ok r /\ 0 <= o /\ 0 < n /\ 0 < m /\ o + n + m + 4 < zlen big /\
  br_ops r [BSeek o; BRead n; BRead m] = [APos (Ok o); ABytes (Ok (sub big o (o + n))); ABytes (Ok (sub big (o + n + 4) (o + n + 4 + m)))] /\
  sub big (o + n + 4) (o + n + 4 + m) <> sub big (o + n) (o + n + m).
Proof.
  destruct (opens big_events) as (r & E). exists (written_file big_events), r, 8187, 10, 10.
  split; [rewrite <- (proj1 (proj2 C35_case)); apply written_is_file|]. split; [exact E|]. split; [lia|]. split; [lia|]. split; [lia|].
  split; [rewrite big_len; lia|]. change (8187 + 10 + 4 + 10) with 8211. change (8187 + 10 + 4) with 8201. change (8187 + 10 + 10) with 8207. change (8187 + 10) with 8197.
  split; [rewrite <- gap_skips; unfold opened; rewrite E; reflexivity|].
  intros H. apply (f_equal (hd 0%N)) in H. vm_compute in H. discriminate.
Qed.
Print Assumptions C37_gap_refuted.

(** C38: seek(o) puts the file at data byte o, and tell answers o. *)
Theorem C38_seek : forall b p f r o, 12 <= b <= 30 -> boundary_file b p f -> br_file r = f -> br_b r = b -> 0 <= o ->
  exists r1, br_seek r o = (r1, Ok o) /\ br_tell r1 = o /\ is_data b (br_pos r1) = true /\ data_below b (br_pos r1) = o /\
    (o < zlen p -> nth_error f (Z.to_nat (br_pos r1)) = nth_error p (Z.to_nat o)).
Proof. exact seek_position. Qed.
Print Assumptions C38_seek.
(** Directly before a marker tell answers four less than the amount of data before that place. *)
Theorem C38_tell_before_marker : forall b k r, 12 <= b <= 30 -> 1 <= k -> br_b r = b -> br_pos r = k * 2 ^ b -> br_tell r = data_below b (br_pos r) - 4.
Proof. exact tell_before_marker. Qed.
Print Assumptions C38_tell_before_marker.
Example C38_case : match br_open (written_file big_events) with
  | Ok r => map (fun o => br_pos (fst (br_seek r o))) [0; 4094; 4095; 8186; 8187; 8999] = [1; 4095; 4100; 8191; 8196; 9008] /\
            br_pos (fst (br_read r 8187)) = 2 * 2 ^ 12 /\ br_tell (fst (br_read r 8187)) = 8183 /\ data_below 12 8192 = 8187
  | Err _ => False end.
Proof. vm_compute. repeat split. Qed.
