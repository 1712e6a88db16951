(** Properties C87 and C88: files with markers in the Java port. *)
From Verif Require Import PyBase PyBaseFacts Model_Msgpack Model_Collection Model_Boundary Model_JBoundary Spec_Boundary Spec_JBoundary
  Proof_Boundary Proof_JBoundary Proof_JBoundary2 Prop_Boundary.
Local Open Scope Z_scope.

(** C87: with write(byte[]) and split the Java writer produces the very file of the Python writer, markers included. *)
Theorem C87_same_file : forall b es, no_single es ->
  jw_open b = bw_open b /\ forall w, bw_open b = Ok w -> jw_run w es = bw_run w (map in_python es).
Proof. exact same_file. Qed.
Print Assumptions C87_same_file.
(** For all programs: every byte is found at its place, but for those written alone, with write(int), whose place is
    directly before a marker: there the marker comes one byte too early, and its first byte, 0 or at least 128, is found. *)
Theorem C87_single_bytes : forall b es, 12 <= b <= 30 -> exists w w1, jw_open b = Ok w /\ jw_run w es = (w1, Ok tt) /\
  nth_error (bw_out w1) 0 = Some (Z.to_N b) /\ length (data_from b 0 (bw_out w1)) = length (jev_bytes es) /\
  forall i c, nth_error (jev_bytes es) i = Some c ->
    (nth_error (singly es) i = Some true /\ before_marker b (Z.of_nat i) -> exists m, nth_error (data_from b 0 (bw_out w1)) i = Some m /\ (m = 0 \/ 128 <= m)%N) /\
    (~ (nth_error (singly es) i = Some true /\ before_marker b (Z.of_nat i)) -> nth_error (data_from b 0 (bw_out w1)) i = Some c).
Proof. exact single_bytes. Qed.
Print Assumptions C87_single_bytes.
(** a program with a byte of its own before the marker at 4096 *)
Definition single : list jev := [JWrite (firstn 4000 big); JSplit; JByte 5%N; JWrite (firstn 93 (skipn 4001 big)); JByte 7%N; JWrite (firstn 20 (skipn 4095 big))].
Definition java_file (es : list jev) : list N := match jw_open 12 with Ok w => bw_out (fst (jw_run w es)) | Err _ => [] end.
Example C87_case : no_single [JWrite (firstn 3000 big); JSplit; JWrite (skipn 3000 big); JSplit] /\
  java_file [JWrite (firstn 3000 big); JSplit; JWrite (skipn 3000 big); JSplit] = written_file big_events.
Proof. split; [intros c [H|[H|[H|[H|[]]]]]; discriminate|apply str_eqb_eq; vm_compute; reflexivity]. Qed.
Example C87_single_case : length (jev_bytes single) = 4115%nat /\ nth_error (singly single) 4094 = Some true /\ before_marker 12 4094 /\
  nth_error (jev_bytes single) 4094 = Some 7%N /\ nth_error (data_from 12 0 (java_file single)) 4094 = Some 255%N /\
  firstn 4094 (data_from 12 0 (java_file single)) = firstn 4094 (jev_bytes single) /\ nth_error (jev_bytes single) 4000 = Some 5%N /\ nth_error (singly single) 4000 = Some true /\
  skipn 4095 (data_from 12 0 (java_file single)) = skipn 4095 (jev_bytes single) /\
  data_from 12 0 (written_file (map in_python single)) = jev_bytes single.
Proof.
  split; [vm_compute; reflexivity|]. split; [vm_compute; reflexivity|]. split; [exists 4095; split; [vm_compute; reflexivity|split; [vm_compute; reflexivity|vm_compute; reflexivity]]|].
  split; [vm_compute; reflexivity|]. split; [vm_compute; reflexivity|]. split; [apply str_eqb_eq; vm_compute; reflexivity|]. split; [vm_compute; reflexivity|].
  split; [vm_compute; reflexivity|]. split; apply str_eqb_eq; vm_compute; reflexivity.
Qed.

(** C88: whatever the sizes in which the stream hands out its bytes, read() and read(byte[], int, int) answer as a cursor
    in the data of any file with markers would. *)
Theorem C88_read : forall b p f sizes minus, 12 <= b <= 30 -> boundary_file b p f ->
  exists r, jr_open (mkIn f sizes minus) = Ok r /\ forall cs, all_end_well b p f minus 0 cs -> jr_ops r cs = jcursor_ops p 0 cs.
Proof. exact java_reads. Qed.
Print Assumptions C88_read.
(** The calls excluded there never end: the file ends where a marker would follow, the stream answers 0 to a call for
    zero bytes, and the array is longer than the data that is left. *)
Theorem C88_hangs : forall b p f sizes cs len, 12 <= b <= 30 -> boundary_file b p f -> zlen f mod 2 ^ b = 0 -> all_end_well b p f false 0 cs ->
  zlen p < fold_left (fun o c => fst (jcursor_step p o c)) cs 0 + len -> 0 < len ->
  exists r, jr_open (mkIn f sizes false) = Ok r /\
    forall fuel, snd (jr_read_bytes fuel (fold_left (fun r c => fst (jr_step r c)) cs r) len) = Err OutOfFuel.
Proof. exact java_hangs. Qed.
Print Assumptions C88_hangs.
(** computeLength counts the data between two places outside of markers. *)
Theorem C88_length : forall b start stop, 12 <= b <= 30 -> outside_markers b start -> outside_markers b stop -> start <= stop ->
  compute_length b start stop = data_below b stop - data_below b start.
Proof. exact length_ok. Qed.
Print Assumptions C88_length.
(** Not so from the first byte of the file on. *)
Theorem C88_length_refuted : exists b stop, 12 <= b <= 30 /\ outside_markers b stop /\ compute_length b 0 stop <> data_below b stop - data_below b 0.
Proof. exists 12, 100. split; [lia|]. split; [split; [lia|intros H; exfalso; change (2 ^ 12) with 4096 in H; lia]|]. vm_compute. discriminate. Qed.
Print Assumptions C88_length_refuted.
Definition after_skip (f : list N) : bool :=
  match jr_open (mkIn f [] true) with
  | Ok r => let (r1, n) := jr_skip r 10 in
            match n, snd (jr_step r1 (JRead 5000)) with
            | Ok k, JA_read (Ok (l, x)) => (k =? 10) && (l =? 5000) && negb (str_eqb x (sub big 10 (10 + 5000)))
            | _, _ => false
            end
  | Err _ => false
  end.
Lemma skip_shift : after_skip (written_file big_events) = true.
Proof. vm_compute. reflexivity. Qed.
Lemma after_skip_shows f : after_skip f = true -> exists r x, jr_open (mkIn f [] true) = Ok r /\ snd (jr_skip r 10) = Ok 10 /\
  snd (jr_step (fst (jr_skip r 10)) (JRead 5000)) = JA_read (Ok (5000, x)) /\ x <> sub big 10 (10 + 5000).
Proof.
  unfold after_skip. destruct (jr_open (mkIn f [] true)) as [r|]; [|discriminate]. destruct (jr_skip r 10) as (r1 & n) eqn:Es.
  destruct n as [k|]; [|discriminate]. destruct (snd (jr_step r1 (JRead 5000))) as [|[(l & x)|]] eqn:Ex; try discriminate. intros H.
  apply andb_prop in H. destruct H as (H & H3). apply andb_prop in H. destruct H as (H1 & H2). apply Z.eqb_eq in H1, H2. subst k l. apply negb_true_iff in H3.
  exists r, x. rewrite Es. cbn [fst snd]. split; [reflexivity|]. split; [reflexivity|]. split; [exact Ex|]. intros Hx. destruct (str_eqb_spec x (sub big 10 (10 + 5000))); [discriminate|contradiction].
Qed.
Lemma big_file : boundary_file 12 big (written_file big_events).
Proof. rewrite <- (proj1 (proj2 C35_case)). apply written_is_file. Qed.
(** skip does not count what it skips: later reads take the markers for data and data for markers. *)
Theorem C88_skip_refuted : exists p f r n m x, boundary_file 12 p f /\ jr_open (mkIn f [] true) = Ok r /\ 0 <= n /\ n + m <= zlen p /\
  snd (jr_skip r n) = Ok n /\ snd (jr_step (fst (jr_skip r n)) (JRead m)) = JA_read (Ok (m, x)) /\ x <> sub p n (n + m).
Proof.
  destruct (after_skip_shows _ skip_shift) as (r & x & E & H1 & H2 & H3). exists big, (written_file big_events), r, 10, 5000, x.
  split; [exact big_file|]. split; [exact E|]. split; [lia|]. split; [rewrite big_len; lia|]. auto.
Qed.
Print Assumptions C88_skip_refuted.
(** available, but directly before a marker: so many bytes of data follow up to the next marker or the end of the file, at least one unless the data is at its end. *)
Theorem C88_available : forall b p f sizes minus cs, 12 <= b <= 30 -> boundary_file b p f -> all_end_well b p f minus 0 cs ->
  let o := fold_left (fun o c => fst (jcursor_step p o c)) cs 0 in ~ before_marker b (o - 1) ->
  exists r, jr_open (mkIn f sizes minus) = Ok r /\ let a := jr_available (fold_left (fun r c => fst (jr_step r c)) cs r) in
    0 <= a /\ o + a <= zlen p /\ (o < zlen p -> 0 < a) /\ (o + a = zlen p \/ before_marker b (o + a - 1)).
Proof. exact available_ok. Qed.
Print Assumptions C88_available.
Definition available_after (f : list N) (n : Z) : option Z :=
  match jr_open (mkIn f [] true) with Ok r => Some (jr_available (fst (jr_step r (JRead n)))) | Err _ => None end.
Lemma available_shows f n a : available_after f n = Some a -> exists r, jr_open (mkIn f [] true) = Ok r /\ jr_available (fst (jr_step r (JRead n))) = a.
Proof. unfold available_after. destruct (jr_open (mkIn f [] true)) as [r|]; [|discriminate]. intros H. exists r. split; [reflexivity|congruence]. Qed.
Lemma too_much : available_after (written_file big_events) 4095 = Some 4909.
Proof. vm_compute. reflexivity. Qed.
(** Directly before a marker, available promises more than there is. *)
Theorem C88_available_refuted : exists p f r, boundary_file 12 p f /\ jr_open (mkIn f [] true) = Ok r /\
  zlen p - 4095 < jr_available (fst (jr_step r (JRead 4095))).
Proof.
  destruct (available_shows _ _ _ too_much) as (r & E & A). exists big, (written_file big_events), r. split; [exact big_file|]. split; [exact E|].
  rewrite A, big_len. lia.
Qed.
Print Assumptions C88_available_refuted.
(** 4000 bytes into the data: 95 follow before the marker at 4096; at 9000 - 812: the rest *)
Example C88_available_case : available_after (written_file big_events) 4000 = Some 95 /\ available_after (written_file big_events) 8188 = Some 812 /\ available_after (written_file big_events) 9000 = Some 0 /\
  before_marker 12 4094 /\ ~ before_marker 12 (0 - 1).
Proof.
  split; [vm_compute; reflexivity|]. split; [vm_compute; reflexivity|]. split; [vm_compute; reflexivity|].
  split; [exists 4095; split; [vm_compute; reflexivity|split; vm_compute; reflexivity]|]. intros (x & _ & H & _). unfold data_below in H. lia.
Qed.
Lemma ragged : zlen (written_file big_events) mod 2 ^ 12 <> 0.
Proof. vm_compute. discriminate. Qed.
Example C88_case : boundary_file 12 big (written_file big_events) /\ all_end_well 12 big (written_file big_events) false 0 [JRead 4090; JRead 10; JNext; JRead 5000; JRead 1; JNext] /\
  jcursor_ops big 0 [JRead 8187; JNext; JRead 1000; JRead 1; JNext] =
    [JA_read (Ok (8187, sub big 0 8187)); JA_byte (Ok (nth_error big (Z.to_nat 8187))); JA_read (Ok (812, sub big 8188 9000)); JA_read (Ok (-1, [])); JA_byte (Ok None)].
Proof.
  split; [exact big_file|]. split; [|vm_compute; reflexivity].
  unfold all_end_well, ends_well.
  repeat match goal with |- _ /\ _ => split end; try exact Logic.I; try lia; right; left; exact ragged.
Qed.
Example C88_hangs_case : boundary_file 12 (firstn 4095 big) (written_file [OWrite (firstn 4095 big)]) /\ zlen (written_file [OWrite (firstn 4095 big)]) mod 2 ^ 12 = 0 /\
  zlen (firstn 4095 big) < 0 + 8192.
Proof.
  split; [|split; vm_compute; reflexivity]. pose proof (written_is_file [OWrite (firstn 4095 big)]) as H. unfold out_bytes in H. cbn [map List.concat] in H. rewrite app_nil_r in H. exact H.
Qed.
Example C88_length_case : outside_markers 12 1 /\ outside_markers 12 8192 /\ outside_markers 12 4100 /\ compute_length 12 1 8192 = 8187 /\ compute_length 12 4096 8196 = 4092.
Proof. repeat split; try lia; try (vm_compute; reflexivity); change (2 ^ 12) with 4096; try (left; reflexivity); right; vm_compute; discriminate. Qed.
