(** Property C100: the byte buffer of the Java port gives back what was written to it, and so does the loop around java.util.zip; except with empty buffers, too many bytes or unfinished input. *)
From Verif Require Import PyBase Model_JBuffer Spec_JBuffer Proof_JBuffer.
Local Open Scope Z_scope.

(** What was written, in order, whatever the size of the buffers. *)
Theorem C100_collects : forall n l, 0 < n -> Forall bop_ok l -> Forall piece_ok l -> zlen (List.concat (map bop_bytes l)) < 2147483648 ->
  exists b0 b, ob_new n = Ok b0 /\ bops_run b0 l = (b, Ok tt) /\ holds b (List.concat (map bop_bytes l)).
Proof. exact buffer_collects. Qed.
Print Assumptions C100_collects.

(** A range outside its array is refused, but some of it may have been written. *)
Theorem C100_outside : forall n l data offset len, 0 < n -> Forall bop_ok l -> Forall piece_ok l -> -2147483648 <= offset < 2147483648 -> 0 < len -> offset < 0 \/ zlen data < offset + len -> zlen data < 2147483648 -> zlen (List.concat (map bop_bytes l)) + len < 2147483648 ->
  exists b0 b k, ob_new n = Ok b0 /\ bops_run b0 (l ++ [WSlice data offset len]) = (b, Err IndexError) /\ (k < Z.to_nat len)%nat /\ holds b (List.concat (map bop_bytes l) ++ firstn k (skipn (Z.to_nat offset) data)).
Proof. exact buffer_outside. Qed.
Print Assumptions C100_outside.

(** The number of bytes is an int: from 2^31 bytes on there is no way to have them back. *)
Theorem C100_too_much : forall n l, 0 < n -> Forall bop_ok l -> Forall piece_ok l -> 2147483648 <= zlen (List.concat (map bop_bytes l)) < 4294967296 ->
  exists b0 b, ob_new n = Ok b0 /\ bops_run b0 l = (b, Ok tt) /\ ob_array b = Err ValueError /\ ob_length b < 0.
Proof. exact buffer_too_much. Qed.
Print Assumptions C100_too_much.

(** With buffers of no bytes, writing any bytes never ends. *)
Theorem C100_none : forall fuel data, data <> [] -> exists b0, ob_new 0 = Ok b0 /\ snd (ob_write_fuel fuel b0 data 0 (zlen data)) = Err OutOfFuel.
Proof. exact buffer_none. Qed.
Print Assumptions C100_none.

(** DeflateCodec gives back what java.util.zip writes until it has finished *)
Theorem C100_deflate : forall (St : Type) (step : St -> res (list N * St)) finished st l st' fuel, zpieces step finished st l st' -> finished st' = true -> zlen (List.concat l) < 2147483648 -> (length l <= fuel)%nat ->
  zrun fuel step finished st = Ok (List.concat l).
Proof. exact @deflate_collects. Qed.
Print Assumptions C100_deflate.

(** decompress never ends when the input ends too early: inflate then writes nothing and is not finished *)
Theorem C100_deflate_stuck : forall (St : Type) (step : St -> res (list N * St)) finished st l st', zpieces step finished st l st' -> finished st' = false -> step st' = Ok ([], st') ->
  forall fuel, (length l <= fuel)%nat -> zrun fuel step finished st = Err OutOfFuel.
Proof. exact @deflate_stuck. Qed.
Print Assumptions C100_deflate_stuck.

(** data of another format is refused *)
Theorem C100_deflate_broken : forall (St : Type) (step : St -> res (list N * St)) finished st l st' e fuel, zpieces step finished st l st' -> finished st' = false -> step st' = Err e -> (length l < fuel)%nat ->
  zrun fuel step finished st = Err IOError.
Proof. exact @deflate_broken. Qed.
Print Assumptions C100_deflate_broken.

(** Buffers of 3 bytes: a byte (only the low 8 bits count), seven bytes over three buffers, two of five, nothing, a byte *)
Definition some_writes : list bop := [WByte 257; WAll [2; 3; 4; 5; 6; 7; 8]%N; WSlice [7; 8; 9; 10; 11]%N 1 2; WNothing; WSlice [1]%N 5 (-1); WByte (-1)].
Example C100_example_writes : Forall bop_ok some_writes /\ Forall piece_ok some_writes /\ List.concat (map bop_bytes some_writes) = [1; 2; 3; 4; 5; 6; 7; 8; 8; 9; 255]%N.
Proof.
  split; [|split; [|vm_compute; reflexivity]]; repeat (apply Forall_cons); try apply Forall_nil; cbn [bop_ok piece_ok]; try exact Logic.I; try (vm_compute; reflexivity).
  - right. split; vm_compute; discriminate.
  - left. vm_compute. discriminate.
Qed.
Example C100_example_run : exists b, bops_run (mkOB 3 [] [0; 0; 0]%N 0 0) some_writes = (b, Ok tt) /\ ob_array b = Ok [1; 2; 3; 4; 5; 6; 7; 8; 8; 9; 255]%N /\ ob_full b = [[1; 2; 3]; [4; 5; 6]; [7; 8; 8]]%N.
Proof. eexists. split; [vm_compute; reflexivity|]. split; vm_compute; reflexivity. Qed.
(** four bytes asked for, three there: two of them are written, because a buffer of two bytes was full *)
Example C100_example_outside : exists b, bops_run (mkOB 2 [] [0; 0]%N 0 0) [WSlice [1; 2; 3]%N 0 4] = (b, Err IndexError) /\ ob_array b = Ok [1; 2]%N.
Proof. eexists. split; [vm_compute; reflexivity|]. vm_compute. reflexivity. Qed.
(** one byte into a buffer of none *)
Example C100_example_none : exists b0, ob_new 0 = Ok b0 /\ snd (ob_write1 b0 1) = Err IndexError.
Proof. eexists. split; [vm_compute; reflexivity|]. vm_compute. reflexivity. Qed.
(** a class that writes its input in pieces of two *)
Definition in_twos (q : list N) : res (list N * list N) := Ok (firstn 2 q, skipn 2 q).
Definition no_more (q : list N) : bool := match q with [] => true | _ => false end.
Example C100_example_deflate : zpieces in_twos no_more [1; 2; 3]%N [[1; 2]; [3]]%N [] /\ zrun 2 in_twos no_more [1; 2; 3]%N = Ok [1; 2; 3]%N.
Proof. split; [|vm_compute; reflexivity]. eapply zp_more; [reflexivity|apply Nat.leb_le; vm_compute; reflexivity|reflexivity|]. apply zp_one; [reflexivity|apply Nat.leb_le; vm_compute; reflexivity]. Qed.
(** and one that waits for more *)
Example C100_example_stuck : zpieces in_twos (fun _ => false) [1; 2; 3]%N [[1; 2]; [3]]%N [] /\ in_twos [] = Ok ([], []).
Proof. split; [|reflexivity]. eapply zp_more; [reflexivity|apply Nat.leb_le; vm_compute; reflexivity|reflexivity|]. apply zp_one; [reflexivity|apply Nat.leb_le; vm_compute; reflexivity]. Qed.
