(** C24: MessagePack values. *)
From Verif Require Import PyBase Model_Msgpack Spec_Msgpack Proof_Msgpack.
Local Open Scope Z_scope.

(** Packing a Python value within the format limits succeeds, and unpacking the bytes followed by
    anything returns the value and leaves exactly what followed. *)
Theorem C24_round_trip : forall (o : mobj) (rest : list N), python_value o -> fits o ->
  exists p, pack o = Ok p /\ unpack1 (p ++ rest) = Ok (o, rest).
Proof. exact pack_unpack. Qed.
Print Assumptions C24_round_trip.

(** What lies outside the limits raises. *)
Theorem C24_limits : forall o, (exists p, pack o = Ok p) <-> fits o.
Proof. exact pack_fits. Qed.
Print Assumptions C24_limits.

(** Two values with the same bytes are the same; no packing is a proper prefix of another. *)
Theorem C24_prefix_free : forall a b p q r t, python_value a -> python_value b ->
  pack a = Ok p -> pack b = Ok q -> p ++ r = q ++ t -> a = b /\ r = t.
Proof. exact pack_prefix_free. Qed.
Print Assumptions C24_prefix_free.

(** No byte string that unpacks to the value is shorter than its packing, but for floats that another writer
    spelled in single precision: those take four bytes less each. *)
Theorem C24_shortest : forall bs o r p, bytes bs -> unpack1 bs = Ok (o, r) -> pack o = Ok p ->
  (length p + length r <= length bs + 4 * floats o)%nat.
Proof. exact pack_shortest. Qed.
Print Assumptions C24_shortest.

(** Whatever was unpacked from bytes can be packed again, and comes back unchanged. *)
Theorem C24_stable : forall bs o r, bytes bs -> unpack1 bs = Ok (o, r) ->
  exists p, pack o = Ok p /\ forall rest, unpack1 (p ++ rest) = Ok (o, rest).
Proof. exact unpack_stable. Qed.
Print Assumptions C24_stable.

(** The fuel of [unpack1] is always enough. *)
Theorem C24_total : forall bs, unpack1 bs <> Err OutOfFuel.
Proof. exact (fun bs => unpack_nofuel _ bs (le_n _)). Qed.
Print Assumptions C24_total.

Definition sample : mobj :=
  MMap [(s "id", MInt 70000); (s "neg", MInt (-129)); (s "txt", MStr [0x1F600; 0xE9; 65]%N); (s "l", MArr [MNil; MBool true; MBin [0; 255]%N; MFloat 0x3FF8000000000000%N])].
Example C24_case : python_value sample /\ fits sample /\
  pack sample = Ok ([0x84; 0xA2; 105; 100; 0xCE; 0; 1; 17; 112; 0xA3; 110; 101; 103; 0xD1; 0xFF; 0x7F; 0xA3; 116; 120; 116; 0xA7; 0xF0; 0x9F; 0x98; 0x80; 0xC3; 0xA9; 65;
                    0xA1; 108; 0x94; 0xC0; 0xC3; 0xC4; 2; 0; 255; 0xCB; 0x3F; 0xF8; 0; 0; 0; 0; 0; 0]%N).
Proof.
  split; [|split; [|vm_compute; reflexivity]].
  - constructor.
    + simpl. repeat constructor; simpl; intuition discriminate.
    + simpl. repeat (constructor; try reflexivity).
  - apply pack_fits. eexists. vm_compute. reflexivity.
Qed.
(** a longer encoding of the same value exists, so [C24_shortest] is not empty *)
Example C24_case_longer : unpack1 [0xD9; 1; 65]%N = Ok (MStr (s "A"), []) /\ pack (MStr (s "A")) = Ok [0xA1; 65]%N.
Proof. split; vm_compute; reflexivity. Qed.
(** the bound is reached by two floats in single precision *)
Example C24_case_single : unpack1 [0x92; 0xCA; 0x3F; 0xC0; 0; 0; 0xCA; 0xFF; 0x80; 0; 0]%N = Ok (MArr [MFloat 0x3FF8000000000000; MFloat 0xFFF0000000000000], []) /\
  floats (MArr [MFloat 0x3FF8000000000000; MFloat 0xFFF0000000000000]) = 2%nat /\
  exists p, pack (MArr [MFloat 0x3FF8000000000000; MFloat 0xFFF0000000000000]) = Ok p /\ (length p = 11 + 4 * 2)%nat.
Proof. split; [vm_compute; reflexivity|]. split; [reflexivity|]. eexists. split; vm_compute; reflexivity. Qed.
