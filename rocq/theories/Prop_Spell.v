(** Property C78: MessagePack in any spelling. *)
From Verif Require Import PyBase PyBaseFacts Model_Text Model_Heap Model_Layer Model_Types Model_Msgpack Model_Document Model_Codec
  Spec_Layer Spec_Types Spec_Msgpack Spec_Document Spec_Codec Spec_Spell Proof_Codec6 Proof_Spell2 Proof_Spell3 Prop_Document Prop_Codec.
Local Open Scope Z_scope.

(** The reader reads exactly the MessagePack format: a value is read off the front of bytes if and only if the format says that
    what it took spells that value. *)
Theorem C78_format : forall bs o r, bytes bs -> (unpack1 bs = Ok (o, r) <-> exists p, bs = p ++ r /\ spells p o).
Proof. exact unpack_spells. Qed.
Print Assumptions C78_format.
(** Bytes spell one value at most. *)
Theorem C78_unambiguous : forall p o o', bytes p -> spells p o -> spells p o' -> o = o'.
Proof. exact spells_unique. Qed.
Print Assumptions C78_unambiguous.
(** What the writer packs is a spelling of the value it was given. *)
Theorem C78_packed : forall o p, python_value o -> pack o = Ok p -> bytes p /\ spells p o.
Proof. exact pack_spells. Qed.
Print Assumptions C78_packed.
(** The bytes of a document are a file with its contents, and any other file with these contents decodes to the same document. *)
Theorem C78_document : forall h d ex tv h1 bs, doc_ok h d -> msgpack_encode h d ex tv = (h1, Ok bs) ->
  exists e, codec_encode h d ex tv = (h1, Ok e) /\ file_of e bs /\
    forall bs' rest h0, file_of e bs' -> msgpack_decode h0 (bs' ++ rest) = msgpack_decode h0 bs.
Proof. exact respelled. Qed.
Print Assumptions C78_document.

(** Sample: the longest way to write everything. *)
Fixpoint wide (o : mobj) : list N :=
  match o with
  | MNil => [0xC0]%N
  | MBool b => [if b then 0xC3 else 0xC2]%N
  | MInt z => (if z <? 0 then 0xD3%N else 0xCF%N) :: be 8 (z mod 2 ^ 64)
  | MFloat b => 0xCB%N :: be 8 (Z.of_N b)
  | MStr x => match utf8_encode x with Ok b => 0xDB%N :: be 4 (zlen b) ++ b | Err _ => [] end
  | MBin b => 0xC6%N :: be 4 (zlen b) ++ b
  | MArr l => 0xDD%N :: be 4 (zlen l) ++ flat_map wide l
  | MMap d => 0xDF%N :: be 4 (zlen d) ++ flat_map (fun kv => match utf8_encode (fst kv) with Ok b => 0xDB%N :: be 4 (zlen b) ++ b | Err _ => [] end ++ wide (snd kv)) d
  end.
Definition wide_file (e : edoc) : list N := [68; 77; 95; 49]%N ++ flat_map (fun x => match x with Some o => wide o | None => wide MNil end) (file_values e).
Definition sample_edoc : edoc := match codec_encode doc_heap sample_doc false true with (_, Ok e) => e | _ => mkED MNil [] [] end.
Example C78_case : file_of sample_edoc (wide_file sample_edoc) /\
  match msgpack_encode doc_heap sample_doc false true with
  | (_, Ok bs) => (length bs < length (wide_file sample_edoc))%nat /\
      match msgpack_decode empty_heap (wide_file sample_edoc ++ [7]%N) with (h2, Ok d) => snd (msgpack_encode h2 d false true) = Ok bs | _ => False end
  | _ => False
  end.
Proof.
  assert (B : forall l, forallb (fun b => N.ltb b 256) l = true -> bytes l) by (intros l H; apply Forall_forall; intros b Hb; apply N.ltb_lt; exact (proj1 (forallb_forall _ l) H b Hb)).
  split.
  - split; [apply B; vm_compute; reflexivity|]. exists (skipn 4 (wide_file sample_edoc)). split; [vm_compute; reflexivity|].
    apply stream_reads; [apply B; vm_compute; reflexivity|]. vm_compute. repeat split.
  - vm_compute. repeat split. repeat constructor.
Qed.
(** 1.5 in 32 bits, 300 in 32 bits, "A" with a length of 32 bits *)
Example C78_case_values : spells [0xCA; 0x3F; 0xC0; 0; 0]%N (MFloat 0x3FF8000000000000) /\ spells [0xD2; 0; 0; 1; 44]%N (MInt 300) /\ spells [0xDB; 0; 0; 0; 1; 65]%N (MStr (s "A")).
Proof.
  assert (W : forall bs o, forallb (fun b => N.ltb b 256) bs = true -> unpack1 bs = Ok (o, []) -> spells bs o).
  { intros bs o B U. apply unpack_spells in U; [|apply Forall_forall; intros b Hb; apply N.ltb_lt; revert b Hb; apply forallb_forall; exact B]. destruct U as (p & -> & S). rewrite app_nil_r. exact S. }
  repeat split; apply W; vm_compute; reflexivity.
Qed.
