(** Property C76: decoding any bytes. *)
From Verif Require Import PyBase PyBaseFacts Model_Text Model_Heap Model_Layer Model_Types Model_Msgpack Model_Document Model_Codec
  Spec_Layer Spec_History Spec_Types Spec_Msgpack Spec_Document Spec_Codec Spec_Cut Spec_Decode Proof_Msgpack Proof_Layout Proof_Codec6 Proof_Cut2 Proof_Decode Proof_Decode2 Proof_Decode3 Proof_Decode4 Proof_Decode5
  Prop_Document Prop_Codec.
Local Open Scope Z_scope.

(** ** Cut files *)
(** Of the bytes of an encoded document some are missing at the end: decode raises, and nothing is changed. *)
Theorem C76_truncated : forall h d ex tv h1 bytes b1 b2 h0, doc_ok h d -> msgpack_encode h d ex tv = (h1, Ok bytes) -> bytes = b1 ++ b2 -> b2 <> [] ->
  exists e, msgpack_decode h0 b1 = (h0, Err e) /\ (if (length b1 <? 4)%nat then e = ValueError else want e).
Proof. exact decode_cut. Qed.
Print Assumptions C76_truncated.
(** Bytes after a document do not matter, whatever wrote it. *)
Theorem C76_extends : forall h bs rest h2 d, msgpack_decode h bs = (h2, Ok d) -> msgpack_decode h (bs ++ rest) = (h2, Ok d).
Proof. intros h bs rest h2 d. exact (decode_extends h bs rest h2 d). Qed.
Print Assumptions C76_extends.
(** all 220 proper fronts of the sample *)
Example C76_truncated_case : match msgpack_encode doc_heap sample_doc false true with
  | (_, Ok bytes) => forallb (fun n => match snd (msgpack_decode empty_heap (firstn n bytes)) with
      | Err e => match e with ValueError => (n <? 4)%nat | StopIteration | OutOfData => (4 <=? n)%nat | _ => false end
      | Ok _ => false end) (seq 0 220) = true /\ snd (msgpack_decode empty_heap (firstn 4 bytes)) = Err OutOfData
  | _ => False
  end.
Proof. vm_compute. split; reflexivity. Qed.

(** ** Whatever is decoded is sound *)
Theorem C76_sound : forall h bs h2 d, bytes bs -> wf h -> msgpack_decode h bs = (h2, Ok d) -> sound h2 d /\ untouched h h2.
Proof. exact decode_sound. Qed.
Print Assumptions C76_sound.
(** If moreover the plain values are of the types of their fields, what holds of documents (C25 and others) holds of it. *)
Theorem C76_typed : forall h bs h2 d, bytes bs -> wf h -> msgpack_decode h bs = (h2, Ok d) -> typed h2 d -> doc_ok h2 d.
Proof. intros h bs h2 d Hb W E T. apply sound_typed; [exact (proj1 (decode_sound h bs h2 d Hb W E))|exact T]. Qed.
Print Assumptions C76_typed.
(** ... which decode does not check: a str in an i32 field *)
Definition odd_file : edoc := mkED (MMap []) [(s "main", [s "one"; s " "; s "two"])]
  [mkEL (s "t") 2 [mkEF (s "a") (s "i32") None [MStr (s "x"); MNil];
                   mkEF (s "b") (s "span") (Some [(s "context", MStr (s "main"))]) [MInt 0; MInt 1; MInt 1; MInt 3];
                   mkEF (s "c") (s "noderef") (Some [(s "layer", MStr (s "t"))]) [MNil; MInt (-1)];
                   mkEF (s "d") (s "noderef_array") (Some [(s "layer", MStr (s "t"))]) [MArr []; MArr [MInt 1; MInt 0]];
                   mkEF (s "e") (s "nodespan") (Some [(s "layer", MStr (s "t"))]) [MArr [MInt 0; MInt 1]; MNil]]].
Definition file_of (e : edoc) : list N := match layout e with Ok b => b | Err _ => [] end.
Example C76_sound_case : (let (h2, r) := msgpack_decode empty_heap (file_of odd_file) in match r with
  | Ok d => map (n_fieldsof h2) [0; 1]%nat =
      [[(s "a", VStr (s "x")); (s "b", VSpan (s "main") (s "one two") 0 3); (s "d", VNodeList []); (s "e", VNodeSpan 0%nat 1%nat)];
       [(s "b", VSpan (s "main") (s "one two") 3 7); (s "c", VNode 1%nat); (s "d", VNodeList [Some 1%nat; Some 0%nat])]]
  | _ => False end) /\ forallb (fun b => (b <? 256)%N) (file_of odd_file) = true /\ wf empty_heap.
Proof. split; [vm_compute; reflexivity|]. split; [vm_compute; reflexivity|]. exact wf_empty. Qed.
Theorem C76_untyped_refuted : exists bs h2 d, msgpack_decode empty_heap bs = (h2, Ok d) /\ sound h2 d /\ ~ doc_ok h2 d.
Proof.
  exists (file_of odd_file). destruct (msgpack_decode empty_heap (file_of odd_file)) as [h2 [d|e]] eqn:E; [|exfalso; vm_compute in E; discriminate].
  exists h2, d. split; [reflexivity|]. split.
  - refine (proj1 (decode_sound _ _ _ _ _ wf_empty E)). apply Forall_forall. intros b Hb. apply N.ltb_lt. revert b Hb. apply forallb_forall. exact (proj1 (proj2 C76_sound_case)).
  - intros D. assert (X : doc_node h2 d (s "t") 0%nat 0%nat /\ dget (n_fieldsof h2 0%nat) (s "a") = Some (VStr (s "x")) /\ dget (l_fields (h_layer h2 0%nat)) (s "a") = Some (mkDT KBase TI32 [])).
    { assert (h2 = fst (msgpack_decode empty_heap (file_of odd_file))) as -> by (rewrite E; reflexivity).
      assert (d = match snd (msgpack_decode empty_heap (file_of odd_file)) with Ok d => d | _ => d end) as -> by (rewrite E; reflexivity).
      vm_compute. repeat split; left; reflexivity. }
    destruct X as (X1 & X2 & X3). pose proof (do_values h2 d D _ _ _ _ _ _ X1 X2 X3) as V. inversion V as [| | | | |x Hx| | | | | |]. discriminate Hx.
Qed.
Print Assumptions C76_untyped_refuted.

(** ** What a failing decode raises *)
Theorem C76_exceptions : forall h bs h2 e, bytes bs -> msgpack_decode h bs = (h2, Err e) -> h2 = h /\
  In e [ValueError; StopIteration; OutOfData; UnicodeError; KeyError; NotImplementedError; Unmodelled; IndexError; TypeError; AssertionError].
Proof.
  intros h bs h2 e Hb H. apply decode_err in H; [|exact Hb]. destruct H as [-> H]. split; [reflexivity|]. destruct H as [H|(p & _ & [->|F])].
  - apply parse_among in H. cbn in H |- *. tauto.
  - cbn. tauto.
  - destruct F; cbn; tauto.
Qed.
Print Assumptions C76_exceptions.
(** Once the parts are read: nothing but a fault makes decode raise, a fault of the same exception ... *)
Theorem C76_only_faults : forall h bs p h2 e, bytes bs -> parse bs = Ok p -> msgpack_decode h bs = (h2, Err e) -> h2 = h /\ (e = Unmodelled \/ fault p e).
Proof.
  intros h bs p h2 e Hb Ep H. apply decode_err in H; [|exact Hb]. destruct H as [-> [H|(p' & H & F)]]; [congruence|]. split; [reflexivity|]. assert (p' = p) by congruence. subst p'. exact F.
Qed.
Print Assumptions C76_only_faults.
(** ... and every fault does *)
Theorem C76_faults : forall h bs p e, bytes bs -> parse bs = Ok p -> fault p e -> exists e', msgpack_decode h bs = (h, Err e').
Proof. exact fault_decode. Qed.
Print Assumptions C76_faults.
(** the parts of a file that is laid out as encode lays it out, with any content *)
Theorem C76_parts : forall e bytes rest, layout e = Ok bytes -> python_value (ed_props e) -> Forall good_layer (ed_layers e) -> NoDup (map el_name (ed_layers e)) -> NoDup (dkeys (ed_texts e)) ->
  exists sch, parse (bytes ++ rest) = Ok (mkPD (ed_props e) sch (ed_texts e) (map (fun l => (el_num l, map ef_col (el_fields l))) (ed_layers e))) /\
    map fst sch = map el_name (ed_layers e) /\ map (fun kf => dkeys (snd kf)) sch = map (fun l => map ef_name (el_fields l)) (ed_layers e).
Proof.
  intros e bytes rest H Pp G ND NT. destruct (good_layers _ G) as (sch & Hs). exists sch. split; [exact (parse_layout e sch bytes rest H Pp Hs ND NT)|]. clear - Hs.
  induction Hs as [|l [k fs] ls sch (H1 & H2 & _) Hs [I1 I2]]; [split; reflexivity|]. cbn [fst snd map] in *. split; [congruence|]. rewrite (reads_names _ _ H2). congruence.
Qed.
Print Assumptions C76_parts.
(** Faulty files: no such node, index too small, no such layer, option missing, no list, short list, ends in the wrong order, no such offset, offsets in the wrong order *)
Definition one_field (ty : pystr) (args : option (dict mobj)) (col : list mobj) : list N :=
  file_of (mkED (MMap []) [(s "main", [s "one"; s " "; s "two"])] [mkEL (s "t") 2 [mkEF (s "a") ty args col]]).
Definition at_layer : option (dict mobj) := Some [(s "layer", MStr (s "t"))].
Definition at_text : option (dict mobj) := Some [(s "context", MStr (s "main"))].
Example C76_faults_case : map (fun b => snd (msgpack_decode empty_heap b))
  [one_field (s "noderef") at_layer [MInt 2]; one_field (s "noderef") at_layer [MInt (-3)]; one_field (s "noderef") (Some [(s "layer", MStr (s "u"))]) []; one_field (s "span") None [];
   one_field (s "noderef_array") at_layer [MInt 1]; one_field (s "noderef_array") at_layer [MArr [MInt 0; MInt 2]]; one_field (s "nodespan") at_layer [MArr [MInt 1]];
   one_field (s "nodespan") at_layer [MArr [MInt 1; MInt (-1)]]; one_field (s "nodespan") at_layer [MArr [MInt 1; MInt 1]]; one_field (s "span") at_text [MInt 1; MInt 4];
   one_field (s "span") at_text [MInt (-1); MInt 3]; one_field (s "span") at_text [MInt 2; MInt 1]; one_field (s "ext") None []; one_field (s "unicorn") None []]
  = map Err [IndexError; IndexError; KeyError; KeyError; TypeError; IndexError; IndexError; AssertionError; IndexError; KeyError; KeyError; AssertionError; KeyError; KeyError].
Proof. vm_compute. reflexivity. Qed.

(** ** Faults of the file itself *)
Theorem C76_magic : forall h bs, firstn 4 bs <> [68; 77; 95; 49]%N -> msgpack_decode h bs = (h, Err ValueError).
Proof. exact decode_magic. Qed.
Print Assumptions C76_magic.
(** The first fault of the schema is a field of unknown type ... *)
Theorem C76_unknown_type : forall h e bytes ls1 k num fs1 f fs2 ls2 rest, layout e = Ok bytes -> ed_layers e = ls1 ++ mkEL k num (fs1 ++ f :: fs2) :: ls2 -> python_value (ed_props e) ->
  NoDup (map el_name (ed_layers e)) -> Forall good_layer ls1 -> Forall good_field fs1 -> NoDup (map ef_name fs1) -> ~ In (ef_type f) type_names ->
  msgpack_decode h (bytes ++ rest) = (h, Err KeyError).
Proof. exact decode_unknown_type. Qed.
Print Assumptions C76_unknown_type.
(** ... or a second field of the same name *)
Theorem C76_duplicate_field : forall h e bytes ls1 k num fs1 f fs2 ls2 rest, layout e = Ok bytes -> ed_layers e = ls1 ++ mkEL k num (fs1 ++ f :: fs2) :: ls2 -> python_value (ed_props e) ->
  NoDup (map el_name (ed_layers e)) -> Forall good_layer ls1 -> Forall good_field fs1 -> NoDup (map ef_name fs1) -> good_field f -> In (ef_name f) (map ef_name fs1) ->
  msgpack_decode h (bytes ++ rest) = (h, Err ValueError).
Proof. exact decode_duplicate. Qed.
Print Assumptions C76_duplicate_field.
(** A column that asks for a special encoding *)
Theorem C76_special : forall h props texts ls1 l ls2 fs1 f fs2 b o ob rest, file_front props texts ls1 l ls2 fs1 b -> el_fields l = fs1 ++ f :: fs2 ->
  python_value props -> NoDup (dkeys texts) -> NoDup (map el_name (ls1 ++ l :: ls2)) -> Forall good_layer (ls1 ++ l :: ls2) ->
  python_value o -> pack o = Ok ob -> ~ false_value o -> msgpack_decode h (b ++ ob ++ rest) = (h, Err NotImplementedError).
Proof. exact decode_special. Qed.
Print Assumptions C76_special.
Definition twice : edoc := mkED (MMap []) [] [mkEL (s "t") 0 [mkEF (s "a") (s "i32") None []; mkEF (s "b") (s "str") None []; mkEF (s "a") (s "str") None []]].
Example C76_schema_case : snd (msgpack_decode empty_heap (file_of twice)) = Err ValueError /\ Forall good_field [mkEF (s "a") (s "i32") None []; mkEF (s "b") (s "str") None []] /\
  ~ In (s "unicorn") type_names.
Proof.
  split; [vm_compute; reflexivity|]. split.
  - constructor; [|constructor; [|constructor]]; (split; [vm_compute; tauto|intros a Ha; discriminate Ha]).
  - vm_compute. intuition discriminate.
Qed.
(** the same file with the flag of its second column set *)
Definition two_columns : elayer := mkEL (s "t") 1 [mkEF (s "a") (s "i32") None [MInt 1]; mkEF (s "b") (s "i32") None [MInt 2]].
Definition first_column : list efield := [mkEF (s "a") (s "i32") None [MInt 1]].
Definition got_bytes (r : res (list N)) : list N := match r with Ok b => b | Err _ => [] end.
Definition front : list N := magic ++ got_bytes (section [MMap []]) ++ got_bytes (pack_all (MArr [MStr (s "t")] :: schema_objs [two_columns])) ++
  got_bytes (section [texts_obj []]) ++ [] ++ [9]%N ++ [1]%N ++ got_bytes (pack_all (flat_map (fun f => [MBool false; MArr (ef_col f)]) first_column)).
Example C76_special_case : file_front (MMap []) [] [] two_columns [] first_column front /\
  snd (msgpack_decode empty_heap (front ++ [195; 145; 2]%N)) = Err NotImplementedError /\ match snd (msgpack_decode empty_heap (front ++ [194; 145; 2]%N)) with Ok _ => True | _ => False end.
Proof.
  split; [|split; [vm_compute; reflexivity|vm_compute; exact I]].
  exists (got_bytes (section [MMap []])), (got_bytes (pack_all (MArr [MStr (s "t")] :: schema_objs [two_columns]))), (got_bytes (section [texts_obj []])), [], 9, [9]%N, [1]%N,
    (got_bytes (pack_all (flat_map (fun f => [MBool false; MArr (ef_col f)]) first_column))).
  repeat (split; [vm_compute; reflexivity|]). reflexivity.
Qed.
