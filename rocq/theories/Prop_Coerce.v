(** Property C77: values that are not of the type of their field. *)
From Verif Require Import PyBase PyBaseFacts Model_Text Model_Heap Model_Layer Model_Types Model_Msgpack Model_Document Model_Coerce Model_Codec
  Spec_Layer Spec_History Spec_Types Spec_Msgpack Spec_Document Spec_Codec Spec_Query Spec_Coerce Proof_Layer4 Proof_Types Proof_Codec6 Proof_Coerce2 Proof_Coerce3 Proof_Coerce4 Proof_Coerce6.
Local Open Scope Z_scope.

(** A value that is not of the plain type of its field is written like the value it converts to; or encode raises; or (floats from
    and to text, int of text beyond ASCII or 4300 characters, str of nodes and lists of them, foreign objects) the model does not say. *)
Theorem C77_cell : forall h offs t v, wf h -> plain_type t -> proper v -> ~ of_type t v ->
  (exists v', converts h t v v' /\ proper v' /\ of_type t v' /\ v' <> VNone /\ encode_cell h offs t v = encode_cell h offs t v') \/
  (exists e, refuses h t v e /\ encode_cell h offs t v = Err e) \/
  (uncovered t v /\ encode_cell h offs t v = Err Unmodelled).
Proof. exact cell_outcome. Qed.
Print Assumptions C77_cell.
(** The document comes back with the converted values in place of the values it had. *)
Theorem C77_round_trip : forall h d ex tv h1 bytes rest h0, doc_loose h d -> msgpack_encode h d ex tv = (h1, Ok bytes) -> wf h0 ->
  exists h2 d', msgpack_decode h0 (bytes ++ rest) = (h2, Ok d') /\ loose_doc h d h2 d' /\ wf h2 /\ untouched h0 h2 /\ looks_same h h1.
Proof.
  intros h d ex tv h1 b rest h0 D E W. destruct (loose_round h d ex tv h1 b rest h0 D E W) as (h2 & d' & A & B & C & U & _ & _ & L). exists h2, d'. auto.
Qed.
Print Assumptions C77_round_trip.
(** Integers become the nearest float, or are too large. *)
Theorem C77_float : forall h offs i b, encode_cell h offs TF64 (VInt i) = Ok [MFloat b] -> nearest i b.
Proof.
  intros h offs i b H. cbn [encode_cell py_float] in H. destruct (float_of_int i) as [c|] eqn:E; [|discriminate]. cbn [rbind] in H. injection H as <-. exact (float_nearest i c E).
Qed.
Print Assumptions C77_float.
(** The text of an integer in an integer field is that integer. *)
Theorem C77_int_text : forall h offs t x i, In t [TI32; TI64] -> zlen x <= 4300 -> spelled x i -> encode_cell h offs t (VStr x) = Ok [MInt i].
Proof. exact text_int_cell. Qed.
Print Assumptions C77_int_text.
(** ... so an integer kept in a string field and put back into an integer field is the integer it was *)
Theorem C77_text_back : forall h offs t i x, In t [TI32; TI64] -> zlen x <= 4300 -> encode_cell h offs TString (VInt i) = Ok [MStr x] -> encode_cell h offs t (VStr x) = Ok [MInt i].
Proof. exact text_back. Qed.
Print Assumptions C77_text_back.

(** Sample: node[field] = value is not checked; every field but the span holds a value of another type. *)
Definition loose_heap : heap := exec_all Z.leb empty_heap
  [OLayer (s "t") [(s "i", T_int32 VNone); (s "f", T_float64 VNone); (s "b", T_bool VNone); (s "t", T_string VNone); (s "x", T_binary); (s "p", T_span (s "main"))];
   OAdd 0%nat [(s "p", VSpan (s "main") (s "one two") 0 3)]; OAdd 0%nat [(s "p", VSpan (s "main") (s "one two") 4 7)];
   OSetField 0%nat (s "i") (VStr (s " -1_2 ")); OSetField 0%nat (s "f") (VInt 9007199254740993); OSetField 0%nat (s "b") (VStr (s "False")); OSetField 0%nat (s "t") (VBytes [104; 105; 39; 0]%N); OSetField 0%nat (s "x") (VInt 5);
   OSetField 1%nat (s "i") (VFloat 4613262278296967578%N); OSetField 1%nat (s "b") (VNode 0%nat); OSetField 1%nat (s "t") (VSpan (s "main") (s "one two") 4 7)].
Definition loose_sample : doc := mkDoc (MMap []) [(s "main", s "one two")] [(s "t", 0%nat)].
Lemma loose_ok : doc_loose loose_heap loose_sample.
Proof.
  split.
  - apply ops_ok_wf, ops_okb_sound. vm_compute. reflexivity.
  - intros k l [[= <- <-]|[]]. vm_compute. auto.
  - repeat constructor; simpl; tauto.
  - repeat constructor; simpl; tauto.
  - constructor; repeat constructor; simpl; tauto.
  - intros k f t (l & [[= <- <-]|[]] & Hf). vm_compute in Hf.
    repeat (destruct Hf as [[= <- <-]|Hf]; [split; [discriminate|]; split; [discriminate|]; split;
      [split; vm_compute; intros H; try discriminate; try (exfalso; intuition discriminate); eexists; reflexivity|];
      split; [vm_compute; repeat constructor; simpl; tauto|vm_compute; intros o v Hov; repeat (destruct Hov as [[= <- <-]|Hov]; [constructor|]); destruct Hov]|]); destruct Hf.
  - intros k l n f v t [[[= <- <-]|[]] Hn] Hv Ht. apply dget_In in Hv. vm_compute in Hn. destruct Hn as [[= <-]|[[= <-]|[]]]; vm_compute in Hv;
    repeat (destruct Hv as [[= <- <-]|Hv]; [vm_compute in Ht; injection Ht as <-;
      first [right; split; [vm_compute; tauto|vm_compute; try tauto; try (repeat split; discriminate); repeat constructor; fail]
            |left; apply vo_span; [split; reflexivity|reflexivity|lia|vm_compute; discriminate]]|]); destruct Hv.
Qed.
Example C77_case : doc_loose loose_heap loose_sample /\ wf empty_heap /\
  match msgpack_encode loose_heap loose_sample true false with
  | (_, Ok bytes) => match msgpack_decode empty_heap bytes with
      | (h2, Ok d') => map (n_fieldsof h2) [0; 1]%nat =
          [[(s "i", VInt (-12)); (s "f", VFloat 4845873199050653696%N); (s "b", VBool true); (s "t", VStr (s "b""hi'\x00""")); (s "x", VBytes [0; 0; 0; 0; 0]%N); (s "p", VSpan (s "main") (s "one two") 0 3)];
           [(s "i", VInt 2); (s "b", VBool true); (s "t", VStr (s "two")); (s "p", VSpan (s "main") (s "one two") 4 7)]]
      | _ => False
      end
  | _ => False
  end.
Proof. split; [exact loose_ok|]. split; [exact wf_empty|]. vm_compute. reflexivity. Qed.
(** so that it is not always the document that was written, though nothing was refused *)
Theorem C77_lossless_refuted : exists h d h1 bytes h2 d', doc_loose h d /\ msgpack_encode h d true false = (h1, Ok bytes) /\ msgpack_decode empty_heap bytes = (h2, Ok d') /\ ~ same_doc h d h2 d'.
Proof.
  exists loose_heap, loose_sample. destruct (msgpack_encode loose_heap loose_sample true false) as [h1 [b|]] eqn:E; [|vm_compute in E; discriminate]. exists h1, b.
  destruct (loose_round loose_heap loose_sample true false h1 b [] empty_heap loose_ok E wf_empty) as (h2 & d' & A & _). rewrite app_nil_r in A. exists h2, d'.
  split; [exact loose_ok|]. split; [reflexivity|]. split; [exact A|]. intros [_ _ L].
  assert (Eb : b = match snd (msgpack_encode loose_heap loose_sample true false) with Ok b => b | _ => [] end) by (rewrite E; reflexivity).
  assert (Eh : h2 = fst (msgpack_decode empty_heap b)) by (rewrite A; reflexivity).
  assert (Ed : d_layers d' = match snd (msgpack_decode empty_heap b) with Ok d => d_layers d | _ => [] end) by (rewrite A; reflexivity).
  rewrite Eb in Eh, Ed. assert (Et : d_layers d' = [(s "t", 0%nat)]) by (rewrite Ed; vm_compute; reflexivity). rewrite Et in L. inversion L as [|? ? ? ? (_ & _ & [_ _ V _]) _]; subst. cbn [snd] in V.
  assert (P : at_pos loose_heap 0%nat 1%nat 1%nat) by (vm_compute; reflexivity). match type of V with forall p n n' f t, _ -> at_pos ?g _ _ _ -> _ => assert (P' : at_pos g 0%nat 1%nat 1%nat) by (vm_compute; reflexivity) end.
  specialize (V 1%nat 1%nat 1%nat (s "i") (T_int32 VNone) P P'). vm_compute in V. specialize (V eq_refl). inversion V.
Qed.
Print Assumptions C77_lossless_refuted.
