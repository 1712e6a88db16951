(** Property C110: a document of the Python port that passes through the Java port comes back with the same content. *)
From Coq Require Import Permutation.
From Verif Require Import PyBase PyBaseFacts Model_Text Model_Heap Model_Layer Model_Types Model_Msgpack Model_Document Model_Codec Model_JUnits Model_JStream Model_JCodec Model_JEncode
  Spec_Layer Spec_Types Spec_Msgpack Spec_Document Spec_Codec Spec_JUnits Spec_JCodec Spec_JEncode Spec_Through Proof_Codec6 Proof_Layer4 Proof_Through2 Proof_Through5 Proof_Through6 Prop_Document Prop_Codec Prop_JCodec.
Local Open Scope Z_scope.

(** Python writes, Java reads, its maps are in any order, Java writes, Python reads. *)
Theorem C110_back : forall h d ex tv h1 bytes rest, doc_ok h d -> msgpack_encode h d ex tv = (h1, Ok bytes) -> java_readable h d -> zlen bytes < 2147483648 ->
  exists j, java_decode (bytes ++ rest) = Ok j /\ forall k bytes' rest' h0, doc_reordered j k -> java_encode k = Ok bytes' -> wf h0 ->
    exists h2 d2, msgpack_decode h0 (bytes' ++ rest') = (h2, Ok d2) /\ same_content h d h2 d2 /\ wf h2 /\ untouched h0 h2.
Proof. exact there_and_back. Qed.
Print Assumptions C110_back.

(** Java writes it whatever the order, with as many bytes, unless a text is empty. *)
Theorem C110_written : forall h d ex tv h1 bytes rest, doc_ok h d -> msgpack_encode h d ex tv = (h1, Ok bytes) -> java_readable h d -> zlen bytes < 2147483648 -> (forall c x, In (c, x) (d_texts d) -> x <> []) ->
  exists j, java_decode (bytes ++ rest) = Ok j /\ java_encode j = Ok bytes /\ forall k, doc_reordered j k -> exists bytes', java_encode k = Ok bytes' /\ zlen bytes' = zlen bytes.
Proof. exact always_written. Qed.
Print Assumptions C110_written.

(** Documents of the Java port in any order: the order does not decide whether they are written, nor how long the bytes are. *)
Theorem C110_any_order : forall j k bytes, jdoc_ok j -> doc_reordered j k -> java_encode j = Ok bytes -> exists bytes', java_encode k = Ok bytes' /\ zlen bytes' = zlen bytes.
Proof. exact reorder_writes. Qed.
Print Assumptions C110_any_order.

(** The sample document, with the maps of Java sorted: the layers and their fields come back in another order. *)
Definition swap_fields (kl : pystr * (dict jdtype * list (dict jv))) : pystr * (dict jdtype * list (dict jv)) := (fst kl, (rev (fst (snd kl)), snd (snd kl))).
Definition swap_layers (j : jdoc) : jdoc := mkJDoc (jd_props j) (jd_texts j) (map swap_fields (rev (jd_layers j))).
Lemma type_reordered_refl t : type_reordered t t.
Proof. split; [reflexivity|apply Permutation_refl]. Qed.
Lemma swap_layer kl : again layer_reordered kl (swap_fields kl).
Proof.
  split; [reflexivity|]. split; cbn [swap_fields fst snd].
  - exists (rev (fst (snd kl))). split; [apply Permutation_rev|]. generalize (rev (fst (snd kl))). intros l. induction l; constructor; [|assumption]. split; [reflexivity|apply type_reordered_refl].
  - generalize (snd (snd kl)). intros l. induction l; constructor; auto.
Qed.
Lemma swap_all l : Forall2 (again layer_reordered) l (map swap_fields l).
Proof. induction l; constructor; [apply swap_layer|assumption]. Qed.
Lemma swap_reordered j : doc_reordered j (swap_layers j).
Proof.
  split; [apply Permutation_refl|apply Permutation_refl|]. exists (rev (jd_layers j)). split; [apply Permutation_rev|]. cbn [swap_layers jd_layers]. apply swap_all.
Qed.
Example C110_case : doc_ok doc_heap sample_doc /\ java_readable doc_heap sample_doc /\ (forall j, doc_reordered j (swap_layers j)) /\ match msgpack_encode doc_heap sample_doc false true with
  | (_, Ok bytes) => zlen bytes = 220 /\ match java_decode bytes with
      | Ok j => java_encode j = Ok bytes /\ match java_encode (swap_layers j) with
          | Ok bytes' => zlen bytes' = 220 /\ bytes' <> bytes /\ match msgpack_decode empty_heap bytes' with
              | (h2, Ok d2) => d_texts d2 = d_texts sample_doc /\ dkeys (d_layers d2) = [s "phrase"; s "token"] /\
                  map (fun l => dkeys (l_fields (h_layer h2 (snd l)))) (d_layers d2) = [[s "score"; s "args"; s "words"]; [s "head"; s "pos"; s "text"]] /\
                  n_fieldsof h2 0%nat = [(s "score", VInt 7); (s "args", VNodeList [Some 2; Some 1]%nat); (s "words", VNodeSpan 1%nat 2%nat)]
              | _ => False
              end
          | Err _ => False
          end
      | Err _ => False
      end
  | _ => False
  end.
Proof.
  split; [apply dv_ok, sample_valid|]. split; [exact sample_readable|]. split; [exact swap_reordered|]. vm_compute. split; [reflexivity|]. split; [reflexivity|]. split; [reflexivity|]. split; [discriminate|]. repeat split.
Qed.

(** With an empty text, Java writes the text as one empty part, which Python writes as no part at all: one byte more. *)
Definition empty_text_doc : doc := mkDoc (MMap []) [(s "main", [])] [].
Theorem C110_same_bytes_refuted : exists bytes bytes' j, doc_ok empty_heap empty_text_doc /\ java_readable empty_heap empty_text_doc /\ msgpack_encode empty_heap empty_text_doc false true = (empty_heap, Ok bytes) /\
  java_decode bytes = Ok j /\ java_encode j = Ok bytes' /\ zlen bytes' = zlen bytes + 1.
Proof.
  eexists _, _, _. split; [|split; [|split; [vm_compute; reflexivity|split; [vm_compute; reflexivity|split; [vm_compute; reflexivity|vm_compute; reflexivity]]]]].
  - split; [exact wf_empty|intros k l []|repeat constructor; simpl; tauto|constructor|constructor; repeat constructor; simpl; tauto|intros k f t (l & [] & _)|intros k l n f v t [[] _]].
  - split; [exists []; split; [reflexivity|intros k o []]|intros k f t o v (l & [] & _)|intros k l []|intros k l n f t i [[] _]|intros k l n f t i [[] _]|intros k l n f t x [[] _]].
Qed.
Print Assumptions C110_same_bytes_refuted.
