(** C108: what MsgpackCodec.debug prints.  C109: layers as data frames. *)
From Verif Require Import PyBase Model_Text Model_Heap Model_Layer Model_Types Model_Msgpack Model_Document Model_Codec Model_Coerce Model_Debug
  Spec_Layer Spec_History Spec_Document Spec_Codec Spec_Cut Spec_Debug Proof_Debug Proof_Debug2 Proof_Pandas Proof_Layer4 Prop_Document Prop_Codec.
Local Open Scope Z_scope.

(** Of the bytes of a document (whatever follows them) it prints all of the encoded document, in order, with the sizes of its sections, and does not raise. *)
Theorem C108_shown : forall h d ex tv h1 bs, doc_ok h d -> msgpack_encode h d ex tv = (h1, Ok bs) ->
  exists e n ns, codec_encode h d ex tv = (h1, Ok e) /\ sizes_of e n ns /\ forall rest, debug (bs ++ rest) = (shown e n ns, Ok tt).
Proof. exact debug_shows. Qed.
Print Assumptions C108_shown.
(** Nothing is left out: two documents of which the same is printed have the same bytes. *)
Theorem C108_tells : forall h d ex tv h1 bs h' d' ex' tv' h1' bs' rest rest', doc_ok h d -> doc_ok h' d' -> msgpack_encode h d ex tv = (h1, Ok bs) -> msgpack_encode h' d' ex' tv' = (h1', Ok bs') ->
  debug (bs ++ rest) = debug (bs' ++ rest') -> bs = bs'.
Proof. exact debug_tells. Qed.
Print Assumptions C108_tells.
(** Of bytes that are cut short (after the magic) it prints a beginning of what it prints of all of them, and raises for want of bytes. *)
Theorem C108_cut : forall bs k out, (4 <= k)%nat -> debug bs = (out, Ok tt) -> debug (firstn k bs) = (out, Ok tt) \/ exists out' e, debug (firstn k bs) = (out', Err e) /\ want e /\ begins out' out.
Proof. exact debug_cut. Qed.
Print Assumptions C108_cut.
(** Whatever the bytes, sizes and numbers of nodes are shown only if they are numbers. *)
Theorem C108_numbers : forall bs l, In l (fst (debug bs)) -> counts l -> exists a, ln_args l = [a] /\ number a.
Proof. exact debug_numbers. Qed.
Print Assumptions C108_numbers.
(** It should refuse bytes that are no document; the magic is printed, not checked. *)
Theorem C108_magic_refuted : exists bs out h, debug bs = (out, Ok tt) /\ msgpack_decode h bs = (h, Err ValueError).
Proof. exists ([1; 2; 3; 4; 0; 128; 144; 0; 128]%N). eexists. exists empty_heap. vm_compute. split; reflexivity. Qed.
Print Assumptions C108_magic_refuted.

Definition sample_bytes : list N := match msgpack_encode doc_heap sample_doc false true with (_, Ok b) => b | _ => [] end.
Example C108_case : doc_ok doc_heap sample_doc /\ length sample_bytes = 220%nat /\ length (fst (debug sample_bytes)) = 43%nat /\ snd (debug (firstn 219 sample_bytes)) = Err StopIteration /\
  nth_error (fst (debug sample_bytes)) 8 = Some (mkLine (s "  - %s = %s") [MStr (s "text"); MMap [(s "type", MStr (s "span")); (s "args", MMap [(s "context", MStr (s "main"))])]]) /\
  nth_error (fst (debug sample_bytes)) 42 = Some (mkLine (s " ==> %s") [MArr [MInt 7]]).
Proof. split; [exact (dv_ok _ _ sample_valid)|]. vm_compute. repeat split. Qed.
Example C108_numbers_case : length (filter (fun l => str_eqb (ln_format l) (s " * Num nodes: %d")) (fst (debug sample_bytes))) = 2%nat /\
  debug [68; 77; 95; 49; 0; 128; 144; 161; 49; 128]%N = (firstn 8 (fst (debug [68; 77; 95; 49; 0; 128; 144; 161; 49; 128]%N)), Err TypeError).
Proof. vm_compute. split; reflexivity. Qed.

(** The frame has the requested columns and __ref, and nothing else; __ref has the nodes in order; every other column has one cell for each node in order: None if the field
    is absent, the text of a span if asked for, and the value otherwise. *)
Theorem C109_cells : forall h l fields m inc fr, NoDup (dkeys (l_fields (h_layer h l))) -> to_pandas h l fields m inc = Ok fr ->
  let fs := match fields with None => dkeys (l_fields (h_layer h l)) | Some q => q end in
  (forall f, dmem fr f = true <-> In f fs \/ inc = true /\ f = s "__ref") /\
  (inc = true -> dget fr (s "__ref") = Some (map VNode (content h l))) /\
  (forall f, In f fs -> (inc = true -> f <> s "__ref") -> exists t col, dget (l_fields (h_layer h l)) f = Some t /\ dget fr f = Some col /\ length col = length (content h l) /\
     forall k n v, nth_error (content h l) k = Some n -> nth_error col k = Some v ->
       (m = true -> dt_name t = TSpan -> match dget (n_fieldsof h n) f with None | Some (VSpan _ _ _ _) => True | _ => False end) -> cell_of m (dt_name t) (dget (n_fieldsof h n) f) v).
Proof. exact frame_cells. Qed.
Print Assumptions C109_cells.
(** The columns are in the order of the fields, __ref last. *)
Theorem C109_order : forall h l fields m inc fr, NoDup (dkeys (l_fields (h_layer h l))) -> to_pandas h l fields m inc = Ok fr ->
  let fs := match fields with None => dkeys (l_fields (h_layer h l)) | Some q => q end in
  NoDup fs -> ~ In (s "__ref") fs -> dkeys fr = fs ++ (if inc then [s "__ref"] else []).
Proof. exact frame_order. Qed.
Print Assumptions C109_order.
(** It works exactly if all requested fields are declared, and raises KeyError otherwise (if spans are to be shown as text: for layers whose span fields hold spans). *)
Theorem C109_made : forall h l fields m inc, NoDup (dkeys (l_fields (h_layer h l))) ->
  (m = false \/ forall n f t, In n (content h l) -> dget (l_fields (h_layer h l)) f = Some t -> dt_name t = TSpan -> match dget (n_fieldsof h n) f with None | Some (VSpan _ _ _ _) => True | _ => False end) ->
  let fs := match fields with None => dkeys (l_fields (h_layer h l)) | Some q => q end in
  ((exists fr, to_pandas h l fields m inc = Ok fr) <-> forall f, In f fs -> In f (dkeys (l_fields (h_layer h l)))) /\
  (forall e, to_pandas h l fields m inc = Err e -> e = KeyError).
Proof. exact frame_made. Qed.
Print Assumptions C109_made.

Definition pandas_heap : heap := exec_all Z.leb empty_heap
  [OLayer (s "token") [(s "text", T_span (s "main")); (s "__ref", T_string VNone)];
   OAdd 0%nat [(s "text", VSpan (s "main") (s "one two") 0 3); (s "__ref", VStr (s "N"))];
   OAdd 0%nat [(s "__ref", VStr (s "A"))];
   OAdd 0%nat [(s "__ref", VStr (s "V"))];
   ORemove 0%nat 2%nat;
   OSetField 1%nat (s "text") VNone].
(** Every requested field should be a column with its values; a field called __ref is replaced by the nodes. *)
Theorem C109_ref_refuted : exists h l fr n x, wf h /\ to_pandas h l None false true = Ok fr /\ hd_error (content h l) = Some n /\ dget (n_fieldsof h n) (s "__ref") = Some (VStr x) /\ dget fr (s "__ref") = Some (map VNode (content h l)).
Proof. exists pandas_heap, 0%nat. eexists. exists 0%nat, (s "N"). split; [apply ops_ok_wf, ops_okb_sound; vm_compute; reflexivity|]. vm_compute. repeat split. Qed.
Print Assumptions C109_ref_refuted.
(** A span field that is None should be None among the texts; it is the word None. *)
Theorem C109_none_refuted : exists h l fr n k, wf h /\ to_pandas h l None true false = Ok fr /\ nth_error (content h l) k = Some n /\ dget (n_fieldsof h n) (s "text") = Some VNone /\
  match dget fr (s "text") with Some col => nth_error col k | None => None end = Some (VStr (s "None")).
Proof. exists pandas_heap, 0%nat. eexists. exists 1%nat, 1%nat. split; [apply ops_ok_wf, ops_okb_sound; vm_compute; reflexivity|]. split; [vm_compute; reflexivity|]. vm_compute. repeat split. Qed.
Print Assumptions C109_none_refuted.
Example C109_case : wf doc_heap /\ content doc_heap 0%nat = [0; 2]%nat /\
  to_pandas doc_heap 0%nat None true true = Ok [(s "text", [VStr (s "one"); VStr (s "two")]); (s "pos", [VStr (s "N"); VNone]); (s "head", [VNone; VNode 0%nat]); (s "__ref", [VNode 0%nat; VNode 2%nat])] /\
  to_pandas doc_heap 0%nat (Some [s "pos"; s "text"]) false false = Ok [(s "pos", [VStr (s "N"); VNone]); (s "text", [VSpan (s "main") (s "one two") 0 3; VSpan (s "main") (s "one two") 4 7])] /\
  to_pandas doc_heap 0%nat (Some [s "pos"; s "lemma"]) false true = Err KeyError.
Proof. split; [exact doc_heap_wf|]. vm_compute. repeat split. Qed.
