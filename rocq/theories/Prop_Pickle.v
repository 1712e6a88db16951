(** Property C74: pickled and copied documents. *)
From Verif Require Import PyBase PyBaseFacts Model_Text Model_Heap Model_Layer Model_Types Model_Msgpack Model_Document Model_Codec Model_Pickle
  Spec_Layer Spec_History Spec_Document Spec_Codec Spec_Program Spec_Local Proof_Local Proof_Local2 Prop_Document Prop_Codec Prop_Local.
Local Open Scope Z_scope.

(** C74: when the state of a document can be taken, the copy has the same properties, texts, layers, fields and nodes; taking the
    state did not change what the original looks like, and all layers and nodes of the copy are new. *)
Theorem C74_copy : forall h d h1 b, doc_ok h d -> doc_getstate h d = (h1, Ok b) ->
  exists h2 d', doc_copy h d = (h2, Ok d') /\ same_doc h d h2 d' /\ looks_same h h1 /\ untouched h1 h2 /\ wf h2 /\ known h2 d' /\ known h2 d /\
    (forall l, doc_layer d' l -> (h_lnext h <= l)%nat) /\ (forall n, doc_part h2 d' n -> (h_nnext h <= n)%nat).
Proof. exact copy_spec. Qed.
Print Assumptions C74_copy.
(** The state unpickles in any other process. *)
Theorem C74_elsewhere : forall h d h1 b h0, doc_ok h d -> doc_getstate h d = (h1, Ok b) -> wf h0 ->
  exists h2 d', doc_setstate h0 b = (h2, Ok d') /\ same_doc h d h2 d' /\ wf h2 /\ untouched h0 h2.
Proof.
  intros h d h1 b h0 D E W. destruct (C25_round_trip h d false true h1 b [] h0 D E W) as (h2 & d' & A & R). rewrite app_nil_r in A.
  exists h2, d'. split; [|exact R]. exact (eq_trans (setstate_decode h0 b) A).
Qed.
Print Assumptions C74_elsewhere.
(** No program on the copy changes the original, none on the original the copy. *)
Theorem C74_independent : forall K (leb : K -> K -> bool) h d h1 b h2 d' os, doc_ok h d -> doc_getstate h d = (h1, Ok b) -> doc_copy h d = (h2, Ok d') ->
  (Forall (apart h2 d) os -> doc_same h2 (fst (drun_all leb h2 d' os)) d) /\
  (Forall (apart h2 d') os -> doc_same h2 (fst (drun_all leb h2 d os)) d').
Proof. exact @copy_apart. Qed.
Print Assumptions C74_independent.
(** The copy pickles to the same bytes. *)
Theorem C74_again : forall h d h1 b h2 d', doc_ok h d -> doc_getstate h d = (h1, Ok b) -> doc_copy h d = (h2, Ok d') ->
  exists h3, doc_getstate h2 d' = (h3, Ok b).
Proof. exact copy_again. Qed.
Print Assumptions C74_again.
(** A document that encode refuses is not copied: the same exception, and the document looks the same. *)
Theorem C74_refused : forall h d h1 e, wf h -> known h d -> doc_getstate h d = (h1, Err e) -> doc_copy h d = (h1, Err e) /\ looks_same h h1.
Proof. exact copy_error. Qed.
Print Assumptions C74_refused.

Definition copied_heap : heap := fst (doc_copy doc_heap sample_doc).
Definition copied_doc : doc := match snd (doc_copy doc_heap sample_doc) with Ok d => d | Err _ => empty_doc end.
(** empty the first layer of the copy, change a field of a copied node, rename its second layer away *)
Definition copy_program : list (dop (K:=Z)) :=
  [DCall (OSetField (h_nnext doc_heap) (s "pos") (VStr (s "X"))); DCall (ORemove (h_lnext doc_heap) (h_nnext doc_heap)); DRemoveLayer (s "phrase") false].
Example C74_case : doc_ok doc_heap sample_doc /\ (exists h1 b, doc_getstate doc_heap sample_doc = (h1, Ok b)) /\
  doc_copy doc_heap sample_doc = (copied_heap, Ok copied_doc) /\ Forall (apart copied_heap sample_doc) copy_program /\
  match drun_all Z.leb copied_heap copied_doc copy_program with
  | (h, d) => dkeys (d_layers d) = [s "token"] /\ content h (h_lnext doc_heap) = [S (h_nnext doc_heap)] /\ content h 0%nat = [0; 2]%nat /\
      dget (n_fieldsof h (h_nnext doc_heap)) (s "pos") = Some (VStr (s "X")) /\ dget (n_fieldsof h 0%nat) (s "pos") = Some (VStr (s "N"))
  end.
Proof.
  split; [exact (dv_ok _ _ sample_valid)|]. split; [vm_compute; do 2 eexists; reflexivity|]. split; [vm_compute; reflexivity|]. split.
  - unfold copy_program. apart_all.
  - vm_compute. auto 10.
Qed.
