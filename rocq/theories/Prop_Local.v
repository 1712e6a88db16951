(** Property C73: calls touch only the objects they are given. *)
From Verif Require Import PyBase PyBaseFacts Model_Text Model_Heap Model_Layer Model_Types Model_Msgpack Model_Document Model_Codec
  Spec_Layer Spec_History Spec_Document Spec_Codec Spec_Program Spec_Local Proof_Local Proof_Local2 Prop_Document Prop_Codec.
Local Open Scope Z_scope.

(** C73: take any part of the objects that is closed (its layers hold its nodes and its nodes are in its layers).
    However many calls on it, whether they return or raise, leave every other layer and node as it was. *)
Theorem C73_calls : forall K (leb : K -> K -> bool) a h os, closed_area a h -> Forall (within a) os ->
  closed_area a (exec_all leb h os) /\ rest_same a h (exec_all leb h os).
Proof. exact (fun K leb a => @calls_local a K leb). Qed.
Print Assumptions C73_calls.
(** The same for programs on a document: add_text, add_layer, remove_layer, encode and the calls. *)
Theorem C73_programs : forall K (leb : K -> K -> bool) a h d os, closed_area a h -> (forall l, doc_layer d l -> a_layer a l) -> Forall (dwithin a) os ->
  rest_same a h (fst (drun_all leb h d os)).
Proof. exact @programs_local. Qed.
Print Assumptions C73_programs.
(** So no program on one document changes another, as long as it is given no layer and no node of the other. *)
Theorem C73_documents : forall K (leb : K -> K -> bool) h d1 d2 os, wf h -> known h d2 -> (forall l, doc_layer d1 l -> ~ doc_layer d2 l) ->
  Forall (apart h d2) os -> doc_same h (fst (drun_all leb h d1 os)) d2.
Proof. exact @documents_apart. Qed.
Print Assumptions C73_documents.

(** A program that fails twice (remove of a node that is not there, a second main text), and refers to a node of the sample document. *)
Definition other_program : list (dop (K:=Z)) :=
  [DMain (s "x"); DMain (s "y"); DLayer (s "a") [(s "r", T_noderef (s "token"))];
   DCall (OAdd (h_lnext doc_heap) [(s "r", VNode 0%nat)]); DCall (ONode []); DCall (OAddNodes (h_lnext doc_heap) [Some (S (h_nnext doc_heap))]);
   DCall (ORemove (h_lnext doc_heap) (h_nnext doc_heap)); DCall (ORemove (h_lnext doc_heap) (h_nnext doc_heap)); DEncode false true].
Ltac not_part := intros (l & [k Hk] & E); vm_compute in E; first [discriminate E|injection E as <-; vm_compute in Hk; repeat (destruct Hk as [Hk|Hk]; [discriminate Hk|]); destruct Hk].
Ltac not_layer := intros [k Hk]; vm_compute in Hk; repeat (destruct Hk as [Hk|Hk]; [discriminate Hk|]); destruct Hk.
Ltac apart_step := cbn [apart]; first [exact I|split; intros x Hx; cbn [call_layers call_nodes live In] in Hx; repeat (destruct Hx as [<-|Hx]; [first [solve [not_part]|solve [not_layer]]|]); destruct Hx].
Ltac apart_all := repeat (apply Forall_cons; [apart_step|]); apply Forall_nil.
Lemma sample_apart : Forall (apart doc_heap sample_doc) other_program.
Proof. unfold other_program. apart_all. Qed.
Example C73_case : wf doc_heap /\ known doc_heap sample_doc /\ (forall l, doc_layer empty_doc l -> ~ doc_layer sample_doc l) /\
  Forall (apart doc_heap sample_doc) other_program /\
  match drun_all Z.leb doc_heap empty_doc other_program with
  | (h, d) => dkeys (d_layers d) = [s "a"] /\ content h (h_lnext doc_heap) = [S (h_nnext doc_heap)] /\ h_nnext h = S (S (h_nnext doc_heap))
  end.
Proof.
  split; [exact (do_wf _ _ (dv_ok _ _ sample_valid))|]. split; [exact (do_known _ _ (dv_ok _ _ sample_valid))|]. split; [intros l [k []]|].
  split; [exact sample_apart|]. vm_compute. auto.
Qed.
(** The condition on given nodes is needed: a node of the sample document added to a layer of another document leaves the
    sample document's layer with a slot whose node is elsewhere. *)
Theorem C73_given_refuted : exists (os : list (dop (K:=Z))), (forall o, In o os -> match o with DCall c => forall l, In l (call_layers c) -> ~ doc_layer sample_doc l | _ => True end) /\
  let h := fst (drun_all Z.leb doc_heap empty_doc os) in
  content h 0%nat = content doc_heap 0%nat /\ In 0%nat (content h 0%nat) /\ layer_contains doc_heap 0%nat 0%nat = true /\ layer_contains h 0%nat 0%nat = false.
Proof.
  exists [DLayer (s "a") []; DCall (OAddNodes (h_lnext doc_heap) [Some 0%nat])]. split.
  - intros o [<-|[<-|[]]]; [exact I|]; cbn [call_layers In]. intros l [<-|[]] [k Hk]. vm_compute in Hk. repeat (destruct Hk as [Hk|Hk]; [discriminate Hk|]); destruct Hk.
  - vm_compute. auto.
Qed.
Print Assumptions C73_given_refuted.
