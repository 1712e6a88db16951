(** Property C71: programs that build and change one document. *)
From Verif Require Import PyBase PyBaseFacts Model_Text Model_Heap Model_Layer Model_Types Model_Msgpack Model_Document Model_Codec
  Spec_Layer Spec_History Spec_Types Spec_Msgpack Spec_Document Spec_Codec Spec_Program
  Proof_Layer4 Proof_Types Proof_Document Proof_Program Proof_Codec5 Proof_Codec6 Prop_Document Prop_Codec.
Local Open Scope Z_scope.

(** C71: a document that any program made from nothing with the public calls, and that encode accepts with
    its checks on, is a valid document. *)
Theorem C71_valid : forall K (leb : K -> K -> bool) h d h1 bytes, made leb h d -> settled h d ->
  msgpack_encode h d false true = (h1, Ok bytes) -> doc_valid h d.
Proof. intros K leb h d h1 b M. exact (encoded_valid h d h1 b (made_inv leb h d M)). Qed.
Print Assumptions C71_valid.
(** So its bytes decode to the same document, in any program. *)
Theorem C71_round_trip : forall K (leb : K -> K -> bool) h d h1 bytes rest h0, made leb h d -> settled h d ->
  msgpack_encode h d false true = (h1, Ok bytes) -> wf h0 ->
  exists h2 d', msgpack_decode h0 (bytes ++ rest) = (h2, Ok d') /\ same_doc h d h2 d' /\ wf h2 /\ untouched h0 h2.
Proof.
  intros K leb h d h1 b rest h0 M St E W. exact (C25_round_trip h d false true h1 b rest h0 (dv_ok _ _ (C71_valid K leb h d h1 b M St E)) E W).
Qed.
Print Assumptions C71_round_trip.
(** The checks find every wrong value but the two kinds in [settled]: nothing about references has to be assumed. *)
Theorem C71_references : forall K (leb : K -> K -> bool) h d h1 bytes, made leb h d -> settled h d ->
  msgpack_encode h d false true = (h1, Ok bytes) ->
  forall k l n f t m x, doc_node h d k l n -> dget (l_fields (h_layer h l)) f = Some t -> dget (n_fieldsof h n) f = Some (VNode m) ->
  targets_layer t x -> own_node h d x m.
Proof.
  intros K leb h d h1 b M St E k l n f t m x Hn Ht Hv [_ Tx].
  pose proof (do_values _ _ (dv_ok _ _ (C71_valid K leb h d h1 b M St E)) k l n f _ t Hn Hv Ht) as V.
  inversion V; subst. match goal with H : targets_layer t ?y |- _ => destruct H as [_ Ty] end. congruence.
Qed.
Print Assumptions C71_references.
(** In every reachable state the fields of a node are a dictionary (a hypothesis of C18). *)
Theorem C71_dictionaries : forall K (leb : K -> K -> bool) h, reachable leb h -> wf_keys h.
Proof. exact @reachable_keys. Qed.
Print Assumptions C71_dictionaries.

(** The sample document is made by this program, which also encodes half way and fails once (the second maintext). *)
Definition sample_program : list (dop (K:=Z)) :=
  [DMain (s "one two"); DMain (s "again"); DProps (MMap [(s "id", MInt 1)]);
   DLayer (s "token") [(s "text", T_span (s "main")); (s "pos", T_string VNone); (s "head", T_noderef (s "token"))];
   DLayer (s "phrase") [(s "words", T_nodespan (s "token")); (s "args", T_noderef_many (s "token")); (s "score", T_int32 (VInt 7))];
   DLayer (s "spare") [];
   DCall (OAdd 0%nat [(s "text", VSpan (s "main") (s "one two") 0 3); (s "pos", VStr (s "N"))]);
   DCall (OAdd 0%nat []);
   DCall (OAdd 0%nat [(s "text", VSpan (s "main") (s "one two") 4 7); (s "head", VNode 0%nat)]);
   DEncode false true;
   DCall (OAdd 1%nat [(s "words", VNodeSpan 0%nat 2%nat); (s "args", VNodeList [Some 2%nat; Some 0%nat])]);
   DRemoveLayer (s "spare") false;
   DCall (ORemove 0%nat 1%nat)].
Definition program_end {K} (leb : K -> K -> bool) (os : list (dop (K:=K))) : heap * doc :=
  fold_left (fun hd o => drun leb (fst hd) (snd hd) o) os (empty_heap, empty_doc).
Definition made_heap : heap := fst (program_end Z.leb sample_program).
Definition made_doc : doc := snd (program_end Z.leb sample_program).
Lemma plain_sample (fs : dict dtype) f t : In (f, t) fs ->
  incl (map snd fs) [T_span (s "main"); T_string VNone; T_noderef (s "token"); T_nodespan (s "token"); T_noderef_many (s "token"); T_int32 (VInt 7)] -> plain t.
Proof.
  intros H Hi. apply (in_map snd) in H. apply Hi in H. simpl in H.
  repeat (destruct H as [<-|H]; [split; [discriminate|]; split; [discriminate|]; split;
    [first [exists (s "token"); vm_compute; solve [auto] | exists (s "main"); vm_compute; solve [auto]]|]; split;
    [vm_compute; repeat constructor; simpl; tauto|vm_compute; intros o v Hov; repeat (destruct Hov as [[= <- <-]|Hov]; [constructor|]); destruct Hov]|]). destruct H.
Qed.
Ltac layer_step := split; [repeat constructor; simpl; intuition discriminate|]; split;
  [intros f t Hf; apply (plain_sample _ f t Hf); intros x; simpl; tauto|
   intros l Hl; vm_compute in Hl; repeat first [exfalso; lia|destruct l as [|l]; [first [exfalso; lia|vm_compute; discriminate]|]]].
Ltac call_step := split; [cbn [op_ok]; repeat split; first [apply Nat.ltb_lt; vm_compute; reflexivity|repeat constructor; simpl; intuition discriminate]|]; split; [discriminate|]; split;
  [intros k v Hv; cbn [given] in Hv; repeat (destruct Hv as [[= <- <-]|Hv]; [vm_compute; repeat split; try discriminate|]); destruct Hv|intros k t []].
Ltac next_step tac := eapply prog_cons; [cbn [dop_ok]; tac|vm_compute; reflexivity|].
Lemma sample_made : made Z.leb made_heap made_doc.
Proof.
  exists sample_program. unfold sample_program.
  next_step ltac:(exact I). next_step ltac:(exact I). next_step ltac:(constructor; repeat constructor; simpl; tauto).
  next_step layer_step. next_step layer_step. next_step layer_step.
  next_step call_step. next_step call_step. next_step call_step. next_step ltac:(exact I). next_step call_step.
  next_step ltac:(exact I). next_step call_step.
  match goal with |- prog _ ?h ?d _ _ _ => assert (E1 : made_heap = h) by (vm_compute; reflexivity); assert (E2 : made_doc = d) by (vm_compute; reflexivity) end.
  rewrite E1, E2. constructor.
Qed.
Ltac settle := intros k l n f t v [Hin Hn] Ht Hv; vm_compute in Hin;
  repeat (destruct Hin as [[= <- <-]|Hin]; [vm_compute in Hn; repeat (destruct Hn as [[= <-]|Hn]; [
    apply dget_In in Hv; vm_compute in Hv; repeat (destruct Hv as [[= <- <-]|Hv]; [vm_compute in Ht; injection Ht as <-; split; [intros X; first [discriminate X|intros m; discriminate]|discriminate]|]); destruct Hv|]); destruct Hn|]); destruct Hin.
Lemma sample_settled : settled made_heap made_doc.
Proof. settle. Qed.
Example C71_case : made Z.leb made_heap made_doc /\ settled made_heap made_doc /\
  (exists h1 b, msgpack_encode made_heap made_doc false true = (h1, Ok b) /\ length b = 220%nat) /\ made_doc = sample_doc.
Proof. split; [exact sample_made|]. split; [exact sample_settled|]. split; [vm_compute; do 2 eexists; split; reflexivity|vm_compute; reflexivity]. Qed.

(** A name must not be used for a second layer after the first was removed: the reference to the removed layer's
    node is accepted and written, and the bytes do not decode.  Without the condition of [DLayer] the theorem is false. *)
Definition reuse_program : list (dop (K:=Z)) :=
  [DLayer (s "a") []; DLayer (s "b") [(s "r", T_noderef (s "a"))]; DCall (OAdd 0%nat []); DCall (OAdd 1%nat [(s "r", VNode 0%nat)]);
   DRemoveLayer (s "a") true; DLayer (s "a") []].
Theorem C71_reused_name_refuted : exists h d b, program_end Z.leb reuse_program = (h, d) /\ settled h d /\
  snd (msgpack_encode h d false true) = Ok b /\ snd (msgpack_decode empty_heap b) = Err IndexError.
Proof.
  exists (fst (program_end Z.leb reuse_program)), (snd (program_end Z.leb reuse_program)),
    (match snd (msgpack_encode (fst (program_end Z.leb reuse_program)) (snd (program_end Z.leb reuse_program)) false true) with Ok b => b | Err _ => [] end).
  split; [apply surjective_pairing|]. split; [settle|]. vm_compute. auto.
Qed.
Print Assumptions C71_reused_name_refuted.
(** ... and a span must lie in a text of the document: a text set twice leaves spans of the old string behind. *)
Definition retext_program : list (dop (K:=Z)) :=
  [DMain (s "one two"); DLayer (s "a") [(s "text", T_span (s "main"))]; DCall (OAdd 0%nat [(s "text", VSpan (s "main") (s "one two") 4 7)]);
   DText (s "main") (s "one")].
Theorem C71_new_text_refuted : exists h d b, program_end Z.leb retext_program = (h, d) /\ settled h d /\
  snd (msgpack_encode h d false true) = Ok b /\ n_fieldsof h 0%nat = [(s "text", VSpan (s "main") (s "one two") 4 7)] /\
  n_fieldsof (fst (msgpack_decode empty_heap b)) 0%nat = [(s "text", VSpan (s "main") (s "one") 3 3)].
Proof.
  exists (fst (program_end Z.leb retext_program)), (snd (program_end Z.leb retext_program)),
    (match snd (msgpack_encode (fst (program_end Z.leb retext_program)) (snd (program_end Z.leb retext_program)) false true) with Ok b => b | Err _ => [] end).
  split; [apply surjective_pairing|]. split; [settle|]. vm_compute. auto.
Qed.
Print Assumptions C71_new_text_refuted.
