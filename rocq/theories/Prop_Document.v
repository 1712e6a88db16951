(** Properties C22, C23 and C27: compiling a document, removing a layer. *)
From Verif Require Import PyBase PyBaseFacts Model_Text Model_Heap Model_Layer Model_Types Model_Msgpack Model_Document Model_Codec
  Spec_Layer Spec_History Spec_Types Spec_Document Proof_Layer4 Proof_Types Proof_Document.
Local Open Scope Z_scope.

(** Sample: two layers, spans, references in both directions, a gap in the first layer. *)
Definition doc_heap : heap := exec_all Z.leb empty_heap
  [OLayer (s "token") [(s "text", T_span (s "main")); (s "pos", T_string VNone); (s "head", T_noderef (s "token"))];
   OLayer (s "phrase") [(s "words", T_nodespan (s "token")); (s "args", T_noderef_many (s "token")); (s "score", T_int32 (VInt 7))];
   OAdd 0%nat [(s "text", VSpan (s "main") (s "one two") 0 3); (s "pos", VStr (s "N"))];
   OAdd 0%nat [];
   OAdd 0%nat [(s "text", VSpan (s "main") (s "one two") 4 7); (s "head", VNode 0%nat)];
   OAdd 1%nat [(s "words", VNodeSpan 0%nat 2%nat); (s "args", VNodeList [Some 2%nat; Some 0%nat])];
   ORemove 0%nat 1%nat].
Definition sample_doc : doc := mkDoc (MMap [(s "id", MInt 1)]) [(s "main", s "one two")] [(s "token", 0%nat); (s "phrase", 1%nat)].
Lemma doc_heap_wf : wf doc_heap.
Proof. apply ops_ok_wf, ops_okb_sound. vm_compute. reflexivity. Qed.
Lemma sample_known : known doc_heap sample_doc.
Proof. intros k l [[= <- <-]|[[= <- <-]|[]]]; vm_compute; auto. Qed.
Lemma sample_options : forall k f t, declared doc_heap sample_doc k f t -> option_ok t.
Proof.
  intros k f t (l & [[= <- <-]|[[= <- <-]|[]]] & Hf); vm_compute in Hf;
  repeat (destruct Hf as [[= <- <-]|Hf]; [split; vm_compute; intros H; try discriminate; try (exfalso; intuition discriminate); eexists; reflexivity|]); destruct Hf.
Qed.
Example sample_encodes : exists h1 b, msgpack_encode doc_heap sample_doc false true = (h1, Ok b) /\ length b = 220%nat.
Proof. vm_compute. do 2 eexists. split; reflexivity. Qed.

(** C27 *)
Theorem C27_encode_keeps : forall h d e t h1 r, wf h -> known h d -> msgpack_encode h d e t = (h1, r) ->
  wf h1 /\ looks_same h h1 /\
  (forall x k l p n, r = Ok x -> In (k, l) (d_layers d) -> nth_error (layer_iter h1 l) p = Some (Some n) -> node_i h1 n = Ok (Z.of_nat p)).
Proof. exact encode_keeps. Qed.
Print Assumptions C27_encode_keeps.
Theorem C27_compile_keeps : forall h d e t h1 r, wf h -> known h d -> compile h d e t = (h1, r) ->
  wf h1 /\ looks_same h h1 /\
  (forall x k l p n, r = Ok x -> In (k, l) (d_layers d) -> nth_error (layer_iter h1 l) p = Some (Some n) -> node_i h1 n = Ok (Z.of_nat p)).
Proof. exact compile_keeps. Qed.
Print Assumptions C27_compile_keeps.
(** the third node had number 2 because of the gap; encoding makes it 1 *)
Example C27_case : wf doc_heap /\ known doc_heap sample_doc /\ node_i doc_heap 2%nat = Ok 2 /\
  node_i (fst (msgpack_encode doc_heap sample_doc false true)) 2%nat = Ok 1.
Proof. split; [exact doc_heap_wf|]. split; [exact sample_known|]. vm_compute. auto. Qed.

(** C22: partial, because a Node in a node span field is not refused (the answer False of validate is
    not looked at, see C20); the last hypothesis excludes that. *)
Theorem C22_compiled_partial : forall h d h1 b, wf h -> known h d -> msgpack_encode h d false true = (h1, Ok b) ->
  (forall k f t, declared h d k f t -> option_ok t /\
     (forall x, targets_layer t x -> In x (dkeys (d_layers d))) /\ (forall x, targets_text t x -> In x (dkeys (d_texts d)))) /\
  (forall k l n, doc_node h d k l n -> forall f v, In (f, v) (n_fieldsof h n) -> In f (dkeys (l_fields (h_layer h l)))) /\
  (spans_joined h d -> forall k l n, doc_node h d k l n -> schema_ok h l ->
     forall f t v, dget (l_fields (h_layer h l)) f = Some t -> dget (n_fieldsof h n) f = Some v ->
     (forall g u m, dget (l_fields (h_layer h l)) g = Some u -> dget (n_fieldsof h n) g = Some (VNode m) -> dt_class u <> KNodespan) ->
     accepts h1 t v /\ accepts h t v).
Proof.
  intros h d h1 b W K E. destruct (msgpack_encode_heap _ _ _ _ _ _ E) as (o & Ec & Ho). destruct (Ho b eq_refl) as [y ->].
  exact (compile_checked h d h1 y W K Ec).
Qed.
Print Assumptions C22_compiled_partial.
(** a missing text, a missing layer, an undeclared field and an ill-typed value are refused *)
Example C22_refuses :
  snd (msgpack_encode doc_heap (mkDoc (MMap []) [] [(s "token", 0%nat)]) false true) = Err SchemaError /\
  snd (msgpack_encode doc_heap (mkDoc (MMap []) [(s "main", s "one two")] [(s "phrase", 1%nat)]) false true) = Err SchemaError /\
  snd (msgpack_encode (set_fields doc_heap 0%nat [(s "new", VInt 1)]) sample_doc false true) = Err SchemaValidationError /\
  snd (msgpack_encode (set_fields doc_heap 0%nat [(s "pos", VInt 1)]) sample_doc false true) = Err AssertionError.
Proof. vm_compute. repeat split. Qed.
(** without the restriction it is false: node 1 holds itself in a node span field; it is written as the
    span of its two neighbours *)
Definition mid_heap : heap := exec_all Z.leb empty_heap
  [OLayer (s "t") [(s "ns", T_nodespan (s "t"))]; OAdd 0%nat []; OAdd 0%nat []; OAdd 0%nat []; OSetField 1%nat (s "ns") (VNode 1%nat)].
Definition mid_doc : doc := mkDoc (MMap []) [] [(s "t", 0%nat)].
Theorem C22_refuted : exists h d h1 b n, wf h /\ known h d /\ msgpack_encode h d false true = (h1, Ok b) /\
  doc_node h d (s "t") 0%nat n /\ schema_ok h 0%nat /\ ~ node_valid h 0%nat n.
Proof.
  exists mid_heap, mid_doc, (fst (msgpack_encode mid_heap mid_doc false true)),
    (match snd (msgpack_encode mid_heap mid_doc false true) with Ok b => b | Err _ => [] end), 1%nat.
  assert (W : wf mid_heap) by (apply ops_ok_wf, ops_okb_sound; vm_compute; reflexivity).
  split; [exact W|]. split; [intros k l [[= <- <-]|[]]; vm_compute; auto|]. split.
  { assert (E : snd (msgpack_encode mid_heap mid_doc false true) = Ok (match snd (msgpack_encode mid_heap mid_doc false true) with Ok b => b | Err _ => [] end))
      by (vm_compute; reflexivity).
    destruct (msgpack_encode mid_heap mid_doc false true) as [h1 r]. simpl in *. rewrite <- E. reflexivity. }
  split; [split; vm_compute; auto|]. split.
  { intros f d H. exists (s "t"). vm_compute in H. destruct (_ : bool) in H; [|discriminate]. injection H as <-. vm_compute. auto. }
  intros V. specialize (V (s "ns") (T_nodespan (s "t")) (VNode 1%nat) eq_refl eq_refl). destruct V as (name & _ & A). inversion A.
Qed.
Print Assumptions C22_refuted.

(** C23: partial, see the three refutations *)
Theorem C23_remove_layer_partial : forall h d name, NoDup (dkeys (d_layers d)) -> (forall k f t, declared h d k f t -> option_ok t) ->
  (~ In name (dkeys (d_layers d)) -> forall c, remove_layer h d name c = Ok (d, Some false)) /\
  (In name (dkeys (d_layers d)) ->
   (exists k f t, declared h d k f t /\ k <> name /\ refers_to name t) -> remove_layer h d name false = Err DataValidationError) /\
  (In name (dkeys (d_layers d)) -> forall c,
   c = true \/ ~ (exists k f t, declared h d k f t /\ k <> name /\ refers_to name t) ->
   exists d', remove_layer h d name c = Ok (d', None) /\ d_props d' = d_props d /\ d_texts d' = d_texts d /\
     (forall k l, In (k, l) (d_layers d') <-> In (k, l) (d_layers d) /\ k <> name) /\
     (exists a l b, d_layers d = a ++ (name, l) :: b /\ d_layers d' = a ++ b)).
Proof. exact remove_layer_spec. Qed.
Print Assumptions C23_remove_layer_partial.
Example C23_case : (forall k f t, declared doc_heap sample_doc k f t -> option_ok t) /\
  remove_layer doc_heap sample_doc (s "token") false = Err DataValidationError /\
  remove_layer doc_heap sample_doc (s "phrase") false = Ok (mkDoc (d_props sample_doc) (d_texts sample_doc) [(s "token", 0%nat)], None) /\
  remove_layer doc_heap sample_doc (s "nothing") false = Ok (sample_doc, Some false).
Proof. split; [exact sample_options|]. vm_compute. repeat split. Qed.
(** a layer that a node span field refers to is removed without complaint, and encoding then fails *)
Definition span_heap : heap := exec_all Z.leb empty_heap
  [OLayer (s "token") []; OLayer (s "phrase") [(s "words", T_nodespan (s "token"))]].
Definition span_doc : doc := mkDoc (MMap []) [] [(s "token", 0%nat); (s "phrase", 1%nat)].
Theorem C23_nodespan_refuted : exists h d d' k f t, wf h /\ declared h d k f t /\ targets_layer t (s "token") /\
  (exists b, snd (msgpack_encode h d false true) = Ok b) /\ remove_layer h d (s "token") false = Ok (d', None) /\
  snd (msgpack_encode h d' false true) = Err SchemaError.
Proof.
  exists span_heap, span_doc, (mkDoc (MMap []) [] [(s "phrase", 1%nat)]), (s "phrase"), (s "words"), (T_nodespan (s "token")).
  split; [apply ops_ok_wf, ops_okb_sound; vm_compute; reflexivity|]. split; [exists 1%nat; split; vm_compute; auto|].
  split; [split; vm_compute; auto|]. split; [vm_compute; eexists; reflexivity|]. split; vm_compute; reflexivity.
Qed.
(** fieldcascade=True removes the layer but not the referring fields (of another layer) *)
Theorem C23_cascade_refuted : exists h d d' k f t, wf h /\ declared h d k f t /\ k <> s "token" /\ refers_to (s "token") t /\
  remove_layer h d (s "token") true = Ok (d', None) /\ declared h d' k f t /\ snd (msgpack_encode h d' false true) = Err SchemaError.
Proof.
  exists doc_heap, sample_doc, (mkDoc (d_props sample_doc) (d_texts sample_doc) [(s "phrase", 1%nat)]), (s "phrase"), (s "args"), (T_noderef_many (s "token")).
  split; [exact doc_heap_wf|]. split; [exists 1%nat; split; vm_compute; auto|]. split; [discriminate|].
  split; [split; vm_compute; auto|]. split; [vm_compute; reflexivity|]. split; [exists 1%nat; split; vm_compute; auto|]. vm_compute. reflexivity.
Qed.
(** the documented answer True never comes *)
Theorem C23_answer_refuted : forall h d name c, (forall d' b, remove_layer h d name c = Ok (d', Some b) -> b = false).
Proof.
  intros h d name c d' b. unfold remove_layer. destruct (negb (dmem (d_layers d) name)); [congruence|].
  destruct (referencing h name (d_layers d)); simpl; [|discriminate]. destruct (negb c && _); discriminate.
Qed.
Print Assumptions C23_nodespan_refuted. Print Assumptions C23_cascade_refuted. Print Assumptions C23_answer_refuted.
