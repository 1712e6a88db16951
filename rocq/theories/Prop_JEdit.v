(** Property C102: editing documents in the Java port. *)
From Verif Require Import PyBase PyBaseFacts Model_Text Model_Heap Model_Layer Model_Types Model_JUnits Model_JCodec Model_JEncode Model_JEdit
  Spec_Msgpack Spec_JUnits Spec_JCodec Spec_JEncode Spec_JEdit Proof_JEdit Proof_JEdit2 Proof_JEdit3.
Local Open Scope Z_scope.

(** The validating builder accepts exactly the values that their fields describe, each field once, and builds what was put. *)
Theorem C102_builder : forall fs l r, node_build fs l = Ok r <->
  r = l /\ NoDup (dkeys l) /\ Forall (fun fv => exists t, dget fs (fst fv) = Some t /\ describes t (snd fv)) l.
Proof. exact build_exact. Qed.
Print Assumptions C102_builder.
(** It refuses with an IllegalArgumentException, except that an array of no nodes has no type. *)
Theorem C102_builder_refuses : forall fs l e, Forall (fun fv => match snd fv with JHold _ | JHoldSpan _ _ | JNodes _ [] => False | _ => True end) l ->
  node_build fs l = Err e -> e = ValueError.
Proof. intros fs l e H. apply puts_err. eapply Forall_impl; [|exact H]. intros [f v]; cbn. destruct v as [i|i|b|b|x|x|y x|c p q|x p|x [|p ps]|x p q|is|p q]; auto. Qed.
Print Assumptions C102_builder_refuses.
(** An array of no nodes ends the building with an ArrayIndexOutOfBoundsException, and nothing else does, if its field exists and all before it was accepted. *)
Theorem C102_empty_array : forall fs l, node_build fs l = Err IndexError <->
  exists pre f x post, l = pre ++ (f, JNodes x []) :: post /\ node_build fs pre = Ok pre /\ dget fs f <> None.
Proof.
  intros fs l. unfold node_build at 1. rewrite puts_empty. split; intros (pre & f & x & post & H).
  - destruct H as (r & E & B & D). exists pre, f, x, post. split; [exact E|]. split; [|exact D]. assert (R := proj1 (build_exact fs pre r) B). destruct R as [-> _]. exact B.
  - destruct H as (E & B & D). exists pre, f, x, post, pre. auto.
Qed.
Print Assumptions C102_empty_array.
Definition token_fields : dict jdtype :=
  [(s "text", mkJT (JT TSpan) [(s "context", JStr (s "main"))]); (s "pos", mkJT (JT TString) []); (s "head", mkJT (JT TNodeRef) [(s "layer", JStr (s "token"))])].
Example C102_builder_case :
  node_build token_fields [(s "pos", JStr (s "N")); (s "text", JSpan (s "main") 0 1)] = Ok [(s "pos", JStr (s "N")); (s "text", JSpan (s "main") 0 1)] /\
  node_build token_fields [(s "pos", JInt 1)] = Err ValueError /\
  node_build token_fields [(s "tag", JStr (s "N"))] = Err ValueError /\
  node_build token_fields [(s "text", JSpan (s "other") 0 1)] = Err ValueError /\
  node_build token_fields [(s "pos", JStr (s "N")); (s "pos", JStr (s "V"))] = Err ValueError /\
  node_build [(s "args", mkJT (JT TNodeRefMany) [(s "layer", JStr (s "token"))])] [(s "args", JNodes (s "token") [])] = Err IndexError.
Proof. repeat split. Qed.

(** remove(text, false) is refused if and only if a field refers to the text, and changes nothing ... *)
Theorem C102_remove_text : forall j c, all_declared j ->
  (some_field (about_text c) j -> jd_remove_text j c false = (j, Err DataError)) /\ (~ some_field (about_text c) j -> jd_remove_text j c false = (j, Ok tt)).
Proof. exact text_refused. Qed.
Print Assumptions C102_remove_text.
(** ... remove(text, true) takes away exactly the fields that refer to it, with their values, and nothing else; after that it is not refused. *)
Theorem C102_remove_text_cascade : forall j c, all_declared j -> exists k, jd_remove_text j c true = (k, Ok tt) /\ doc_without (about_text c) j k /\ jd_remove_text k c false = (k, Ok tt).
Proof. intros j c H. destruct (text_removed j c H) as (k & E & W). exists k. split; [exact E|]. split; [exact W|]. eapply text_removed_twice; eassumption. Qed.
Print Assumptions C102_remove_text_cascade.
(** remove(layer, ...) looks for fields that refer to a text with the name of the layer: without one, nothing happens; with one, references to the layer go from the layers with such a field. *)
Theorem C102_remove_layer : forall j x, all_declared j ->
  (some_field (about_text x) j -> jd_remove_layer j x false = (j, Err DataError)) /\
  (~ some_field (about_text x) j -> forall b, jd_remove_layer j x b = (j, Ok tt)) /\
  exists k, jd_remove_layer j x true = (k, Ok tt) /\ jd_props k = jd_props j /\ jd_texts k = jd_texts j /\
    Forall2 (again (fun l m => ((exists f t, In (f, t) (fst l) /\ about_text x t) -> layer_without (about_layer x) l m) /\ (~ (exists f t, In (f, t) (fst l) /\ about_text x t) -> m = l)))
            (jd_layers j) (jd_layers k).
Proof. intros j x H. split; [apply layer_refused; exact H|]. split; [intros Hs b; now apply layer_ignored|]. now apply layer_removed. Qed.
Print Assumptions C102_remove_layer.

(** A document that was made by these operations, and that is written, is read back by the Java port, unless it has bytes or a span of nodes of a missing layer. *)
Theorem C102_made_ok : forall j, made j -> jvalidate j = Ok tt -> spans_named j -> few_nodes j -> jdoc_ok j.
Proof. exact made_ok. Qed.
Print Assumptions C102_made_ok.
Theorem C102_made_again : forall j bytes rest, made j -> spans_named j -> few_nodes j -> no_bytes j -> java_encode j = Ok bytes ->
  exists k, java_decode (bytes ++ rest) = Ok k /\ doc_again j k.
Proof. exact made_again. Qed.
Print Assumptions C102_made_again.
Theorem C102_made_declared : forall j, made j -> all_declared j.
Proof. exact made_declared. Qed.
Print Assumptions C102_made_declared.
(** Adding: a text or a field that exists is refused; otherwise it is there afterwards, the others as before. *)
Theorem C102_add_text : forall j c u, (In c (dkeys (jd_texts j)) -> jd_add_text j c u = (j, Err ValueError)) /\
  (~ In c (dkeys (jd_texts j)) -> jd_add_text j c u = (mkJDoc (jd_props j) (jd_texts j ++ [(c, u)]) (jd_layers j), Ok tt)).
Proof.
  intros j c u. unfold jd_add_text. split; intros H.
  - now rewrite (proj2 (dmem_In _ _) H).
  - destruct (dmem (jd_texts j) c) eqn:E; [apply dmem_In in E; contradiction|]. rewrite dset_absent; [reflexivity|]. now apply dget_None.
Qed.
Print Assumptions C102_add_text.
Theorem C102_add_field : forall j x fs rows f t, dget (jd_layers j) x = Some (fs, rows) ->
  (In f (dkeys fs) -> jd_add_field j x f t = (j, Err ValueError)) /\
  (~ In f (dkeys fs) -> exists k, jd_add_field j x f t = (k, Ok tt) /\ jd_props k = jd_props j /\ jd_texts k = jd_texts j /\
     dget (jd_layers k) x = Some (fs ++ [(f, t)], rows) /\ dkeys (jd_layers k) = dkeys (jd_layers j) /\ forall y, y <> x -> dget (jd_layers k) y = dget (jd_layers j) y).
Proof.
  intros j x fs rows f t E. unfold jd_add_field. rewrite E. split; intros H.
  - now rewrite (proj2 (dmem_In _ _) H).
  - destruct (dmem fs f) eqn:Em; [apply dmem_In in Em; contradiction|]. eexists. split; [reflexivity|]. cbn [with_layers jd_props jd_texts jd_layers]. rewrite (dset_absent fs) by now apply dget_None. split; [reflexivity|]. split; [reflexivity|].
    split; [apply dget_dset_same|]. split; [|intros y Hy; now apply dget_dset_other]. rewrite dkeys_dset. unfold dmem. now rewrite E.
Qed.
Print Assumptions C102_add_field.
(** A layer is added, or takes the place of the one of its name; a field that is declared twice is refused. *)
Theorem C102_add_layer : forall j x l, (NoDup (dkeys l) -> jd_add_layer j x l = (mkJDoc (jd_props j) (jd_texts j) (dset (jd_layers j) x (l, [])), Ok tt)) /\
  (~ NoDup (dkeys l) -> jd_add_layer j x l = (j, Err ValueError)).
Proof. exact layer_added. Qed.
Print Assumptions C102_add_layer.
(** A node is added at the end of its layer, or it is refused and the document is as before. *)
Theorem C102_add_node : forall j x fs rows l, dget (jd_layers j) x = Some (fs, rows) ->
  (NoDup (dkeys l) /\ Forall (fun fv => exists t, dget fs (fst fv) = Some t /\ describes t (snd fv)) l ->
     exists k, jd_add_node j x l = (k, Ok tt) /\ jd_props k = jd_props j /\ jd_texts k = jd_texts j /\ dget (jd_layers k) x = Some (fs, rows ++ [l]) /\
       dkeys (jd_layers k) = dkeys (jd_layers j) /\ forall y, y <> x -> dget (jd_layers k) y = dget (jd_layers j) y) /\
  (~ (NoDup (dkeys l) /\ Forall (fun fv => exists t, dget fs (fst fv) = Some t /\ describes t (snd fv)) l) -> exists e, jd_add_node j x l = (j, Err e)).
Proof. exact node_added. Qed.
Print Assumptions C102_add_node.
(** removeField takes the field from the schema and the values from the nodes of that layer, and does nothing if there is no such field. *)
Theorem C102_remove_field : forall j x fs rows f, all_declared j -> dget (jd_layers j) x = Some (fs, rows) ->
  (In f (dkeys fs) -> exists k fs' rows', jd_remove_field j x f = (k, Ok tt) /\ jd_props k = jd_props j /\ jd_texts k = jd_texts j /\ dget (jd_layers k) x = Some (fs', rows') /\
     without (eq f) fs fs' /\ Forall2 (without (eq f)) rows rows' /\ dkeys (jd_layers k) = dkeys (jd_layers j) /\ forall y, y <> x -> dget (jd_layers k) y = dget (jd_layers j) y) /\
  (~ In f (dkeys fs) -> jd_remove_field j x f = (j, Ok tt)).
Proof. exact field_removed. Qed.
Print Assumptions C102_remove_field.
(** A property is set, whatever was there. *)
Theorem C102_set_prop : forall j k v, exists m, run_edit (SetProp k v) j = (m, Ok tt) /\ jd_texts m = jd_texts j /\ jd_layers m = jd_layers j /\
  dget (jd_props m) k = Some v /\ forall g, g <> k -> dget (jd_props m) g = dget (jd_props j) g.
Proof. exact prop_set. Qed.
Print Assumptions C102_set_prop.
(** Operations on a layer that does not exist fail. *)
Theorem C102_no_layer : forall j x f t l, ~ In x (dkeys (jd_layers j)) ->
  jd_add_field j x f t = (j, Err AttributeError) /\ jd_remove_field j x f = (j, Err AttributeError) /\ jd_add_node j x l = (j, Err AttributeError).
Proof. intros j x f t l H. apply dget_None in H. unfold jd_add_field, jd_remove_field, jd_add_node. rewrite H. auto. Qed.
Print Assumptions C102_no_layer.

(** A history: a text, a layer, two nodes, a refused node, a layer that refers to the first one. *)
Definition history : list edit :=
  [SetProp (s "lang") (JStr (s "sv")); AddText (s "main") [97; 128512; 98]%N; AddText (s "title") [98]%N; AddLayer (s "token") token_fields;
   AddNode (s "token") [(s "pos", JStr (s "N")); (s "text", JSpan (s "main") 0 1)];
   AddNode (s "token") [(s "text", JSpan (s "main") 1 3); (s "head", JNode (s "token") 0)];
   AddNode (s "token") [(s "pos", JInt 1)];
   AddLayer (s "title") []; AddField (s "title") (s "words") (mkJT (JT TNodeRefSpan) [(s "layer", JStr (s "token"))]);
   AddField (s "title") (s "words") (mkJT (JT TString) []); AddField (s "title") (s "tmp") (mkJT (JT TI32) []); RemoveField (s "title") (s "tmp");
   AddNode (s "title") [(s "words", JNodeSpan (s "token") 0 1)]; RemoveText (s "title") true; RemoveLayer (s "token") true; RemoveText (s "main") false].
Definition run_all (l : list edit) (j : jdoc) : jdoc := fold_left (fun j e => fst (run_edit e j)) l j.
Definition history_doc : jdoc := mkJDoc [(s "lang", JStr (s "sv"))] [(s "main", utf16 [97; 128512; 98]%N); (s "title", [98]%N)]
  [(s "token", (token_fields, [[(s "pos", JStr (s "N")); (s "text", JSpan (s "main") 0 1)]; [(s "text", JSpan (s "main") 1 3); (s "head", JNode (s "token") 0)]]));
   (s "title", ([(s "words", mkJT (JT TNodeRefSpan) [(s "layer", JStr (s "token"))])], [[(s "words", JNodeSpan (s "token") 0 1)]]))].
Fixpoint each_ok (l : list edit) (j : jdoc) : Prop := match l with [] => True | e :: r => edit_ok j e /\ each_ok r (fst (run_edit e j)) end.
Lemma each_made l : forall j, made j -> each_ok l j -> made (run_all l j).
Proof. induction l as [|e l IH]; intros j M H; [exact M|]. destruct H as [H1 H2]. cbn. apply IH; [now constructor|exact H2]. Qed.
Lemma span_here j c p q x a b : dget (jd_texts j) c = Some (utf16 x) -> Forall (fun k => k < 0xD800 \/ 0xDFFF < k < 0x110000)%N x -> 0 <= p <= q -> q <= zlen x -> upos x p = a -> upos x q = b -> jvalue_ok j (JSpan c a b).
Proof. intros H1 H2 H3 H4 <- <-. apply vk_span; [split; assumption|assumption|assumption]. Qed.
Lemma node_here j x p fs rows : dget (jd_layers j) x = Some (fs, rows) -> (p < length rows)%nat -> has_node j x p.
Proof. intros H L. exists fs, rows. auto. Qed.
Lemma history_made : made history_doc.
Proof.
  assert (Hx : Forall (fun k => k < 0xD800 \/ 0xDFFF < k < 0x110000)%N [97; 128512; 98]%N) by (repeat constructor; lia).
  replace history_doc with (run_all history (mkJDoc [] [] [])) by (vm_compute; reflexivity). apply each_made; [constructor|].
  unfold history, each_ok.
  split; [repeat constructor|]. split; [constructor; exact Hx|]. split; [constructor; repeat constructor; lia|].
  split. { constructor; [vm_compute; tauto|]. unfold token_fields. constructor; [apply de_span|]. constructor; [apply de_plain; simpl; auto 10|]. constructor; [apply de_ref; simpl; auto 10|constructor]. }
  split. { constructor. constructor; [constructor|]. constructor; [|constructor]. apply (span_here _ _ 0 1 [97; 128512; 98]%N); [vm_compute; reflexivity|exact Hx|lia|vm_compute; discriminate|reflexivity|reflexivity]. }
  split. { constructor. constructor; [|constructor; [|constructor]].
    - apply (span_here _ _ 1 2 [97; 128512; 98]%N); [vm_compute; reflexivity|exact Hx|lia|vm_compute; discriminate|reflexivity|reflexivity].
    - constructor. eapply node_here; [vm_compute; reflexivity|cbn; lia]. }
  split. { constructor. constructor; [|constructor]. constructor. unfold int_range. lia. }
  split. { constructor; [vm_compute; intuition congruence|constructor]. }
  split. { constructor. apply de_ref. simpl; auto. }
  split. { constructor. apply de_plain. simpl; auto 10. }
  split. { constructor. apply de_plain. simpl; auto 10. }
  split; [constructor|].
  split. { constructor. constructor; [|constructor]. constructor; [lia|]. eapply node_here; [vm_compute; reflexivity|cbn; lia]. }
  split; [constructor|]. split; [constructor|]. split; [constructor|]. exact I.
Qed.
Example C102_case : made history_doc /\ spans_named history_doc /\ few_nodes history_doc /\ no_bytes history_doc /\ all_declared history_doc /\
  match java_encode history_doc with Ok b => match java_decode b with Ok k => jd_texts k = jd_texts history_doc /\ map fst (jd_layers k) = [s "token"; s "title"] | Err _ => False end | Err _ => False end.
Proof.
  split; [exact history_made|]. split.
  { intros k fs rows f t x [[= <- <- <-]|[[= <- <- <-]|[]]] Hf En Ha.
    - unfold token_fields in Hf. repeat (destruct Hf as [[= <- <-]|Hf]; [discriminate En|]). destruct Hf.
    - destruct Hf as [[= <- <-]|[]]. vm_compute in Ha. injection Ha as <-. vm_compute. auto. }
  split; [intros k fs rows [[= <- <- <-]|[[= <- <- <-]|[]]]; vm_compute; reflexivity|].
  split. { intros k fs rows row f v [[= <- <- <-]|[[= <- <- <-]|[]]] Hr Hv x ->; apply dget_In in Hv;
    repeat (destruct Hr as [<-|Hr]; [repeat (destruct Hv as [Hv|Hv]; [discriminate Hv|]); destruct Hv|]); destruct Hr. }
  split; [apply made_declared, history_made|]. vm_compute. split; reflexivity.
Qed.
Example C102_cascade_case : some_field (about_text (s "main")) history_doc /\
  jd_remove_text history_doc (s "main") true =
  (mkJDoc [(s "lang", JStr (s "sv"))] [(s "main", utf16 [97; 128512; 98]%N); (s "title", [98]%N)]
    [(s "token", ([(s "pos", mkJT (JT TString) []); (s "head", mkJT (JT TNodeRef) [(s "layer", JStr (s "token"))])], [[(s "pos", JStr (s "N"))]; [(s "head", JNode (s "token") 0)]]));
     (s "title", ([(s "words", mkJT (JT TNodeRefSpan) [(s "layer", JStr (s "token"))])], [[(s "words", JNodeSpan (s "token") 0 1)]]))], Ok tt).
Proof.
  split; [|vm_compute; reflexivity]. eexists _, _, _, (s "text"), _. split; [left; reflexivity|]. split; [left; reflexivity|]. split; reflexivity.
Qed.

(** What the operations say they do is not what they do: the text or layer stays, ... *)
Theorem C102_removed_refuted :
  (exists j c k, made j /\ In c (dkeys (jd_texts j)) /\ jd_remove_text j c false = (k, Ok tt) /\ In c (dkeys (jd_texts k))) /\
  (exists j x, made j /\ some_field (about_layer x) j /\ jd_remove_layer j x false = (j, Ok tt) /\ jd_remove_layer j x true = (j, Ok tt) /\ In x (dkeys (jd_layers j))).
Proof.
  split.
  - exists history_doc, (s "title"), history_doc. split; [exact history_made|]. split; [right; left; reflexivity|]. split; [vm_compute; reflexivity|right; left; reflexivity].
  - exists history_doc, (s "token"). split; [exact history_made|]. split.
    + eexists _, _, _, (s "head"), _. split; [left; reflexivity|]. split; [right; right; left; reflexivity|]. split; [left; reflexivity|reflexivity].
    + split; [vm_compute; reflexivity|]. split; [vm_compute; reflexivity|left; reflexivity].
Qed.
Print Assumptions C102_removed_refuted.
(** ... a second layer of one name takes the place of the first, whose nodes are still referred to by position: what is written cannot be read; ... *)
Theorem C102_replaced_refuted : exists j k b, made j /\ jd_add_layer j (s "token") token_fields = (k, Ok tt) /\ jvalidate k = Ok tt /\ java_encode k = Ok b /\ java_decode b = Err IndexError.
Proof.
  eexists history_doc, _, _. split; [exact history_made|]. split; [vm_compute; reflexivity|]. split; [vm_compute; reflexivity|]. split; [vm_compute; reflexivity|]. vm_compute. reflexivity.
Qed.
Print Assumptions C102_replaced_refuted.
(** ... and put of a node, unlike put of its builder, stores what the field does not describe. *)
Theorem C102_put_refuted : exists fs row f v t, node_build fs row = Ok row /\ dget fs f = Some t /\ ~ describes t v /\ node_get (node_put row f v) f (JBool false) = v.
Proof.
  eexists token_fields, [(s "pos", JStr (s "N"))], (s "pos"), (JInt 1), _. split; [vm_compute; reflexivity|]. split; [vm_compute; reflexivity|]. split; [intros H; inversion H|vm_compute; reflexivity].
Qed.
Print Assumptions C102_put_refuted.
(** put and get otherwise behave as a map. *)
Theorem C102_put_get : forall row f v g d, node_get (node_put row f v) g d = if str_eqb g f then v else node_get row g d.
Proof. intros row f v g d. unfold node_get, node_put. rewrite dget_dset. destruct (str_eqb g f); reflexivity. Qed.
Print Assumptions C102_put_get.
