(** C63, C64: what str() and _repr_html_() show for collections, nodes and documents.
    sr, vr, er: repr() of strings, of values other than nodes, node spans and lists, and of list elements that are no nodes; order: the
    iteration order of sets of strings. *)
From Verif Require Import PyBase PyBaseFacts Model_Heap Model_Layer Model_Types Model_Query Model_Nodes Model_Printout Model_Repr Spec_Layer Spec_Query Spec_Nodes Spec_Printout Spec_Repr.
From Verif Require Import Spec_History Proof_Layer4 Proof_Repr Prop_Document.
Local Open Scope Z_scope.

(** The table that str(collection) renders: the field names in sorted order, one row for each node in order of iteration, and in each row
    the value of each field (NIL if there is none); the caption has the number of nodes. *)
Theorem C63_table : forall sr vr er order, rearranges order -> forall h c ns t, nodes_of h c ns -> coll_str_table sr vr er order h c = Ok t ->
  exists fields hd, Permutation fields (dkeys (coll_fields h c)) /\ in_sorted_order fields /\ t_header t = Some hd /\ r_elems hd = map CStr fields /\
    Forall2 (fun n r => cells_of sr vr er h fields n (r_elems r)) ns (t_body t) /\ (forall r, In r (t_body t) -> r_index r = None) /\
    (wf h -> plain_name h c -> t_caption t = Some (caption_of h c (zlen ns))).
Proof. exact str_table_ok. Qed.
Print Assumptions C63_table.
(** str(collection) succeeds if the layer's name has no percent sign and the values can be shown. *)
Theorem C63_total_partial : forall sr vr er order, rearranges order -> forall o h c ns, reached whole o -> (o_width o = None \/ o_display o <> None) -> wf h -> nodes_of h c ns -> plain_name h c ->
  (forall n f v, In n ns -> dget (n_fieldsof h n) f = Some v -> In f (dkeys (coll_fields h c)) -> showable h v) ->
  exists x, coll_str sr vr er order o h c = Ok x.
Proof. exact coll_str_total. Qed.
Print Assumptions C63_total_partial.
(** The rows of a node span in HTML are numbered on from its left node: the numbers are node.i if the span has no gap. *)
Theorem C63_span_index_partial : forall sr vr er order, rearranges order -> forall h a b ns t j r n, nodes_of h (CSpan a b) ns -> coll_html_table sr vr er order h (CSpan a b) = Ok t ->
  nth_error (t_body t) j = Some r -> nth_error ns j = Some n -> n_idof h n = n_idof h a + Z.of_nat j -> r_index r = Some (str_int (n_idof h n)).
Proof. intros sr vr er order P h a b ns t j r n N E J K I. rewrite I. exact (html_span_ok sr vr er order P h a b ns t N E j r J). Qed.
Print Assumptions C63_span_index_partial.

Definition quote (x : pystr) : pystr := 39%N :: x ++ [39%N].
Definition plain_repr (v : value) : pystr := match v with VStr x => quote x | VInt i => str_int i | _ => s "?" end.
Definition keep (l : list pystr) : list pystr := l.
Lemma keep_ok : rearranges keep. Proof. intros l. apply Permutation_refl. Qed.
Definition nl : pystr := [10%N].
Definition all_columns : options := mkOpts None None None None.
(** The layer "phrase" of the sample document *)
Example C63_phrases : coll_str quote plain_repr (s "?") keep all_columns doc_heap (CLayer 1%nat) = Ok
  (s "                            Layer 'phrase' with 1 nodes.                             " ++ nl ++ nl ++
   s "  args                           score    words                                      " ++ nl ++ nl ++
   s "  [2 nodes from layer: token]    7        NodeSpan[token: 0 to incl. 2] = 'one two'  " ++ nl).
Proof. vm_compute. reflexivity. Qed.
Lemma all_reached : reached whole all_columns.
Proof.
  assert (A := reached_set whole _ _ _ (reached_default whole) none_rows eq_refl).
  assert (B := reached_set whole _ _ _ A none_columns eq_refl). assert (C := reached_set whole _ _ _ B none_width eq_refl).
  exact (reached_set whole _ _ _ C none_display eq_refl).
Qed.
Example C63_case : reached whole all_columns /\ (o_width all_columns = None \/ o_display all_columns <> None) /\ wf doc_heap /\ nodes_of doc_heap (CLayer 1%nat) [3%nat] /\
  plain_name doc_heap (CLayer 1%nat) /\ forall n f v, In n [3%nat] -> dget (n_fieldsof doc_heap n) f = Some v -> In f (dkeys (coll_fields doc_heap (CLayer 1%nat))) -> showable doc_heap v.
Proof.
  split; [exact all_reached|]. split; [auto|]. split; [exact doc_heap_wf|]. split; [vm_compute; reflexivity|]. split; [vm_compute; intros H; repeat (destruct H as [H|H]; [discriminate|]); exact H|].
  intros n f v [<-|[]] G I. vm_compute in I. destruct I as [<-|[<-|[<-|[]]]]; vm_compute in G; injection G as <-.
  - eapply (able_text doc_heap 0%nat 2%nat 0%nat); [reflexivity|vm_compute; discriminate|vm_compute; discriminate|vm_compute; reflexivity|vm_compute; reflexivity].
  - apply able_list. intros m [[= <-]|[[= <-]|[]]]; exists 0%nat; reflexivity.
  - apply able_plain; discriminate.
Qed.
(** A layer whose name has a percent sign cannot be shown. *)
Definition percent_heap (name : pystr) : heap := exec_all Z.leb empty_heap [OLayer name [(s "id", T_int32 VNone)]; OAdd 0%nat [(s "id", VInt 1)]].
Theorem C63_percent_refuted : exists h l e, wf h /\ (forall n f v, In n [0%nat] -> dget (n_fieldsof h n) f = Some v -> showable h v) /\ nodes_of h (CLayer l) [0%nat] /\
  coll_str quote plain_repr (s "?") keep all_columns h (CLayer l) = Err e.
Proof.
  exists (percent_heap (s "100%")), 0%nat, ValueError. split; [apply ops_ok_wf, ops_okb_sound; vm_compute; reflexivity|]. split.
  - intros n f v [<-|[]] G. apply dget_In in G. vm_compute in G. destruct G as [[= <- <-]|[]]. constructor; discriminate.
  - split; vm_compute; reflexivity.
Qed.
Print Assumptions C63_percent_refuted.
(** A doubled percent sign is shown once. *)
Theorem C63_double_percent_refuted : exists h l t, wf h /\ l_nameof h l = s "a%%b" /\ coll_str_table quote plain_repr (s "?") keep h (CLayer l) = Ok t /\
  t_caption t = Some (s "Layer 'a%b' with 1 nodes.").
Proof. exists (percent_heap (s "a%%b")), 0%nat. eexists. split; [apply ops_ok_wf, ops_okb_sound; vm_compute; reflexivity|]. split; [reflexivity|]. split; vm_compute; reflexivity. Qed.
Print Assumptions C63_double_percent_refuted.
(** A layer with a reference to a node that was removed cannot be shown either. *)
Theorem C63_dangling_refuted : exists h l ns, wf h /\ nodes_of h (CLayer l) ns /\ plain_name h (CLayer l) /\
  forall sr vr er order o, coll_str sr vr er order o h (CLayer l) = Err AttributeError.
Proof.
  exists (exec_all Z.leb empty_heap [OLayer (s "token") [(s "head", T_noderef (s "token")); (s "w", T_string VNone)]; OAdd 0%nat [(s "w", VStr (s "a"))];
    OAdd 0%nat [(s "head", VNode 0%nat)]; ORemove 0%nat 0%nat]), 0%nat, [1%nat].
  split; [apply ops_ok_wf, ops_okb_sound; vm_compute; reflexivity|]. split; [vm_compute; reflexivity|].
  split; [vm_compute; intros H; repeat (destruct H as [H|H]; [discriminate|]); exact H|]. intros. vm_compute. reflexivity.
Qed.
Print Assumptions C63_dangling_refuted.
(** After a gap the row number is not node.i. *)
Theorem C63_span_index_refuted : exists h a b ns t j r n, wf h /\ nodes_of h (CSpan a b) ns /\ coll_html_table quote plain_repr (s "?") keep h (CSpan a b) = Ok t /\
  nth_error (t_body t) j = Some r /\ nth_error ns j = Some n /\ r_index r = Some (s "1") /\ node_i h n = Ok 2.
Proof.
  exists doc_heap, 0%nat, 2%nat, [0; 2]%nat. eexists. exists 1%nat. eexists. exists 2%nat. split; [exact doc_heap_wf|]. split; [vm_compute; reflexivity|].
  split; [vm_compute; reflexivity|]. split; [reflexivity|]. split; [reflexivity|]. split; vm_compute; reflexivity.
Qed.
Print Assumptions C63_span_index_refuted.
Example C63_span_index_case : exists t r, nodes_of doc_heap (CSpan 0%nat 2%nat) [0; 2]%nat /\ coll_html_table quote plain_repr (s "?") keep doc_heap (CSpan 0%nat 2%nat) = Ok t /\
  nth_error (t_body t) 0%nat = Some r /\ n_idof doc_heap 0%nat = n_idof doc_heap 0%nat + Z.of_nat 0%nat /\ r_index r = Some (s "0").
Proof. do 2 eexists. split; [vm_compute; reflexivity|]. split; [vm_compute; reflexivity|]. split; [reflexivity|]. split; vm_compute; reflexivity. Qed.

(** C64: the cell of a value *)
Theorem C64_value : forall sr vr er order, rearranges order -> forall h v c, get_representation sr vr er order h v = Ok c -> shown sr vr er h v c.
Proof. exact repr_shown. Qed.
Print Assumptions C64_value.
Theorem C64_value_total : forall sr vr er order h v, showable h v -> exists c, get_representation sr vr er order h v = Ok c.
Proof. exact repr_total. Qed.
Print Assumptions C64_value_total.
(** str(node): one row for each field, in the order of the fields *)
Theorem C64_node : forall sr vr er order, rearranges order -> forall h n t, node_table sr vr er order h n = Ok t ->
  Forall2 (fun kv r => exists c, r_elems r = [CStr (fst kv); c] /\ shown sr vr er h (snd kv) c) (n_fieldsof h n) (t_body t) /\
  (n_fieldsof h n <> [] -> exists l, n_collof h n = Some l /\ t_caption t = Some (s "Node " ++ l_nameof h l ++ s "#" ++ str_int (n_idof h n))) /\
  (exists r, t_header t = Some r /\ r_elems r = [CStr (s "field"); CStr (s "value")]) /\ t_hide_header t = false /\ t_hide_index t = true.
Proof. exact node_table_ok. Qed.
Print Assumptions C64_node.
Theorem C64_node_total : forall sr vr er order, rearranges order -> forall o h n, reached whole o -> (o_width o = None \/ o_display o <> None) -> (n_fieldsof h n <> [] -> in_layer h n) ->
  (forall f v, In (f, v) (n_fieldsof h n) -> showable h v) -> exists x, node_str sr vr er order o h n = Ok x.
Proof. exact node_str_total. Qed.
Print Assumptions C64_node_total.
(** str() of a node with fields outside any layer raises. *)
Theorem C64_node_dangling : forall sr vr er order o h n, n_fieldsof h n <> [] -> n_collof h n = None -> node_str sr vr er order o h n = Err AttributeError.
Proof. exact node_str_dangling. Qed.
Print Assumptions C64_node_dangling.
(** str(document) always succeeds. *)
Theorem C64_document_total : forall sr o h texts layers, reached whole o -> (o_width o = None \/ o_display o <> None) -> exists x, document_str sr o h texts layers = Ok x.
Proof. exact document_total. Qed.
Print Assumptions C64_document_total.
(** It shows the texts by name and the layers with the numbers of their nodes, in the order of the document. *)
Theorem C64_document : forall sr o h texts layers x, wf h -> document_str sr o h texts layers = Ok x ->
  exists a b ta tb, x = s "== Document ==" ++ [10%N] ++ a ++ [10%N] ++ b /\ render_text o ta = Ok a /\ render_text o tb = Ok b /\
    t_caption ta = Some (s "Texts") /\ t_caption tb = Some (s "Layers") /\
    t_hide_header ta = true /\ t_hide_index ta = true /\ t_hide_header tb = true /\ t_hide_index tb = true /\
    Forall2 (fun kt r => r_elems r = [CStr (fst kt); CStr (sr (snd kt))]) texts (t_body ta) /\
    Forall2 (fun kl r => r_elems r = [CStr (fst kl); CStr (s "N=" ++ str_int (zlen (content h (snd kl))))]) layers (t_body tb).
Proof. exact document_shows. Qed.
Print Assumptions C64_document.
Example C64_node_case : in_layer doc_heap 2%nat /\ node_str quote plain_repr (s "?") keep all_columns doc_heap 2%nat = Ok
  (s "       Node token#2       " ++ nl ++ nl ++ s "  field    value          " ++ nl ++ nl ++ s "  text     ?              " ++ nl ++ s "  head     Node<token#0>  " ++ nl).
Proof. split; [exists 0%nat; reflexivity|vm_compute; reflexivity]. Qed.
Example C64_document_case : document_str quote all_columns doc_heap [(s "main", s "one two")] [(s "token", 0%nat); (s "phrase", 1%nat)] = Ok
  (s "== Document ==" ++ nl ++ s "        Texts        " ++ nl ++ nl ++ s "  main    'one two'  " ++ nl ++ nl ++
   s "     Layers      " ++ nl ++ nl ++ s "  token     N=2  " ++ nl ++ s "  phrase    N=1  " ++ nl).
Proof. vm_compute. reflexivity. Qed.
