(** C60 node lists, C61 text of node spans, C62 node collections. *)
From Verif Require Import PyBase Model_Heap Model_Layer Model_Text Model_Types Model_Query Model_Nodes Spec_Text Spec_Layer Spec_Query Spec_Nodes.
From Verif Require Import Proof_Layer4 Proof_Nodes Proof_Nodes2.
Local Open Scope Z_scope.

(** ** C60 *)
(** NodeList(nodes) is accepted exactly if every value outside layers has a type, type options can be hashed, and the types of each field can be merged. *)
Theorem C60_accepts : forall same type_order layer_order, (forall f, rearranges (type_order f)) -> rearranges layer_order -> forall h ns,
  (exists c, new_nodelist same type_order layer_order h (map Some ns) None = Ok c) <->
  all_typed h ns /\ (forall f t, contributes h ns f t -> plain_options t) /\ forall f, mergeable h ns f.
Proof. exact nodelist_ok. Qed.
Print Assumptions C60_accepts.
(** It holds the nodes in order; its fields are those of its nodes, with a type that one of them gives.
    Missing from the full statement (every field of the nodes is a field of the list): fields whose types differ in name, see C60_merged_refuted. *)
Theorem C60_fields_partial : forall same type_order layer_order, (forall f, rearranges (type_order f)) -> rearranges layer_order -> forall h ns c,
  new_nodelist same type_order layer_order h (map Some ns) None = Ok c ->
  exists fs, c = CList fs ns /\ forall f,
    ((forall t, ~ contributes h ns f t) -> dget fs f = None) /\
    ((exists t, contributes h ns f t) -> agree h ns f -> exists t, dget fs f = Some t /\ contributes h ns f t) /\
    (~ agree h ns f -> dget fs f = None).
Proof. exact nodelist_fields. Qed.
Print Assumptions C60_fields_partial.
(** Types that cannot be merged: ValueError or AssertionError *)
Theorem C60_conflict : forall same type_order layer_order, (forall f, rearranges (type_order f)) -> rearranges layer_order -> forall h ns e,
  all_typed h ns -> (forall f t, contributes h ns f t -> plain_options t) ->
  new_nodelist same type_order layer_order h (map Some ns) None = Err e -> e = ValueError \/ e = AssertionError.
Proof. exact nodelist_conflict. Qed.
Print Assumptions C60_conflict.
(** Field types given by the caller are taken; anything but nodes is refused. *)
Theorem C60_given : forall same tor lor h ns fs, new_nodelist same tor lor h (map Some ns) (Some fs) = Ok (CList fs ns).
Proof. exact nodelist_given. Qed.
Print Assumptions C60_given.
Theorem C60_others : forall same tor lor h a b ft, exists e, new_nodelist same tor lor h (a ++ None :: b) ft = Err e.
Proof. exact nodelist_others. Qed.
Print Assumptions C60_others.
(** Indexing as for Python lists, keeping the field types *)
Theorem C60_int : forall ns i, list_int ns i = doc_item ns i.
Proof. exact list_int_ok. Qed.
Print Assumptions C60_int.
Theorem C60_slice : forall fs ns a b, list_slice fs ns a b = CList fs (doc_slice ns a b).
Proof. exact list_slice_ok. Qed.
Print Assumptions C60_slice.
Theorem C60_indices : forall fs ns is rs, list_indices fs ns is = Ok (CList fs rs) <-> Forall2 (fun i n => doc_item ns i = Ok n) is rs.
Proof. exact list_indices_ok. Qed.
Print Assumptions C60_indices.

(** Two layers: 0 with id: i32, pos: str; 1 with id: i64, ref: noderef a.  Nodes 0, 1 in layer 0, node 2 in layer 1; node 3 in no layer, with pos and a float. *)
Definition no_same (a b : value) : bool := false.
Definition keep_types (f : pystr) (ts : list dtype) := ts.
Definition keep_layers (ls : list lid) := ls.
Definition two_heap : heap := mkHeap (fun n => match n with
  | 0%nat => mkNode [(s "id", VInt 1); (s "pos", VStr (s "NN"))] 0 (Some 0%nat)
  | 1%nat => mkNode [(s "id", VInt 2)] 1 (Some 0%nat)
  | 2%nat => mkNode [(s "id", VInt 3); (s "ref", VNode 0%nat)] 0 (Some 1%nat)
  | 3%nat => mkNode [(s "pos", VStr (s "VB")); (s "w", VFloat 0)] (-1) None
  | 4%nat => mkNode [(s "pos", VInt 3)] (-1) None
  | _ => mkNode [] (-1) None end) 5%nat
  (fun l => match l with
  | 0%nat => mkLayer (s "a") [(s "id", T_int32 VNone); (s "pos", T_string VNone)] [Some 0%nat; Some 1%nat] 2 []
  | 1%nat => mkLayer (s "b") [(s "id", T_int64 VNone); (s "ref", T_noderef (s "a"))] [Some 2%nat] 1 []
  | _ => mkLayer [] [] [] 0 [] end) 2%nat.
(** The list [0; 2] has fields pos and ref, but id is lost although int32 and int64 can be merged: list["id"] raises. *)
Theorem C60_merged_refuted : exists c t, new_nodelist no_same keep_types keep_layers two_heap [Some 0; Some 2]%nat None = Ok c /\
  contributes two_heap [0; 2]%nat (s "id") t /\ mergeable two_heap [0; 2]%nat (s "id") /\
  coll_field two_heap c (s "id") = Err AssertionError.
Proof.
  eexists. exists (T_int32 VNone). split; [vm_compute; reflexivity|]. split; [apply (co_layer _ _ _ _ 0%nat 0%nat); vm_compute; auto|]. split; [|vm_compute; reflexivity].
  assert (H : forall t, contributes two_heap [0; 2]%nat (s "id") t -> number_type (dt_name t)).
  { intros t [n l I C J|n v I C J Ty]; repeat destruct I as [I|I]; try contradiction; subst n; vm_compute in C; try discriminate C; injection C as <-; vm_compute in J;
      repeat destruct J as [J|J]; try contradiction; try discriminate J; injection J as <-; unfold number_type; simpl; auto. }
  intros t u Ht Hu. right. auto.
Qed.
Print Assumptions C60_merged_refuted.
(** The kind of error may depend on the iteration order of a set: three types for one field. *)
Definition three_heap : heap := mkHeap (fun n => match n with
  | 0%nat => mkNode [(s "f", VSpan (s "x") (s "ab") 0 1)] (-1) None
  | 1%nat => mkNode [(s "f", VSpan (s "y") (s "ab") 0 1)] (-1) None
  | 2%nat => mkNode [(s "f", VInt 1)] (-1) None
  | _ => mkNode [] (-1) None end) 3%nat (fun l => mkLayer [] [] [] 0 []) 0%nat.
Theorem C60_error_refuted : exists tor1 tor2, (forall f, rearranges (tor1 f)) /\ (forall f, rearranges (tor2 f)) /\
  new_nodelist no_same tor1 keep_layers three_heap [Some 0; Some 1; Some 2]%nat None = Err AssertionError /\
  new_nodelist no_same tor2 keep_layers three_heap [Some 0; Some 1; Some 2]%nat None = Err ValueError.
Proof. exists (fun _ ts => ts), (fun _ ts => rev ts). split; [intros f l; apply Permutation_refl|]. split; [intros f l; apply Permutation_sym, Permutation_rev|]. split; vm_compute; reflexivity. Qed.
Print Assumptions C60_error_refuted.
Example C60_case : (forall f, rearranges (keep_types f)) /\ rearranges keep_layers /\
  new_nodelist no_same keep_types keep_layers two_heap [Some 0; Some 3; Some 1]%nat None =
    Ok (CList [(s "pos", T_string (VStr [])); (s "w", T_float64 (VFloat 0)); (s "id", T_int32 VNone)] [0; 3; 1]%nat) /\
  new_nodelist no_same keep_types keep_layers two_heap [Some 0; Some 4]%nat None = Err ValueError /\
  agree two_heap [1]%nat (s "id") /\ contributes two_heap [1]%nat (s "id") (T_int32 VNone) /\
  list_indices [] [5; 6; 7]%nat [2; -3; 0] = Ok (CList [] [7; 5; 5]%nat).
Proof.
  split; [intros f l; apply Permutation_refl|]. split; [intros l; apply Permutation_refl|]. split; [vm_compute; reflexivity|]. split; [vm_compute; reflexivity|]. split; [|split; [|vm_compute; reflexivity]].
  - assert (H : forall t, contributes two_heap [1]%nat (s "id") t -> dt_name t = TI32).
    { intros t [n l I C J|n v I C J Ty]; repeat destruct I as [I|I]; try contradiction; subst n; vm_compute in C; try discriminate C; injection C as <-; vm_compute in J;
      repeat destruct J as [J|J]; try contradiction; try discriminate J; injection J as <-; reflexivity. }
    intros t u Ht Hu. rewrite (H t Ht), (H u Hu). reflexivity.
  - apply (co_layer _ _ _ _ 1%nat 0%nat); vm_compute; auto.
Qed.

(** ** C61 *)
(** text and textspan: from the start of the left node's span to the stop of the right node's *)
Theorem C61_text : forall h a b f name name' t p q p' q',
  dget (n_fieldsof h a) f = Some (VSpan name t p q) -> dget (n_fieldsof h b) f = Some (VSpan name' t p' q') -> 0 <= p -> 0 <= q' <= zlen t ->
  nodespan_text h a b f = Ok (chars t p q') /\
  (p <= q' -> nodespan_textspan h a b f = Ok (VSpan name t p q')) /\ (q' < p -> p <= zlen t -> nodespan_textspan h a b f = Err DataValidationError).
Proof. exact span_text_ok. Qed.
Print Assumptions C61_text.
(** If the spans of the nodes are in reading order, the span covers each of them, and their strings are in the text. *)
Theorem C61_covers : forall h f name t x m y, in_order h f name t (x :: m ++ [y]) -> exists p q,
  nodespan_textspan h x y f = Ok (VSpan name t p q) /\ nodespan_text h x y f = Ok (chars t p q) /\
  (exists q0, field_span h f x name t p q0) /\ (exists p0, field_span h f y name t p0 q) /\
  forall n, In n (x :: m ++ [y]) -> exists c d, field_span h f n name t c d /\ p <= c /\ d <= q /\ exists u v, chars t p q = u ++ chars t c d ++ v.
Proof. exact span_covers. Qed.
Print Assumptions C61_covers.
(** Three tokens "The", "big", "cat"; node 3 has a span of another text. *)
Definition text_heap : heap := mkHeap (fun n => match n with
  | 0%nat => mkNode [(s "text", VSpan (s "main") (s "The big cat.") 0 3)] 0 (Some 0%nat)
  | 1%nat => mkNode [(s "text", VSpan (s "main") (s "The big cat.") 4 7)] 1 (Some 0%nat)
  | 2%nat => mkNode [(s "text", VSpan (s "main") (s "The big cat.") 8 11)] 2 (Some 0%nat)
  | 3%nat => mkNode [(s "text", VSpan (s "title") (s "Cats") 0 4)] 3 (Some 0%nat)
  | _ => mkNode [] (-1) None end) 4%nat
  (fun l => match l with 0%nat => mkLayer (s "token") [(s "text", T_span (s "main"))] [Some 0; Some 1; Some 2; Some 3]%nat 4 [] | _ => mkLayer [] [] [] 0 [] end) 1%nat.
(** With spans of two texts the answer is cut from the left node's text. *)
Theorem C61_two_texts_refuted : exists h a b f name t p q name' t' p' q' r, dget (n_fieldsof h a) f = Some (VSpan name t p q) /\ dget (n_fieldsof h b) f = Some (VSpan name' t' p' q') /\
  nodespan_text h a b f = Ok r /\ ~ exists u v, r = u ++ chars t' p' q' ++ v.
Proof.
  exists text_heap, 0%nat, 3%nat, (s "text"). do 9 eexists. split; [vm_compute; reflexivity|]. split; [vm_compute; reflexivity|]. split; [vm_compute; reflexivity|].
  intros (u & v & E). vm_compute in E. assert (L := f_equal (@List.length N) E). rewrite app_length in L. simpl in L. destruct u as [|x u]; [discriminate E|simpl in L; lia].
Qed.
Print Assumptions C61_two_texts_refuted.
Example C61_case : in_order text_heap (s "text") (s "main") (s "The big cat.") (0 :: [1] ++ [2])%nat /\ nodespan_iter text_heap 0%nat 2%nat = Ok [0; 1; 2]%nat /\
  nodespan_text text_heap 0%nat 2%nat (s "text") = Ok (s "The big cat") /\ nodespan_textspan text_heap 1%nat 2%nat (s "text") = Ok (VSpan (s "main") (s "The big cat.") 4 11).
Proof.
  split; [|vm_compute; repeat split]. assert (F : forall n a b, dget (n_fieldsof text_heap n) (s "text") = Some (VSpan (s "main") (s "The big cat.") a b) -> 0 <= a <= b -> b <= 12 -> field_span text_heap (s "text") n (s "main") (s "The big cat.") a b).
  { intros n a b E H1 H2. split; [exact E|]. split; [exact H1|]. exact H2. }
  simpl. eapply io_cons; [apply F; [vm_compute; reflexivity|lia|lia]|apply F; [vm_compute; reflexivity|lia|lia]|lia|lia|].
  eapply io_cons; [apply F; [vm_compute; reflexivity|lia|lia]|apply F; [vm_compute; reflexivity|lia|lia]|lia|lia|].
  eapply io_one; apply F; [vm_compute; reflexivity|lia|lia].
Qed.

(** ** C62 *)
(** first, last, len and to_list agree with iteration, for layers, node spans, lists and queries. *)
Theorem C62_ends : forall h c ns, wf h -> nodes_of h c ns -> coll_first h c = Ok (hd_error ns) /\ coll_last h c = Ok (hd_error (rev ns)).
Proof. exact coll_ends. Qed.
Print Assumptions C62_ends.
Theorem C62_length : forall h c ns, wf h -> nodes_of h c ns -> coll_len h c = Ok (zlen ns) /\ field_len h c = Ok (zlen ns).
Proof. exact coll_length. Qed.
Print Assumptions C62_length.
Theorem C62_to_list : forall same h c ns, nodes_of h c ns -> coll_to_list same h c = Ok (CList (coll_fields h c) ns).
Proof. exact to_list_ok. Qed.
Print Assumptions C62_to_list.
(** Membership, for lists and layers.  Missing from the full statement: node spans and queries, see C62_member_refuted. *)
Theorem C62_list_member_partial : forall h fs ns n, coll_has h (CList fs ns) n = true <-> In n ns.
Proof. exact list_has. Qed.
Print Assumptions C62_list_member_partial.
Theorem C62_layer_member_partial : forall h l n, wf h -> coll_has h (CLayer l) n = true <-> In (Some n) (layer_iter h l).
Proof. exact layer_has. Qed.
Print Assumptions C62_layer_member_partial.
(** validate() passes exactly if every declared field that a node has is valid. *)
Theorem C62_validate : forall h c ns, nodes_of h c ns -> (forall l, c <> CLayer l) -> NoDup (dkeys (coll_fields h c)) ->
  coll_validate h c = Ok tt <-> forall n, In n ns -> forall f t v, dget (coll_fields h c) f = Some t -> dget (n_fieldsof h n) f = Some v -> is_valid h t v = Ok true.
Proof. exact coll_validate_ok. Qed.
Print Assumptions C62_validate.
(** list[field][i] is the field of the i-th node; KeyError where iteration gives None *)
Theorem C62_field_item : forall h fs ns f i n v, doc_item ns i = Ok n -> dget (n_fieldsof h n) f = Some v -> field_int h (CList fs ns) f i = Ok v.
Proof. exact field_int_list. Qed.
Print Assumptions C62_field_item.
Theorem C62_field_absent : forall h fs ns f i n, doc_item ns i = Ok n -> dget (n_fieldsof h n) f = None -> field_int h (CList fs ns) f i = Err KeyError.
Proof. exact field_int_absent. Qed.
Print Assumptions C62_field_absent.
(** The nodes of a node span or of a query are not "in" it. *)
Theorem C62_member_refuted : exists h a b ns, wf h /\ nodes_of h (CSpan a b) ns /\ (3 <= length ns)%nat /\ (forall n, In n ns -> coll_has h (CSpan a b) n = false) /\
  exists q p, query no_same h (CSpan a b) p = Ok q /\ nodes_of h q ns /\ forall n, In n ns -> coll_has h q n = false.
Proof.
  exists demo, 1%nat, 4%nat, [1; 3; 4]%nat. split; [exact demo_wf|]. split; [vm_compute; reflexivity|]. split; [simpl; auto|].
  split; [intros n [<-|[<-|[<-|[]]]]; vm_compute; reflexivity|].
  eexists. exists (PFun (fun _ _ => Ok true)). split; [vm_compute; reflexivity|]. split; [vm_compute; reflexivity|]. intros n [<-|[<-|[<-|[]]]]; vm_compute; reflexivity.
Qed.
Print Assumptions C62_member_refuted.
Example C62_case : wf demo /\ nodes_of demo (CSpan 1%nat 4%nat) [1; 3; 4]%nat /\ coll_first demo (CSpan 1%nat 4%nat) = Ok (Some 1%nat) /\ coll_last demo (CSpan 1%nat 4%nat) = Ok (Some 4%nat) /\
  nodes_of demo (CLayer 0%nat) [0; 1; 3; 4]%nat /\ coll_last demo (CLayer 0%nat) = Ok (Some 4%nat) /\ coll_first demo (CList [] []) = Ok None /\
  coll_validate text_heap (CSpan 0%nat 2%nat) = Ok tt /\ coll_validate text_heap (CSpan 0%nat 3%nat) = Err AssertionError /\ NoDup (dkeys (coll_fields text_heap (CSpan 0%nat 3%nat))).
Proof. split; [exact demo_wf|]. vm_compute. repeat split; auto. repeat constructor; simpl; tauto. Qed.
