(** Proofs about documents written without validation: what is read back. *)
From Verif Require Import PyBase PyBaseFacts Model_Text Model_Heap Model_Layer Model_Types Model_Msgpack Model_Document Model_Query Model_Coerce Model_Codec
  Spec_Layer Spec_Types Spec_Msgpack Spec_Document Spec_Codec Spec_Query Spec_Coerce
  Proof_Msgpack Proof_Layer4 Proof_Document Proof_Layout Proof_Codec Proof_Codec2 Proof_Coerce Proof_Coerce2 Proof_Coerce3 Proof_Coerce4.
Local Open Scope Z_scope.

Definition plainb (t : tname) : bool := match t with TI32 | TI64 | TF64 | TBool | TString | TBinary => true | _ => false end.
Lemma plainb_spec t : plainb t = true <-> plain_type t.
Proof. unfold plain_type. simpl. destruct t; cbn [plainb]; split; intros H; try discriminate; try reflexivity; try tauto; exfalso; intuition discriminate. Qed.
Definition cell_value (c : res (list mobj)) (v : value) : value :=
  match c with
  | Ok [MInt i] => VInt i | Ok [MFloat b] => VFloat b | Ok [MBool b] => VBool b | Ok [MStr x] => VStr x | Ok [MBin x] => VBytes x
  | _ => v
  end.
(** what the value becomes *)
Definition coerce (h : heap) (t : tname) (v : value) : value := if plainb t then cell_value (encode_cell h [] t v) v else v.
Lemma typed_cell h offs t v w : plain_type t -> of_type t v -> v <> VNone -> cell_value (encode_cell h offs t v) w = v.
Proof. unfold plain_type. simpl. intros Ht O Nv. destruct v; cbn [of_type] in O; try contradiction; try congruence; simpl in O; repeat (destruct Ht as [<-|Ht]); try contradiction; try discriminate; try reflexivity; intuition discriminate. Qed.
Lemma typed_heap h h' offs offs' t v : plain_type t -> of_type t v -> encode_cell h offs t v = encode_cell h' offs' t v.
Proof. unfold plain_type. simpl. intros Ht O. destruct v; cbn [of_type] in O; try contradiction; simpl in O; repeat (destruct Ht as [<-|Ht]); try contradiction; try discriminate; try reflexivity; intuition discriminate. Qed.
Lemma none_cell h offs t : plain_type t -> encode_cell h offs t VNone = Ok [MNil].
Proof. unfold plain_type. simpl. intros Ht. repeat (destruct Ht as [<-|Ht]; [reflexivity|]). contradiction. Qed.
Lemma of_type_dec t v : {of_type t v} + {~ of_type t v}.
Proof. destruct v; cbn [of_type]; auto; destruct t; simpl; try (left; tauto); right; intuition discriminate. Qed.
Lemma coerce_cell h t v c offs : wf h -> plain_type t -> proper v -> encode_cell h offs t v = Ok c ->
  proper (coerce h t v) /\ of_type t (coerce h t v) /\ encode_cell h offs t (coerce h t v) = Ok c /\ (coerce h t v = v \/ converts h t v (coerce h t v)).
Proof.
  intros W Ht P E. unfold coerce. rewrite (proj2 (plainb_spec t) Ht). assert (E0 : encode_cell h [] t v = Ok c).
  { rewrite <- E. unfold plain_type in Ht. simpl in Ht. repeat (destruct Ht as [<-|Ht]; [reflexivity|]). contradiction. }
  destruct (of_type_dec t v) as [O|O].
  - assert (Ev : cell_value (encode_cell h [] t v) v = v).
    { destruct v; try (apply typed_cell; [assumption|assumption|discriminate]). rewrite none_cell by exact Ht. reflexivity. }
    rewrite Ev. auto.
  - destruct (cell_outcome h offs t v W Ht P O) as [(v' & C & P' & O' & N' & Ec)|[(e & _ & Ec)|[_ Ec]]]; [|congruence|congruence].
    assert (Ev : cell_value (encode_cell h [] t v) v = v').
    { rewrite E0, <- E, Ec. apply typed_cell; assumption. }
    rewrite Ev. rewrite <- Ec. auto.
Qed.
Lemma typed_ok h d t v : plain_type (dt_name t) -> of_type (dt_name t) v -> proper v -> value_ok h d t v.
Proof.
  intros Ht O P. destruct v; cbn [of_type proper] in *; try contradiction.
  - apply vo_none. intros E. rewrite E in Ht. unfold plain_type in Ht. simpl in Ht. intuition discriminate.
  - apply vo_bool. exact O.
  - apply vo_int. exact O.
  - apply vo_float; [exact O|exact P].
  - apply vo_str. exact O.
  - apply vo_bytes; [exact O|exact P].
Qed.

(** ** Heaps that differ only in the fields of nodes *)
Record alike (h k : heap) : Prop := {
  al_id : forall n, n_idof k n = n_idof h n;
  al_coll : forall n, n_collof k n = n_collof h n;
  al_layer : forall l, h_layer k l = h_layer h l;
  al_nnext : h_nnext k = h_nnext h;
  al_lnext : h_lnext k = h_lnext h }.
Lemma alike_set_id h k n i : alike h k -> alike (set_id h n i) (set_id k n i).
Proof.
  intros [A B C D E]. split; try assumption.
  - intros m. unfold n_idof, set_id, set_node, upd. cbn [h_node]. destruct (Nat.eqb m n); [reflexivity|apply A].
  - intros m. specialize (B m). pose proof (B : n_collof k m = n_collof h m) as B'. unfold n_collof, set_id, set_node, upd in *. cbn [h_node]. destruct (Nat.eqb_spec m n) as [->|]; cbn [n_coll]; exact B.
Qed.
Lemma alike_set_nodes h k l x : alike h k -> alike (set_nodes h l x) (set_nodes k l x).
Proof.
  intros [A B C D E]. split; try assumption. intros m. unfold set_nodes, set_layer, upd. cbn [h_layer]. rewrite C. destruct (Nat.eqb m l); [reflexivity|apply C].
Qed.
Lemma alike_renumber ns : forall h k i, alike h k -> alike (renumber h i ns) (renumber k i ns).
Proof. induction ns as [|n ns IH]; intros h k i A; [exact A|]. cbn [renumber]. apply IH, alike_set_id, A. Qed.
Lemma alike_nodes h k l : alike h k -> l_nodesof k l = l_nodesof h l.
Proof. intros A. unfold l_nodesof. rewrite (al_layer _ _ A). reflexivity. Qed.
Lemma alike_num h k l : alike h k -> l_numof k l = l_numof h l.
Proof. intros A. unfold l_numof. rewrite (al_layer _ _ A). reflexivity. Qed.
Lemma alike_compact_loop todo : forall h k l i j, alike h k -> alike (fst (compact_loop h l i j todo)) (fst (compact_loop k l i j todo)) /\ snd (compact_loop k l i j todo) = snd (compact_loop h l i j todo).
Proof.
  induction todo as [|todo IH]; intros h k l i j A; [split; [exact A|reflexivity]|]. cbn [compact_loop]. rewrite (alike_nodes h k l A). destruct (nth_error (l_nodesof h l) i) as [[n|]|]; [|apply IH, A|apply IH, A].
  apply IH, alike_set_id, alike_set_nodes, A.
Qed.
Lemma alike_compact h k l : alike h k -> alike (compact h l) (compact k l).
Proof.
  intros A. unfold compact. rewrite (alike_nodes h k l A), (alike_num h k l A). destruct (_ =? _); [exact A|].
  destruct (alike_compact_loop (length (l_nodesof h l)) h k l 0 0 A) as [A' E]. destruct (compact_loop h l 0 0 _) as [h' i], (compact_loop k l 0 0 _) as [k' i']. cbn [fst snd] in *. subst i'.
  rewrite (alike_nodes h' k' l A'). apply alike_set_nodes, A'.
Qed.
Lemma alike_iter h k l : alike h k -> layer_iter k l = layer_iter h l.
Proof. intros A. unfold layer_iter. rewrite (alike_nodes h k l A), (alike_num h k l A). reflexivity. Qed.
Lemma alike_prepare h k l : alike h k -> alike (layer_prepare h l) (layer_prepare k l).
Proof. intros A. unfold layer_prepare. rewrite (alike_iter h k l A). unfold layer_len. rewrite (alike_num h k l A). apply alike_compact, alike_renumber, A. Qed.
Lemma fields_set_id h n i m : n_fieldsof (set_id h n i) m = n_fieldsof h m.
Proof. unfold n_fieldsof, set_id, set_node, upd. cbn [h_node]. destruct (Nat.eqb_spec m n) as [->|]; reflexivity. Qed.
Lemma fields_prepare h l n : n_fieldsof (layer_prepare h l) n = n_fieldsof h n.
Proof.
  unfold layer_prepare. set (ns := firstn _ _). assert (E : forall h i, n_fieldsof (renumber h i ns) n = n_fieldsof h n).
  { induction ns as [|m ns IH]; intros h' i; [reflexivity|]. cbn [renumber]. rewrite IH. apply fields_set_id. }
  rewrite <- (E h 0). set (h' := renumber h 0 ns). clearbody h'. unfold compact. destruct (_ =? _); [reflexivity|].
  assert (C : forall todo h i j, n_fieldsof (fst (compact_loop h l i j todo)) n = n_fieldsof h n).
  { induction todo as [|todo IH]; intros h'' i j; [reflexivity|]. cbn [compact_loop]. destruct (nth_error _ i) as [[m|]|]; [|apply IH|apply IH]. rewrite IH, fields_set_id. reflexivity. }
  specialize (C (length (l_nodesof h' l)) h' 0%nat 0%nat). destruct (compact_loop h' l 0 0 _) as [h'' i]. cbn [fst] in C. exact C.
Qed.
Lemma alike_node_i h k n : alike h k -> node_i k n = node_i h n.
Proof. intros A. unfold node_i. rewrite (al_id _ _ A). reflexivity. Qed.
Lemma alike_nodespan h k a b : alike h k -> nodespan_iter k a b = nodespan_iter h a b.
Proof.
  intros A. unfold nodespan_iter, iter_span, iter_nodespan. rewrite !(alike_node_i h k _ A), !(al_coll _ _ A).
  destruct (node_i h a) as [ia|]; [|reflexivity]. destruct (node_i h b) as [ib|]; [|reflexivity]. cbn [rbind]. destruct (negb _); [reflexivity|]. destruct (n_collof h a) as [l|]; [|reflexivity].
  rewrite !(alike_nodes h k _ A). reflexivity.
Qed.
Lemma alike_wf h k : alike h k -> wf h -> wf k.
Proof.
  intros A W. split.
  - intros l. destruct (wf_layers h W l) as [N S C]. unfold content in *. split.
    + unfold content. rewrite (alike_nodes h k l A), (alike_num h k l A). exact N.
    + intros i n H. rewrite (alike_nodes h k l A) in H. rewrite (al_id _ _ A), (al_coll _ _ A). apply S, H.
    + intros n H. rewrite (al_coll _ _ A) in H. rewrite (al_id _ _ A), (alike_nodes h k l A). apply C, H.
  - intros n H. rewrite (al_nnext _ _ A) in H. rewrite (al_coll _ _ A). apply (wf_fresh_n h W), H.
  - intros l H. rewrite (al_lnext _ _ A) in H. rewrite (alike_nodes h k l A). apply (wf_fresh_l h W), H.
  - intros l. rewrite (al_layer _ _ A). apply (wf_defaults h W).
  - intros l. rewrite (al_layer _ _ A). apply (wf_schema h W).
Qed.
Lemma alike_own_node h k d x n : alike h k -> own_node h d x n -> own_node k d x n.
Proof. intros A (l & p & E & P). exists l, p. split; [exact E|]. unfold at_pos in *. rewrite (alike_iter h k l A). exact P. Qed.
Lemma alike_own_span h k d x a b : alike h k -> own_span h d x a b -> own_span k d x a b.
Proof. intros A (l & p & q & E & P & Q & L). exists l, p, q. unfold at_pos in *. rewrite (alike_iter h k l A). auto. Qed.
Lemma alike_value_ok h k d t v : alike h k -> value_ok h d t v -> value_ok k d t v.
Proof.
  intros A H. destruct H; try solve [econstructor; eauto].
  - eapply vo_node; eauto using alike_own_node.
  - eapply vo_many; eauto. eapply Forall_impl; [|eassumption]. intros n. apply alike_own_node, A.
  - eapply vo_coll; eauto using alike_own_span.
  - eapply vo_nodespan; eauto using alike_own_span.
Qed.
Lemma alike_cell h k d0 hd offs t v : alike h k -> ~ plain_type (dt_name t) -> value_ok hd d0 t v -> encode_cell k offs (dt_name t) v = encode_cell h offs (dt_name t) v.
Proof.
  intros A Np H. assert (Em : forall l, mapM (elem_i k) l = mapM (elem_i h) l).
  { induction l as [|o l IH]; [reflexivity|]. cbn [mapM]. rewrite IH. destruct o; cbn [elem_i]; [rewrite (alike_node_i h k _ A)|]; reflexivity. }
  destruct H as [Ht|i Ht|b Ht|b Ht Hb|b Ht|x Ht|x Ht Hx|cx txt a b Ht Et L1 L2|x n Ht Hx Ho|x ns Ht Hx Ho|x a b Ht Hx Ho|x a b Ht Hx Ho].
  - destruct (dt_name t); reflexivity.
  - exfalso. apply Np. unfold plain_type. simpl in *. tauto.
  - exfalso. apply Np. unfold plain_type. simpl in *. tauto.
  - exfalso. apply Np. unfold plain_type. rewrite Ht. simpl. tauto.
  - exfalso. apply Np. unfold plain_type. rewrite Ht. simpl. tauto.
  - exfalso. apply Np. unfold plain_type. rewrite Ht. simpl. tauto.
  - exfalso. apply Np. unfold plain_type. rewrite Ht. simpl. tauto.
  - destruct Ht as [-> _]. reflexivity.
  - rewrite Ht. cbn [encode_cell]. rewrite (alike_node_i h k _ A). reflexivity.
  - rewrite Ht. cbn [encode_cell value_elems rbind]. destruct (map Some ns); [reflexivity|]. rewrite Em. reflexivity.
  - rewrite Ht. cbn [encode_cell value_elems]. rewrite (alike_nodespan h k a b A). destruct (nodespan_iter h a b) as [l|]; [|reflexivity]. cbn [rbind]. destruct (map Some l); [reflexivity|]. rewrite Em. reflexivity.
  - rewrite Ht. cbn [encode_cell value_left value_right rbind elem_i]. rewrite !(alike_node_i h k _ A). reflexivity.
Qed.
