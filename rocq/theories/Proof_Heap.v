(** Accessor lemmas for heap updates, and facts about [live]. *)
From Verif Require Import PyBase PyBaseFacts Model_Heap Model_Layer Model_Types Spec_Layer.
Local Open Scope Z_scope.

Ltac heap_acc := intros;
  unfold n_idof, n_collof, n_fieldsof, l_nodesof, l_numof, l_nameof,
    set_id, set_coll, set_fields, set_nodes, set_num, set_schema, set_node, set_layer, upd; simpl;
  repeat match goal with |- context [Nat.eqb ?a ?b] => destruct (Nat.eqb_spec a b); subst end; try reflexivity.

Section Acc.
Variables (h : heap) (n m : nid) (l k : lid).
Lemma id_set_id i : n_idof (set_id h n i) m = if Nat.eqb m n then i else n_idof h m. Proof. heap_acc. Qed.
Lemma id_set_coll c : n_idof (set_coll h n c) m = n_idof h m. Proof. heap_acc. Qed.
Lemma id_set_fields f : n_idof (set_fields h n f) m = n_idof h m. Proof. heap_acc. Qed.
Lemma id_set_nodes x : n_idof (set_nodes h l x) m = n_idof h m. Proof. reflexivity. Qed.
Lemma id_set_num x : n_idof (set_num h l x) m = n_idof h m. Proof. reflexivity. Qed.
Lemma id_set_schema x y : n_idof (set_schema h l x y) m = n_idof h m. Proof. reflexivity. Qed.
Lemma coll_set_id i : n_collof (set_id h n i) m = n_collof h m. Proof. heap_acc. Qed.
Lemma coll_set_coll c : n_collof (set_coll h n c) m = if Nat.eqb m n then c else n_collof h m. Proof. heap_acc. Qed.
Lemma coll_set_fields f : n_collof (set_fields h n f) m = n_collof h m. Proof. heap_acc. Qed.
Lemma coll_set_nodes x : n_collof (set_nodes h l x) m = n_collof h m. Proof. reflexivity. Qed.
Lemma coll_set_num x : n_collof (set_num h l x) m = n_collof h m. Proof. reflexivity. Qed.
Lemma coll_set_schema x y : n_collof (set_schema h l x y) m = n_collof h m. Proof. reflexivity. Qed.
Lemma fields_set_id i : n_fieldsof (set_id h n i) m = n_fieldsof h m. Proof. heap_acc. Qed.
Lemma fields_set_coll c : n_fieldsof (set_coll h n c) m = n_fieldsof h m. Proof. heap_acc. Qed.
Lemma fields_set_fields f : n_fieldsof (set_fields h n f) m = if Nat.eqb m n then f else n_fieldsof h m. Proof. heap_acc. Qed.
Lemma fields_set_nodes x : n_fieldsof (set_nodes h l x) m = n_fieldsof h m. Proof. reflexivity. Qed.
Lemma fields_set_num x : n_fieldsof (set_num h l x) m = n_fieldsof h m. Proof. reflexivity. Qed.
Lemma fields_set_schema x y : n_fieldsof (set_schema h l x y) m = n_fieldsof h m. Proof. reflexivity. Qed.
Lemma layer_set_id i : h_layer (set_id h n i) = h_layer h. Proof. reflexivity. Qed.
Lemma layer_set_coll i : h_layer (set_coll h n i) = h_layer h. Proof. reflexivity. Qed.
Lemma layer_set_fields i : h_layer (set_fields h n i) = h_layer h. Proof. reflexivity. Qed.
Lemma nodes_set_id i : l_nodesof (set_id h n i) k = l_nodesof h k. Proof. reflexivity. Qed.
Lemma nodes_set_coll i : l_nodesof (set_coll h n i) k = l_nodesof h k. Proof. reflexivity. Qed.
Lemma nodes_set_fields i : l_nodesof (set_fields h n i) k = l_nodesof h k. Proof. reflexivity. Qed.
Lemma nodes_set_nodes x : l_nodesof (set_nodes h l x) k = if Nat.eqb k l then x else l_nodesof h k. Proof. heap_acc. Qed.
Lemma nodes_set_num x : l_nodesof (set_num h l x) k = l_nodesof h k. Proof. heap_acc. Qed.
Lemma nodes_set_schema x y : l_nodesof (set_schema h l x y) k = l_nodesof h k. Proof. heap_acc. Qed.
Lemma num_set_id i : l_numof (set_id h n i) k = l_numof h k. Proof. reflexivity. Qed.
Lemma num_set_coll i : l_numof (set_coll h n i) k = l_numof h k. Proof. reflexivity. Qed.
Lemma num_set_fields i : l_numof (set_fields h n i) k = l_numof h k. Proof. reflexivity. Qed.
Lemma num_set_nodes x : l_numof (set_nodes h l x) k = l_numof h k. Proof. heap_acc. Qed.
Lemma num_set_num x : l_numof (set_num h l x) k = if Nat.eqb k l then x else l_numof h k. Proof. heap_acc. Qed.
Lemma num_set_schema x y : l_numof (set_schema h l x y) k = l_numof h k. Proof. heap_acc. Qed.
Lemma name_set_nodes x : l_nameof (set_nodes h l x) k = l_nameof h k. Proof. heap_acc. Qed.
Lemma name_set_num x : l_nameof (set_num h l x) k = l_nameof h k. Proof. heap_acc. Qed.
Lemma name_set_schema x y : l_nameof (set_schema h l x y) k = l_nameof h k. Proof. heap_acc. Qed.
Lemma schema_set_nodes x : l_fields (h_layer (set_nodes h l x) k) = l_fields (h_layer h k). Proof. heap_acc. Qed.
Lemma schema_set_num x : l_fields (h_layer (set_num h l x) k) = l_fields (h_layer h k). Proof. heap_acc. Qed.
Lemma schema_set_schema x y : l_fields (h_layer (set_schema h l x y) k) = if Nat.eqb k l then x else l_fields (h_layer h k). Proof. heap_acc. Qed.
Lemma defaults_set_nodes x : l_defaults (h_layer (set_nodes h l x) k) = l_defaults (h_layer h k). Proof. heap_acc. Qed.
Lemma defaults_set_num x : l_defaults (h_layer (set_num h l x) k) = l_defaults (h_layer h k). Proof. heap_acc. Qed.
Lemma defaults_set_schema x y : l_defaults (h_layer (set_schema h l x y) k) = if Nat.eqb k l then y else l_defaults (h_layer h k). Proof. heap_acc. Qed.
Lemma layer_set_nodes_other x : k <> l -> h_layer (set_nodes h l x) k = h_layer h k. Proof. heap_acc; congruence. Qed.
Lemma layer_set_num_other x : k <> l -> h_layer (set_num h l x) k = h_layer h k. Proof. heap_acc; congruence. Qed.
Lemma layer_set_schema_other x y : k <> l -> h_layer (set_schema h l x y) k = h_layer h k. Proof. heap_acc; congruence. Qed.
End Acc.
Global Hint Rewrite id_set_id id_set_coll id_set_fields id_set_nodes id_set_num id_set_schema
  coll_set_id coll_set_coll coll_set_fields coll_set_nodes coll_set_num coll_set_schema
  fields_set_id fields_set_coll fields_set_fields fields_set_nodes fields_set_num fields_set_schema
  layer_set_id layer_set_coll layer_set_fields
  nodes_set_id nodes_set_coll nodes_set_fields nodes_set_nodes nodes_set_num nodes_set_schema
  num_set_id num_set_coll num_set_fields num_set_nodes num_set_num num_set_schema
  name_set_nodes name_set_num name_set_schema
  schema_set_nodes schema_set_num schema_set_schema
  defaults_set_nodes defaults_set_num defaults_set_schema
  Nat.eqb_refl : heap.
Ltac hs := autorewrite with heap in *.

(** live *)
Lemma live_app a b : live (a ++ b) = live a ++ live b.
Proof. induction a as [|[n|] a IH]; simpl; [reflexivity|f_equal; assumption|assumption]. Qed.
Lemma live_map_some l : live (map Some l) = l.
Proof. induction l; simpl; [reflexivity|f_equal; assumption]. Qed.
Lemma live_In n l : In n (live l) <-> In (Some n) l.
Proof.
  induction l as [|[m|] l IH]; simpl; [tauto| |].
  - rewrite IH. split; intros [H|H]; auto; left; congruence.
  - rewrite IH. split; auto. intros [H|H]; [discriminate|assumption].
Qed.
Lemma live_length_le l : (length (live l) <= length l)%nat.
Proof. induction l as [|[m|] l IH]; simpl; lia. Qed.
Lemma live_length_full l : length (live l) = length l -> l = map Some (live l).
Proof.
  induction l as [|[m|] l IH]; simpl; intros H; [reflexivity|f_equal; apply IH; lia|].
  pose proof (live_length_le l). lia.
Qed.
Lemma live_no_none l : ~ In None l -> l = map Some (live l).
Proof.
  induction l as [|[m|] l IH]; simpl; intros H; [reflexivity|f_equal; apply IH; tauto|tauto].
Qed.
Lemma live_upd_none l : forall k n, nth_error l k = Some (Some n) ->
  live (upd_nth l k None) = live (firstn k l) ++ live (skipn (S k) l) /\ live l = live (firstn k l) ++ n :: live (skipn (S k) l).
Proof.
  induction l as [|x l IH]; intros [|k] n H; simpl in H; try discriminate.
  - injection H as ->. simpl. split; reflexivity.
  - destruct (IH _ _ H) as [E1 E2]. destruct x as [m|]; simpl; [split; f_equal; assumption|split; assumption].
Qed.
Lemma nth_error_live_In l k n : nth_error l k = Some (Some n) -> In n (live l).
Proof. intros H. apply live_In. eapply nth_error_In; eauto. Qed.
