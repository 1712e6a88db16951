(** Calls touch only what they are given. *)
From Verif Require Import PyBase PyBaseFacts Model_Heap Model_Layer Model_Types Model_Msgpack Model_Document Model_Codec
  Spec_Layer Spec_History Spec_Document Spec_Codec Spec_Program Spec_Local Proof_Heap.
Local Open Scope Z_scope.

Section A.
Variable a : area.
Definition from (h0 h : heap) : Prop := closed_area a h /\ rest_same a h0 h.
Lemma from_refl h : closed_area a h -> from h h.
Proof. intros C. split; [exact C|]. split; reflexivity. Qed.
Lemma node_set h n x m : m <> n -> h_node (set_node h n x) m = h_node h m.
Proof. intros D. unfold set_node, upd. simpl. destruct (Nat.eqb_spec m n); congruence. Qed.
Lemma layer_set h n x m : m <> n -> h_layer (set_layer h n x) m = h_layer h m.
Proof. intros D. unfold set_layer, upd. simpl. destruct (Nat.eqb_spec m n); congruence. Qed.
Lemma from_node h0 h n x : from h0 h -> a_node a n -> (forall l, n_coll x = Some l -> n_collof h n = Some l \/ a_layer a l) -> from h0 (set_node h n x).
Proof.
  intros [[C1 C2 C3 C4] [R1 R2]] A X. split; [split|split].
  - exact C1.
  - intros m l Am E. unfold n_collof, set_node, upd in E. simpl in E. destruct (Nat.eqb_spec m n) as [->|D]; [|exact (C2 m l Am E)].
    destruct (X l E) as [Y|Y]; [exact (C2 n l Am Y)|exact Y].
  - exact C3.
  - exact C4.
  - intros m Dm. rewrite node_set; [exact (R1 m Dm)|]. intros ->. contradiction.
  - exact R2.
Qed.
Lemma from_layer h0 h l x : from h0 h -> a_layer a l -> (forall n, In (Some n) (l_nodes x) -> a_node a n) -> from h0 (set_layer h l x).
Proof.
  intros [[C1 C2 C3 C4] [R1 R2]] A X. split; [split|split].
  - intros k n Ak E. unfold l_nodesof, set_layer, upd in E. simpl in E. destruct (Nat.eqb_spec k l) as [->|D]; [exact (X n E)|exact (C1 k n Ak E)].
  - exact C2.
  - exact C3.
  - exact C4.
  - exact R1.
  - intros m Dm. rewrite layer_set; [exact (R2 m Dm)|]. intros ->. contradiction.
Qed.
Lemma from_id h0 h n i : from h0 h -> a_node a n -> from h0 (set_id h n i).
Proof. intros F A. apply from_node; auto. Qed.
Lemma from_fields h0 h n f : from h0 h -> a_node a n -> from h0 (set_fields h n f).
Proof. intros F A. apply from_node; auto. Qed.
Lemma from_coll h0 h n c : from h0 h -> a_node a n -> (forall l, c = Some l -> a_layer a l) -> from h0 (set_coll h n c).
Proof. intros F A X. apply from_node; auto. Qed.
Lemma from_nodes h0 h l x : from h0 h -> a_layer a l -> (forall n, In (Some n) x -> a_node a n) -> from h0 (set_nodes h l x).
Proof. intros F A X. apply from_layer; auto. Qed.
Lemma from_num h0 h l x : from h0 h -> a_layer a l -> from h0 (set_num h l x).
Proof. intros F A. apply from_layer; auto. intros n. exact (cl_slot _ _ (proj1 F) l n A). Qed.
Lemma from_schema h0 h l x y : from h0 h -> a_layer a l -> from h0 (set_schema h l x y).
Proof. intros F A. apply from_layer; auto. intros n. exact (cl_slot _ _ (proj1 F) l n A). Qed.
Lemma from_slot h0 h l n : from h0 h -> a_layer a l -> In (Some n) (l_nodesof h l) -> a_node a n.
Proof. intros F A I. exact (cl_slot _ _ (proj1 F) l n A I). Qed.
Lemma upd_in {A} (l : list A) k x y : In y (upd_nth l k x) -> y = x \/ In y l.
Proof. revert k. induction l as [|z l IH]; intros [|k]; simpl; intros H; [contradiction|contradiction| |]; destruct H as [<-|H]; auto. destruct (IH _ H); auto. Qed.
Lemma setitem_in {A} (l l' : list A) k x y : py_setitem l k x = Ok l' -> In y l' -> y = x \/ In y l.
Proof. unfold py_setitem. destruct (py_index (zlen l) k); [|discriminate]. intros [= <-]. apply upd_in. Qed.
Lemma live_in (x : list (option nid)) n : In n (live x) <-> In (Some n) x.
Proof. induction x as [|[m|] x IH]; simpl; [tauto| |]; rewrite IH; intuition congruence. Qed.
Lemma iter_in h l n : In (Some n) (layer_iter h l) -> In (Some n) (l_nodesof h l).
Proof. unfold layer_iter. destruct (_ =? _); [auto|]. rewrite in_map_iff. intros (m & [= <-] & I). apply live_in. exact I. Qed.
Lemma in_firstn {A} k (l : list A) x : In x (firstn k l) -> In x l.
Proof. revert l. induction k as [|k IH]; intros [|y l]; simpl; auto; try contradiction. intros [->|H]; auto. Qed.
Lemma in_skipn {A} k (l : list A) x : In x (skipn k l) -> In x l.
Proof. revert l. induction k as [|k IH]; intros [|y l]; simpl; auto. Qed.

Lemma from_compact_loop h0 l : a_layer a l -> forall todo h k i, from h0 h -> from h0 (fst (compact_loop h l k i todo)).
Proof.
  intros A. induction todo as [|t IH]; intros h k i F; cbn [compact_loop]; [exact F|].
  destruct (nth_error (l_nodesof h l) k) as [[n|]|] eqn:E; [|apply IH; exact F|apply IH; exact F].
  apply nth_error_In in E. apply IH. apply from_id; [|exact (from_slot _ _ _ _ F A E)]. apply from_nodes; auto.
  intros m Hm. apply upd_in in Hm. destruct Hm as [[= ->]|Hm]; [exact (from_slot _ _ _ _ F A E)|exact (from_slot _ _ _ _ F A Hm)].
Qed.
Lemma from_compact h0 h l : from h0 h -> a_layer a l -> from h0 (compact h l).
Proof.
  intros F A. unfold compact. destruct (_ =? _); [exact F|]. pose proof (from_compact_loop h0 l A (length (l_nodesof h l)) h 0 0 F) as G.
  destruct (compact_loop h l 0 0 (length (l_nodesof h l))) as [h' i]. cbn [fst] in G. apply from_nodes; auto. intros n I. exact (from_slot _ _ _ _ G A (in_firstn _ _ _ I)).
Qed.
Lemma from_auto h0 h l : from h0 h -> a_layer a l -> from h0 (auto_compact h l).
Proof. intros F A. unfold auto_compact. destruct (_ && _); [apply from_compact; auto|exact F]. Qed.
Lemma from_drop h0 h l n : from h0 h -> a_layer a l -> a_node a n -> from h0 (fst (drop_node h l n)).
Proof.
  intros F A N. unfold drop_node. destruct (py_setitem _ _ _) as [ns|e] eqn:E; [|exact F]. cbn [fst]. apply from_coll; [|exact N|discriminate].
  apply from_num; auto. apply from_nodes; auto. intros m I. destruct (setitem_in _ _ _ _ _ E I) as [X|X]; [discriminate|exact (from_slot _ _ _ _ F A X)].
Qed.
Lemma from_remove h0 h l n : from h0 h -> a_layer a l -> a_node a n -> from h0 (fst (layer_remove h l n)).
Proof.
  intros F A N. unfold layer_remove. destruct (layer_contains h l n); [|exact F]. pose proof (from_drop h0 h l n F A N) as G.
  destruct (drop_node h l n) as [h' [u|e]]; [apply from_auto; auto|exact G].
Qed.
Lemma from_remove_loop h0 l shown : a_layer a l -> forall items h, from h0 h -> Forall (a_node a) (ritem_nodes items) -> from h0 (fst (remove_loop h l shown items)).
Proof.
  intros A. induction items as [|[n| |] items IH]; intros h F N; cbn [remove_loop ritem_nodes] in *; [exact F| |apply IH; auto|exact F].
  inversion N as [|? ? N1 N2]; subst. destruct (layer_contains h l n); [|exact F]. pose proof (from_drop h0 h l n F A N1) as G.
  destruct (drop_node h l n) as [h' [u|e]]; [apply IH; auto|exact G].
Qed.
Lemma from_remove_many h0 h l b items : from h0 h -> a_layer a l -> Forall (a_node a) (ritem_nodes items) -> from h0 (fst (layer_remove_many h l b items)).
Proof.
  intros F A N. unfold layer_remove_many. pose proof (from_remove_loop h0 l (if b then ritem_nodes items else []) A items h F N) as G.
  destruct (remove_loop _ _ _ _) as [h' [u|e]]; [apply from_auto; auto|exact G].
Qed.
Lemma from_detach h0 h n : from h0 h -> a_node a n -> from h0 (fst (node_detach h n)).
Proof.
  intros F N. unfold node_detach. destruct (n_collof h n) as [l|] eqn:E; [|exact F]. apply from_remove; auto. exact (cl_coll _ _ (proj1 F) n l N E).
Qed.
Lemma from_append h0 h l n : from h0 h -> a_layer a l -> a_node a n -> from h0 (append_node h l n).
Proof.
  intros F A N. unfold append_node. apply from_num; auto. apply from_nodes; auto. intros m I. apply in_app_or in I.
  destruct I as [I|[[= ->]|[]]]; [exact (from_slot _ _ _ _ F A I)|exact N].
Qed.
Lemma from_bind h0 h l n : from h0 h -> a_layer a l -> a_node a n -> from h0 (bind_node h l n).
Proof. intros F A N. unfold bind_node. apply from_coll; auto; [apply from_id; auto|]. intros k [= <-]. exact A. Qed.
Lemma from_add_nodes h0 l : a_layer a l -> forall args h, from h0 h -> Forall (a_node a) (live args) -> from h0 (fst (layer_add_nodes h l args)).
Proof.
  intros A. induction args as [|[n|] args IH]; intros h F N; cbn [layer_add_nodes live] in *; [exact F| |exact F].
  inversion N as [|? ? N1 N2]; subst. apply IH; auto. apply from_append; auto. apply from_bind; auto.
Qed.
Lemma from_retain_mark h0 l : forall ns h, from h0 h -> Forall (a_node a) (live ns) -> from h0 (fst (retain_mark h l ns)).
Proof.
  induction ns as [|[n|] ns IH]; intros h F N; cbn [retain_mark live] in *; [exact F| |exact F].
  inversion N as [|? ? N1 N2]; subst. destruct (layer_contains h l n); [|exact F]. destruct (0 <=? n_idof h n); [|apply IH; auto]. apply IH; auto. apply from_id; auto.
Qed.
Lemma from_retain_loop h0 l : a_layer a l -> forall todo h i k, from h0 h -> from h0 (fst (retain_loop h l i k todo)).
Proof.
  intros A. induction todo as [|t IH]; intros h i k F; cbn [retain_loop]; [exact F|].
  destruct (nth_error (l_nodesof h l) i) as [[n|]|] eqn:E; [|exact F|exact F]. apply nth_error_In in E. pose proof (from_slot _ _ _ _ F A E) as N.
  destruct (0 <=? n_idof h n); apply IH.
  - apply from_num; auto. apply from_coll; auto. discriminate.
  - apply from_id; auto. apply from_nodes; auto. intros m Hm. apply upd_in in Hm. destruct Hm as [[= ->]|Hm]; [exact N|exact (from_slot _ _ _ _ F A Hm)].
Qed.
Lemma from_retain h0 h l ns : from h0 h -> a_layer a l -> Forall (a_node a) (live ns) -> from h0 (fst (layer_retain h l ns)).
Proof.
  intros F A N. unfold layer_retain. pose proof (from_retain_mark h0 l ns h F N) as G. destruct (retain_mark h l ns) as [h1 [u|e]]; [|exact G]. cbn [fst] in G.
  pose proof (from_retain_loop h0 l A (length (l_nodesof h1 l)) h1 0 0 G) as G2. destruct (retain_loop _ _ _ _ _) as [h2 [k|e]]; [|exact G2]. cbn [fst] in *.
  apply from_nodes; auto. intros m I. exact (from_slot _ _ _ _ G2 A (in_firstn _ _ _ I)).
Qed.
Lemma from_renumber h0 : forall ns h i, from h0 h -> Forall (a_node a) ns -> from h0 (renumber h i ns).
Proof. induction ns as [|n ns IH]; intros h i F N; cbn [renumber]; [exact F|]. inversion N; subst. apply IH; auto. apply from_id; auto. Qed.
Lemma iter_nodes h0 h l k : from h0 h -> a_layer a l -> Forall (a_node a) (firstn k (live (layer_iter h l))).
Proof. intros F A. apply Forall_forall. intros n I. apply in_firstn in I. rewrite live_in in I. exact (from_slot _ _ _ _ F A (iter_in _ _ _ I)). Qed.
Lemma from_prepare h0 h l : from h0 h -> a_layer a l -> from h0 (layer_prepare h l).
Proof. intros F A. unfold layer_prepare. apply from_compact; auto. apply from_renumber; auto. exact (iter_nodes h0 h l _ F A). Qed.
Lemma from_prepares h0 : forall ls h, from h0 h -> Forall (a_layer a) ls -> from h0 (fold_left layer_prepare ls h).
Proof. induction ls as [|l ls IH]; intros h F A; cbn [fold_left]; [exact F|]. inversion A; subst. apply IH; auto. apply from_prepare; auto. Qed.
Lemma with_keys_snd {K} (keyfn : nid -> res K) : forall x ks, with_keys keyfn x = Ok ks -> map snd ks = x.
Proof.
  induction x as [|[n|] x IH]; intros ks E; cbn [with_keys] in E; [injection E as <-; reflexivity| |discriminate].
  destruct (keyfn n); [|discriminate]. cbn [rbind] in E. destruct (with_keys keyfn x) as [q|]; [|discriminate]. cbn [rbind] in E. injection E as <-. simpl. f_equal. auto.
Qed.
Lemma from_sort {K} (leb : K -> K -> bool) h0 h l keyfn : from h0 h -> a_layer a l -> from h0 (fst (layer_sort leb keyfn h l)).
Proof.
  intros F A. unfold layer_sort. pose proof (from_compact h0 h l F A) as G. destruct (with_keys keyfn _) as [ks|e] eqn:E; [|exact G]. cbn [fst].
  assert (G2 : from h0 (set_nodes (compact h l) l (map snd (ssort fst leb ks)))).
  { apply from_nodes; auto. intros n I. apply (from_slot _ _ _ _ G A). rewrite <- (with_keys_snd _ _ _ E). rewrite in_map_iff in *. destruct I as (x & X & I). exists x. split; [exact X|].
    apply (Permutation.Permutation_in x (Permutation.Permutation_sym (ssort_perm fst leb ks))) in I || apply (Permutation.Permutation_in x (ssort_perm fst leb ks)) in I. exact I. }
  apply from_renumber; auto. exact (iter_nodes h0 _ l _ G2 A).
Qed.
Lemma from_alloc_node h0 h x : from h0 h -> (forall l, n_coll x = Some l -> a_layer a l) -> from h0 (fst (alloc_node h x)).
Proof.
  intros [[C1 C2 C3 C4] [R1 R2]] X. split; [split|split]; cbn [fst alloc_node].
  - exact C1.
  - intros n l A. unfold n_collof, upd. simpl. destruct (Nat.eqb n (h_nnext h)); [apply X|exact (C2 n l A)].
  - simpl. intros n L. apply C3. lia.
  - exact C4.
  - intros n A. unfold upd. simpl. destruct (Nat.eqb_spec n (h_nnext h)) as [->|D]; [exfalso; apply A, C3; lia|exact (R1 n A)].
  - exact R2.
Qed.
Lemma from_alloc_layer h0 h x : from h0 h -> l_nodes x = [] -> from h0 (fst (alloc_layer h x)).
Proof.
  intros [[C1 C2 C3 C4] [R1 R2]] X. split; [split|split]; cbn [fst alloc_layer].
  - intros l n A. unfold l_nodesof, upd. simpl. destruct (Nat.eqb l (h_lnext h)); [rewrite X; contradiction|exact (C1 l n A)].
  - exact C2.
  - exact C3.
  - simpl. intros l L. apply C4. lia.
  - exact R1.
  - intros l A. unfold upd. simpl. destruct (Nat.eqb_spec l (h_lnext h)) as [->|D]; [exfalso; apply A, C4; lia|exact (R2 l A)].
Qed.
Lemma from_add_kw h0 h l kw : from h0 h -> a_layer a l -> from h0 (fst (layer_add_kw h l kw)).
Proof.
  intros F A. unfold layer_add_kw.
  pose proof (from_alloc_node h0 h (mkNode (dupdate (l_defaults (h_layer h l)) kw) (zlen (l_nodesof h l)) (Some l)) F ltac:(intros k [= <-]; exact A)) as G.
  pose proof (cl_newn _ _ (proj1 F) (h_nnext h) (le_n _)) as N.
  destruct (alloc_node h _) as [h1 n] eqn:E. unfold alloc_node in E. injection E as E1 E2. cbn [fst] in G. subst n.
  destruct (validate h1 l (h_nnext h)) as [[|]|e]; cbn [fst]; [apply from_append; auto|exact F|exact F].
Qed.
Lemma from_add_loop h0 l : a_layer a l -> forall ns h, from h0 h -> Forall (a_node a) (live ns) -> from h0 (fst (add_many_loop h l ns)).
Proof.
  intros A. induction ns as [|[n|] ns IH]; intros h F N; cbn [add_many_loop live] in *; [exact F| |exact F].
  inversion N as [|? ? N1 N2]; subst. destruct (n_collof h n); [exact F|]. apply IH; auto. apply from_append; auto. apply from_bind; auto.
Qed.
Lemma from_fill h0 ds : forall ns h, from h0 h -> Forall (a_node a) (live ns) -> from h0 (fst (fill_nodes h ds ns)).
Proof. induction ns as [|[n|] ns IH]; intros h F N; cbn [fill_nodes live] in *; [exact F| |exact F]. inversion N; subst. apply IH; auto. apply from_fields; auto. Qed.
Lemma from_set_all h0 k v : forall ns h, from h0 h -> Forall (a_node a) (live ns) -> from h0 (fst (set_field_all h k v ns)).
Proof. induction ns as [|[n|] ns IH]; intros h F N; cbn [set_field_all live] in *; [exact F| |exact F]. inversion N; subst. apply IH; auto. apply from_fields; auto. Qed.
Lemma from_del_all h0 k : forall ns h, from h0 h -> Forall (a_node a) (live ns) -> from h0 (fst (del_field_all h k ns)).
Proof. induction ns as [|[n|] ns IH]; intros h F N; cbn [del_field_all live] in *; [exact F| |exact F]. inversion N; subst. apply IH; auto. apply from_fields; auto. Qed.
Lemma slots_live h0 h l x : from h0 h -> a_layer a l -> (forall n, In (Some n) x -> In (Some n) (l_nodesof h l)) -> Forall (a_node a) (live x).
Proof. intros F A X. apply Forall_forall. intros n I. apply live_in in I. exact (from_slot _ _ _ _ F A (X n I)). Qed.
Lemma from_add_many h0 h l one ns df fv : from h0 h -> a_layer a l -> Forall (a_node a) (live ns) -> from h0 (fst (layer_add_many h l one ns df fv)).
Proof.
  intros F A N. unfold layer_add_many. pose proof (from_add_loop h0 l A ns h F N) as G. destruct (add_many_loop h l ns) as [h1 [u|e]]; [|exact G]. cbn [fst] in G.
  destruct (if fv then _ else _) as [u'|e]; [|exact G]. destruct (df && _); [|exact G]. apply from_fill; auto. apply (slots_live h0 h1 l _ G A). intros n. apply in_skipn.
Qed.
Lemma from_add_field h0 h l k d init : from h0 h -> a_layer a l -> from h0 (fst (layer_add_field h l k d init)).
Proof.
  intros F A. unfold layer_add_field. destruct (dmem _ _); [exact F|].
  match goal with |- context [set_schema h l ?x ?y] => pose proof (from_schema h0 h l x y F A) as G; set (h1 := set_schema h l x y) in * end. destruct init; [|exact G].
  destruct (dt_default d); [|exact G]. apply from_set_all; auto. apply (slots_live h0 h1 l _ G A). apply iter_in.
Qed.
Lemma from_remove_field h0 h l k leave : from h0 h -> a_layer a l -> from h0 (fst (layer_remove_field h l k leave)).
Proof.
  intros F A. unfold layer_remove_field. destruct (negb _); [exact F|].
  assert (G : from h0 (fst (if leave then (h, Ok tt) else del_field_all h k (layer_iter h l)))).
  { destruct leave; [exact F|]. apply from_del_all; auto. apply (slots_live h0 h l _ F A). apply iter_in. }
  destruct (if leave then _ else _) as [h1 [u|e]]; [|exact G]. apply from_schema; auto.
Qed.
Lemma done_fst {A} (x : hres A) : fst (done x) = fst x. Proof. reflexivity. Qed.
Lemma from_exec {K} (leb : K -> K -> bool) h0 h o : from h0 h -> within a o -> from h0 (fst (exec leb h o)).
Proof.
  intros F [L N]. destruct o; cbn [exec call_layers call_nodes] in *; rewrite ?done_fst;
    repeat match goal with H : Forall _ [_] |- _ => apply Forall_inv in H end.
  - apply from_alloc_node; [exact F|discriminate].
  - apply from_alloc_layer; [exact F|reflexivity].
  - apply from_add_kw; auto.
  - apply from_add_nodes; auto.
  - apply from_add_many; auto.
  - apply from_remove; auto.
  - apply from_remove_many; auto.
  - apply from_detach; auto.
  - apply from_retain; auto.
  - apply from_sort; auto.
  - apply from_compact; auto.
  - apply from_prepares; auto.
  - apply from_fields; auto.
  - destruct (dmem _ _); [apply from_fields; auto|exact F].
  - apply from_add_field; auto.
  - apply from_remove_field; auto.
Qed.
Lemma from_exec_all {K} (leb : K -> K -> bool) h0 : forall os h, from h0 h -> Forall (within a) os -> from h0 (exec_all leb h os).
Proof.
  unfold exec_all. induction os as [|o os IH]; intros h F W; cbn [fold_left]; [exact F|]. inversion W; subst. apply IH; auto. apply from_exec; auto.
Qed.
Lemma calls_local {K} (leb : K -> K -> bool) h os : closed_area a h -> Forall (within a) os -> closed_area a (exec_all leb h os) /\ rest_same a h (exec_all leb h os).
Proof. intros C W. exact (from_exec_all leb h os h (from_refl h C) W). Qed.

(** encode *)
Lemma from_compile_layers h0 check : forall ls h acc, from h0 h -> (forall k l, In (k, l) ls -> a_layer a l) -> from h0 (fst (compile_layers h ls check acc)).
Proof.
  induction ls as [|[k l] ls IH]; intros h acc F L; cbn [compile_layers]; [exact F|].
  pose proof (from_prepare h0 h l F (L k l (or_introl eq_refl))) as G. unfold compile_layer.
  destruct (if check then _ else _) as [u|e]; [|exact G]. destruct (collect_fields _ _ _ _) as [acc1|e]; [|exact G]. apply IH; auto. intros k' l' I. apply (L k' l'). right. exact I.
Qed.
Lemma from_encode h0 h d ex tv : from h0 h -> (forall l, doc_layer d l -> a_layer a l) -> from h0 (fst (msgpack_encode h d ex tv)).
Proof.
  intros F L. unfold msgpack_encode, codec_encode, compile. destruct (check_refs h d) as [u|e]; [|exact F].
  match goal with |- context [compile_layers h ?ls ?c ?acc] => pose proof (from_compile_layers h0 c ls h acc F ltac:(intros k l I; apply L; exists k; exact I)) as G;
    destruct (compile_layers h ls c acc) as [h1 [acc1|e]] end; [|exact G]. cbn [fst] in G.
  destruct (final_offsets _ _) as [q|e]; [|exact G]. match goal with |- context [rbind ?x ?y] => destruct (rbind x y) as [z|z] end; exact G.
Qed.
End A.
