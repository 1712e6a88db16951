(** Calls that fail. *)
From Verif Require Import PyBase PyBaseFacts Model_Heap Model_Layer Model_Types Spec_Layer Spec_Errors Proof_Heap Proof_Layer Proof_Layer2 Proof_Layer4.
Local Open Scope Z_scope.

Lemma node_i_cases h n : (unnumbered h n /\ node_i h n = Err AssertionError) \/ (~ unnumbered h n /\ node_i h n = Ok (n_idof h n)).
Proof. unfold unnumbered, node_i. destruct (Z.eqb_spec (n_idof h n) (-1)); [left|right]; auto. Qed.
Lemma opt_lid_eqb_spec a b : opt_lid_eqb a b = true <-> a = b.
Proof. destruct a, b; cbn; try rewrite Nat.eqb_eq; split; congruence. Qed.
Lemma out_calls h n : out h n ->
  node_left h n = Err AttributeError /\ node_right h n = Err AttributeError /\ node_detach h n = (h, Err AttributeError) /\
  node_is_valid h n = Err AttributeError /\ (forall b, new_nodespan h n b = Err AttributeError).
Proof. unfold out, node_left, node_right, node_detach, node_is_valid, new_nodespan. intros ->. auto. Qed.
Lemma contains_iff h l n : layer_contains h l n = true <-> n_collof h n = Some l.
Proof. unfold layer_contains. destruct (n_collof h n) as [l'|]; [rewrite Nat.eqb_eq|]; split; congruence. Qed.
Lemma foreign_not h l n : n_collof h n <> Some l -> layer_contains h l n = false.
Proof. intros H. destruct (layer_contains h l n) eqn:E; [apply contains_iff in E; contradiction|reflexivity]. Qed.
Lemma iter_nodespan_foreign h l a b : n_collof h a <> Some l \/ n_collof h b <> Some l -> iter_nodespan h l a b = Err AssertionError.
Proof.
  intros F. unfold iter_nodespan. destruct (node_i_cases h a) as [(_ & ->)|(_ & ->)]; [reflexivity|]. destruct (node_i_cases h b) as [(_ & ->)|(_ & ->)]; [reflexivity|]. cbn [rbind].
  destruct (_ <=? _); cbn [negb]; [|reflexivity].
  destruct (opt_lid_eqb (n_collof h a) (n_collof h b) && opt_lid_eqb (n_collof h b) (Some l)) eqn:E; [|reflexivity].
  exfalso. apply andb_true_iff in E. destruct E as [E1 E2]. apply opt_lid_eqb_spec in E1, E2. destruct F; congruence.
Qed.
Lemma foreign_calls h l n : n_collof h n <> Some l ->
  layer_left h l n = Err AssertionError /\ layer_right h l n = Err AssertionError /\ layer_getnode h l n = Err DataValidationError /\
  (forall b, iter_nodespan h l n b = Err AssertionError /\ iter_nodespan h l b n = Err AssertionError).
Proof.
  intros F. unfold layer_left, layer_right, layer_getnode. rewrite (foreign_not _ _ _ F). repeat split; auto; apply iter_nodespan_foreign; auto.
Qed.
Lemma getitem_off {A} (xs : list A) i : off_list xs i -> py_getitem xs i = Err IndexError.
Proof.
  unfold off_list, py_getitem, py_index. pose proof (zlen_nonneg xs). intros H'.
  destruct (Z.ltb_spec i 0); [destruct (Z.leb_spec 0 (i + zlen xs)); [lia|reflexivity]|]. cbn.
  destruct (Z.ltb_spec i (zlen xs)); [lia|reflexivity].
Qed.
Lemma new_span_apart h a b l : n_collof h a = Some l -> n_collof h b <> Some l -> new_nodespan h a b = Err AssertionError.
Proof.
  intros A B. unfold new_nodespan. rewrite A. destruct (node_i_cases h a) as [(_ & ->)|(_ & ->)]; [reflexivity|]. destruct (node_i_cases h b) as [(_ & ->)|(_ & ->)]; [reflexivity|]. cbn [rbind].
  destruct (_ <=? _); cbn [negb]; [|reflexivity]. destruct (opt_lid_eqb (Some l) (n_collof h b)) eqn:E; [|reflexivity]. apply opt_lid_eqb_spec in E. congruence.
Qed.
Lemma iter_span_errors h a b :
  (unnumbered h a \/ unnumbered h b -> iter_span h a b = Err AssertionError) /\
  (~ unnumbered h a -> ~ unnumbered h b -> out h a -> iter_span h a b = Err AttributeError) /\
  (forall l, n_collof h a = Some l -> n_collof h b <> Some l -> iter_span h a b = Err AssertionError).
Proof.
  unfold iter_span, out. split; [|split].
  - intros U. destruct (node_i_cases h a) as [(_ & ->)|(? & ->)]; [reflexivity|]. cbn [rbind]. destruct (node_i_cases h b) as [(_ & ->)|(? & ->)]; [reflexivity|]. tauto.
  - intros Ua Ub O. destruct (node_i_cases h a) as [(? & _)|(_ & ->)]; [contradiction|]. destruct (node_i_cases h b) as [(? & _)|(_ & ->)]; [contradiction|]. cbn [rbind]. rewrite O. reflexivity.
  - intros l A B. destruct (node_i_cases h a) as [(_ & ->)|(_ & ->)]; [reflexivity|]. destruct (node_i_cases h b) as [(_ & ->)|(_ & ->)]; [reflexivity|]. cbn [rbind]. rewrite A.
    destruct (_ <=? _); apply iter_nodespan_foreign; auto.
Qed.
Lemma nodespan_errors h a b :
  (unnumbered h a \/ unnumbered h b -> nodespan_iter h a b = Err AssertionError) /\
  (~ unnumbered h a -> ~ unnumbered h b -> n_idof h b < n_idof h a -> nodespan_iter h a b = Err AssertionError) /\
  (~ unnumbered h a -> ~ unnumbered h b -> n_idof h a <= n_idof h b -> out h a -> nodespan_iter h a b = Err AttributeError) /\
  (forall l, n_collof h a = Some l -> n_collof h b <> Some l -> nodespan_iter h a b = Err AssertionError).
Proof.
  destruct (iter_span_errors h a b) as (I1 & I2 & I3). unfold nodespan_iter.
  destruct (node_i_cases h a) as [(Ua & ->)|(Ua & ->)]; cbn [rbind]; [repeat split; intros; try reflexivity; contradiction|].
  destruct (node_i_cases h b) as [(Ub & ->)|(Ub & ->)]; cbn [rbind]; [repeat split; intros; try reflexivity; contradiction|].
  destruct (Z.leb_spec (n_idof h a) (n_idof h b)); cbn [negb]; repeat split; intros; auto; try lia; try tauto. eapply I3; eassumption.
Qed.
Lemma add_not_node h l ns r : layer_add_nodes h l (map Some ns ++ None :: r) = (fst (layer_add_nodes h l (map Some ns)), Err ValueError).
Proof. revert h. induction ns as [|n ns IH]; intros h; cbn [map app layer_add_nodes]; [reflexivity|apply IH]. Qed.

Section Sort.
Context {K : Type} (leb : K -> K -> bool) (keyfn : nid -> res K).
Lemma with_keys_raises c e : with_keys keyfn (map Some c) = Err e <-> first_raising keyfn c e.
Proof.
  induction c as [|n c IH]; cbn [map with_keys].
  - split; [discriminate|]. intros (pre & x & post & E & _). destruct pre; discriminate.
  - destruct (keyfn n) as [k|e'] eqn:Ek; cbn [rbind].
    + destruct (with_keys keyfn (map Some c)) as [ks|e'] eqn:Ew; cbn [rbind].
      * split; [discriminate|]. intros (pre & x & post & E & P & Q). destruct pre as [|y pre]; cbn in E; injection E as -> E; [congruence|].
        assert (X : @Ok (list (K * option nid)) ks = Err e) by (apply IH; exists pre, x, post; split; [exact E|]; split; [intros z Hz; apply P; right; exact Hz|exact Q]). discriminate.
      * split.
        -- intros [= ->]. apply proj1 in IH. destruct (IH eq_refl) as (pre & x & post & -> & P & Q). exists (n :: pre), x, post. split; [reflexivity|]. split; [|exact Q]. intros y [<-|Hy]; [eauto|auto].
        -- intros (pre & x & post & E & P & Q). destruct pre as [|y pre]; cbn in E; injection E as -> E; [congruence|].
           assert (X : @Err (list (K * option nid)) e' = Err e) by (apply IH; exists pre, x, post; split; [exact E|]; split; [intros z Hz; apply P; right; exact Hz|exact Q]). congruence.
    + split.
      * intros [= ->]. exists [], n, c. split; [reflexivity|]. split; [intros y []|exact Ek].
      * intros (pre & x & post & E & P & Q). destruct pre as [|y pre]; cbn in E; injection E as -> E; [congruence|]. destruct (P y (or_introl eq_refl)). congruence.
Qed.
Lemma sort_error h l c e : wf h -> layer_iter h l = map Some c ->
  (snd (layer_sort leb keyfn h l) = Err e <-> first_raising keyfn c e) /\
  (snd (layer_sort leb keyfn h l) = Err e -> fst (layer_sort leb keyfn h l) = compact h l).
Proof.
  intros W E. unfold layer_sort. destruct (compact_spec h l (wf_layers h W l)) as (_ & N & _). apply iter_eq in E; [|exact W]. subst c.
  cbv zeta. rewrite N. destruct (with_keys keyfn (map Some (content h l))) as [ks|e'] eqn:Ek; cbn [fst snd].
  - split; [|discriminate]. rewrite <- with_keys_raises, Ek. split; discriminate.
  - split; [|reflexivity]. rewrite <- with_keys_raises, Ek. split; congruence.
Qed.
End Sort.
