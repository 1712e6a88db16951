(** Proofs about node collections and the text of node spans. *)
From Verif Require Import PyBase PyBaseFacts Model_Heap Model_Layer Model_Text Model_Types Model_Query Model_Nodes Spec_Text Spec_Layer Spec_Query Spec_Nodes.
From Verif Require Import Proof_Heap Proof_Layer Proof_Layer2 Proof_Layer4 Proof_Text Proof_Nodes.
Local Open Scope Z_scope.

Lemma get_range_head sl a k xs : get_range sl a (S k) = Ok xs -> exists x r, xs = x :: r /\ py_getitem sl a = Ok x.
Proof. simpl. destruct (py_getitem sl a) as [x|]; [|discriminate]. cbn [rbind]. destruct (get_range sl (a + 1) k) as [r|]; [|discriminate]. cbn [rbind]. intros [= <-]. eauto. Qed.
Lemma get_range_last sl k : forall a xs, get_range sl a (S k) = Ok xs -> exists r x, xs = r ++ [x] /\ py_getitem sl (a + Z.of_nat k) = Ok x.
Proof.
  induction k as [|k IH]; intros a xs H; cbn [get_range] in H; (destruct (py_getitem sl a) as [x|] eqn:E; [|discriminate]; cbn [rbind] in H).
  - injection H as <-. exists [], x. rewrite Z.add_0_r. auto.
  - destruct (get_range sl (a + 1) (S k)) as [r|] eqn:E2; cbn [get_range] in E2; rewrite E2 in H; [|discriminate]. cbn [rbind] in H. injection H as <-.
    destruct (IH (a + 1) r) as (r' & y & -> & G); [cbn [get_range]; exact E2|]. exists (x :: r'), y. split; [reflexivity|]. rewrite <- G. f_equal. lia.
Qed.
Lemma slot_at h l n : wf h -> n_collof h n = Some l -> py_getitem (l_nodesof h l) (n_idof h n) = Ok (Some n).
Proof. intros W C. destruct (ok_coll h l (wf_layers h W l) n C) as (i & -> & E). rewrite py_getitem_nat, E. reflexivity. Qed.
Lemma node_i_id h n i : node_i h n = Ok i -> i = n_idof h n.
Proof. unfold node_i. destruct (n_idof h n =? -1); [discriminate|]. congruence. Qed.
Lemma span_ends h a b ns : wf h -> nodespan_iter h a b = Ok ns -> hd_error ns = Some a /\ hd_error (rev ns) = Some b.
Proof.
  intros W H. unfold nodespan_iter in H. destruct (node_i h a) as [ia|] eqn:Ia; [|discriminate]. cbn [rbind] in H. destruct (node_i h b) as [ib|] eqn:Ib; [|discriminate]. cbn [rbind] in H.
  destruct (ia <=? ib) eqn:Le; [|discriminate]. cbn [negb] in H. unfold iter_span in H. rewrite Ia in H. cbn [rbind] in H. rewrite Ib in H. cbn [rbind] in H.
  destruct (n_collof h a) as [l|] eqn:Ca; [|discriminate]. rewrite Le in H. unfold iter_nodespan in H. rewrite Ia in H. cbn [rbind] in H. rewrite Ib in H. cbn [rbind] in H.
  rewrite Le in H. cbn [negb] in H. destruct (negb _) eqn:Co; [discriminate|]. apply negb_false_iff, andb_true_iff in Co. destruct Co as [_ Co].
  destruct (n_collof h b) as [lb|] eqn:Cb; [|discriminate]. simpl in Co. apply Nat.eqb_eq in Co. subst lb.
  apply Z.leb_le in Le. assert (exists k, Z.to_nat (ib + 1 - ia) = S k /\ ib = ia + Z.of_nat k) as (k & Hk & Hb). { exists (Z.to_nat (ib - ia)). lia. }
  rewrite Hk in H. destruct (get_range (l_nodesof h l) ia (S k)) as [xs|] eqn:G; [|discriminate]. cbn [rbind] in H. injection H as <-.
  apply node_i_id in Ia, Ib. destruct (get_range_head _ _ _ _ G) as (x & r & E1 & P1). destruct (get_range_last _ _ _ _ G) as (r' & y & E2 & P2).
  rewrite <- Hb, Ib, (slot_at h l b W Cb) in P2. rewrite Ia, (slot_at h l a W Ca) in P1. injection P1 as <-. injection P2 as <-. split.
  - rewrite E1. reflexivity.
  - rewrite E2, live_app. simpl. rewrite rev_app_distr. reflexivity.
Qed.

Lemma iter_first_spec ns : iter_first (map Some ns) = hd_error ns.
Proof. destruct ns; reflexivity. Qed.
Lemma iter_last_spec ns : forall o, iter_last o (map Some ns) = match hd_error (rev ns) with Some n => Some n | None => o end.
Proof. induction ns as [|n r IH]; intros o; simpl; [reflexivity|]. rewrite IH. destruct (rev r) as [|y t] eqn:E; reflexivity. Qed.
Lemma last_neg (ns : list nid) : match ns with [] => None | _ => match py_getitem ns (-1) with Ok n => Some n | Err _ => None end end = hd_error (rev ns).
Proof.
  destruct ns as [|x r] using rev_ind; [reflexivity|]. clear IHr. rewrite rev_app_distr. simpl. destruct (r ++ [x]) eqn:E; [destruct r; discriminate|]. rewrite <- E.
  assert (P : py_index (zlen (r ++ [x])) (-1) = Some (length r)).
  { unfold py_index, zlen. rewrite app_length. simpl length. destruct (Z.ltb_spec (-1) 0); [|lia]. destruct (Z.leb_spec 0 (-1 + Z.of_nat (length r + 1))); [|lia]. f_equal. lia. }
  unfold py_getitem. rewrite P. rewrite nth_error_app2, Nat.sub_diag by lia. reflexivity.
Qed.

Lemma nodes_layer h l ns : wf h -> nodes_of h (CLayer l) ns -> content h l = ns.
Proof. unfold nodes_of. simpl. intros W [= H]. rewrite iter_wf in H by assumption. apply map_some_inj in H. exact H. Qed.
Lemma nodes_span h a b ns : nodes_of h (CSpan a b) ns -> nodespan_iter h a b = Ok ns.
Proof. unfold nodes_of. simpl. destruct (nodespan_iter h a b) as [r|]; [|discriminate]. cbn [rbind]. intros [= H]. apply map_some_inj in H. congruence. Qed.
Lemma nodes_list h fs l ns : nodes_of h (CList fs l) ns -> l = ns.
Proof. unfold nodes_of. simpl. intros [= H]. apply map_some_inj in H. exact H. Qed.
Lemma nodes_query h c p r ns : nodes_of h (CQuery c p r) ns -> r = map Some ns.
Proof. unfold nodes_of. simpl. congruence. Qed.

Lemma coll_ends h c ns : wf h -> nodes_of h c ns -> coll_first h c = Ok (hd_error ns) /\ coll_last h c = Ok (hd_error (rev ns)).
Proof.
  intros W H. destruct c as [l|a b|fs l|c p r]; simpl.
  - apply nodes_layer in H; [|exact W]. subst ns. unfold layer_first, layer_last. split; [reflexivity|]. f_equal. unfold content.
    assert (R : forall xs, live (rev xs) = rev (live xs)). { induction xs as [|[x|] xs IH]; simpl; rewrite ?live_app, ?IH; simpl; rewrite ?app_nil_r; reflexivity. }
    rewrite R. reflexivity.
  - apply nodes_span in H. destruct (span_ends h a b ns W H) as [-> ->]. auto.
  - apply nodes_list in H. subst l. rewrite last_neg. auto.
  - apply nodes_query in H. subst r. rewrite iter_first_spec, iter_last_spec. destruct (hd_error (rev ns)); auto.
Qed.
Lemma coll_length h c ns : wf h -> nodes_of h c ns -> coll_len h c = Ok (zlen ns) /\ field_len h c = Ok (zlen ns).
Proof.
  intros W H. unfold field_len. cut (coll_len h c = Ok (zlen ns)); [auto|]. destruct c as [l|a b|fs l|c p r]; simpl.
  - apply nodes_layer in H; [|exact W]. subst ns. unfold layer_len. rewrite (ok_num h l (wf_layers h W l)). reflexivity.
  - apply nodes_span in H. unfold nodespan_len. rewrite H. reflexivity.
  - apply nodes_list in H. subst l. reflexivity.
  - apply nodes_query in H. subst r. unfold zlen. rewrite map_length. reflexivity.
Qed.
Lemma to_list_ok same h c ns : nodes_of h c ns -> coll_to_list same h c = Ok (CList (coll_fields h c) ns).
Proof. unfold nodes_of, coll_to_list. intros ->. cbn [rbind]. apply nodelist_given. Qed.
Lemma list_has h fs ns n : coll_has h (CList fs ns) n = true <-> In n ns.
Proof. simpl. rewrite existsb_exists. split. - intros (m & I & E). apply Nat.eqb_eq in E. subst m. exact I. - intros I. exists n. split; [exact I|apply Nat.eqb_refl]. Qed.
Lemma layer_has h l n : wf h -> coll_has h (CLayer l) n = true <-> In (Some n) (layer_iter h l).
Proof. intros W. simpl. rewrite contains_iff, iter_wf by assumption. rewrite In_map_some. apply layer_ok_member. apply W. Qed.

(** validate *)
Lemma validate_types_ok h n fts : NoDup (dkeys fts) -> validate_types h n fts = Ok tt <->
  forall f t v, dget fts f = Some t -> dget (n_fieldsof h n) f = Some v -> is_valid h t v = Ok true.
Proof.
  induction fts as [|[f t] r IH]; intros N; simpl; [split; [discriminate|auto]|]. inversion N as [|? ? Nf N']; subst.
  assert (Q : (forall f0 t0 v, (if str_eqb f0 f then Some t else dget r f0) = Some t0 -> dget (n_fieldsof h n) f0 = Some v -> is_valid h t0 v = Ok true) <->
     (forall v, dget (n_fieldsof h n) f = Some v -> is_valid h t v = Ok true) /\
     (forall g u v, dget r g = Some u -> dget (n_fieldsof h n) g = Some v -> is_valid h u v = Ok true)).
  { split.
    - intros H. split. + intros v. apply (H f t v). rewrite str_eqb_refl. reflexivity.
      + intros g u v G. apply (H g u v). destruct (str_eqb_spec g f) as [->|]; [|exact G]. exfalso. apply Nf. apply dget_In in G. apply (in_map fst) in G. exact G.
    - intros [A B] g u v. destruct (str_eqb_spec g f) as [->|]; [intros [= <-]; apply A|apply B]. }
  rewrite Q, <- (IH N'). destruct (dget (n_fieldsof h n) f) as [v|] eqn:G.
  - destruct (is_valid h t v) as [[]|e] eqn:V; cbn [rbind].
    + unfold assert_msg. cbn [rbind]. split; [|tauto]. intros H. split; [intros w [= <-]; exact V|exact H].
    + unfold assert_msg. split.
      * destruct (let* _ := value_repr h v in if node_repr_ok h n then Ok tt else Err AttributeError); cbn [rbind]; discriminate.
      * intros [A _]. specialize (A v eq_refl). congruence.
    + split; [discriminate|]. intros [A _]. specialize (A v eq_refl). congruence.
  - split; [|tauto]. intros H. split; [discriminate|exact H].
Qed.
Lemma validate_slots_ok h fts ns : NoDup (dkeys fts) -> validate_slots h fts (map Some ns) = Ok tt <->
  forall n, In n ns -> forall f t v, dget fts f = Some t -> dget (n_fieldsof h n) f = Some v -> is_valid h t v = Ok true.
Proof.
  intros N. induction ns as [|n r IH]; simpl; [split; [intros _ n []|auto]|]. destruct (validate_types h n fts) as [[]|e] eqn:V; cbn [rbind].
  - rewrite IH. rewrite (validate_types_ok h n fts N) in V. split; [|intros H m I; apply H; right; exact I]. intros H m [<-|I]; [exact V|apply H; exact I].
  - split; [discriminate|]. intros H. rewrite (proj2 (validate_types_ok h n fts N)) in V; [discriminate|]. apply H. left; reflexivity.
Qed.
Lemma coll_validate_ok h c ns : nodes_of h c ns -> (forall l, c <> CLayer l) -> NoDup (dkeys (coll_fields h c)) ->
  coll_validate h c = Ok tt <-> forall n, In n ns -> forall f t v, dget (coll_fields h c) f = Some t -> dget (n_fieldsof h n) f = Some v -> is_valid h t v = Ok true.
Proof.
  unfold nodes_of. intros H Nl N. rewrite <- (validate_slots_ok h (coll_fields h c) ns N). unfold coll_validate.
  destruct c; [exfalso; eapply Nl; reflexivity| | |]; rewrite H; reflexivity.
Qed.

(** indexing lists *)
Lemma list_int_ok ns i : list_int ns i = doc_item ns i.
Proof. symmetry. apply doc_item_py. Qed.
Lemma list_slice_ok fs ns a b : list_slice fs ns a b = CList fs (doc_slice ns a b).
Proof. unfold list_slice. rewrite doc_slice_py. reflexivity. Qed.
Lemma list_indices_ok fs ns is rs : list_indices fs ns is = Ok (CList fs rs) <-> Forall2 (fun i n => doc_item ns i = Ok n) is rs.
Proof.
  unfold list_indices. assert (Q : forall rs, mapM (py_getitem ns) is = Ok rs <-> Forall2 (fun i n => doc_item ns i = Ok n) is rs).
  { induction is as [|i r IH]; intros q; simpl.
    - split; [intros [= <-]; constructor|inversion 1; reflexivity].
    - rewrite <- (doc_item_py ns i). destruct (doc_item ns i) as [n|] eqn:E; cbn [rbind].
      + destruct (mapM (py_getitem ns) r) as [ys|] eqn:M; cbn [rbind].
        * split; [intros [= <-]; constructor; [exact E|apply IH; reflexivity]|]. intros H. inversion H as [|? n' ? ys' E' F]; subst. apply IH in F. congruence.
        * split; [discriminate|]. intros H. inversion H as [|? n' ? ys' E' F]; subst. apply IH in F. discriminate.
      + split; [discriminate|]. intros H. inversion H; subst. congruence. }
  rewrite <- Q. destruct (mapM (py_getitem ns) is); cbn [rbind]; split; congruence.
Qed.
Lemma field_int_list h fs ns f i n v : doc_item ns i = Ok n -> dget (n_fieldsof h n) f = Some v -> field_int h (CList fs ns) f i = Ok v.
Proof. intros E G. simpl. rewrite list_int_ok, E. cbn [rbind]. unfold dgetE. rewrite G. reflexivity. Qed.
Lemma field_int_absent h fs ns f i n : doc_item ns i = Ok n -> dget (n_fieldsof h n) f = None -> field_int h (CList fs ns) f i = Err KeyError.
Proof. intros E G. simpl. rewrite list_int_ok, E. cbn [rbind]. unfold dgetE. rewrite G. reflexivity. Qed.

(** text of a node span *)
Lemma chars_sub t a b : 0 <= a <= b -> b <= zlen t -> chars t a b = sub t a b.
Proof. intros A B. unfold chars. rewrite doc_slice_py. unfold py_slice. f_equal; unfold slice_start, slice_stop, slice_norm; (destruct (_ <? 0) eqn:E; [apply Z.ltb_lt in E; lia|]); lia. Qed.
Lemma span_text_ok h a b f name name' t p q p' q' : dget (n_fieldsof h a) f = Some (VSpan name t p q) -> dget (n_fieldsof h b) f = Some (VSpan name' t p' q') ->
  0 <= p -> 0 <= q' <= zlen t -> nodespan_text h a b f = Ok (chars t p q') /\
  (p <= q' -> nodespan_textspan h a b f = Ok (VSpan name t p q')) /\ (q' < p -> p <= zlen t -> nodespan_textspan h a b f = Err DataValidationError).
Proof.
  intros Ga Gb P Q. unfold nodespan_text, nodespan_textspan, dgetE. rewrite Ga, Gb. cbn [rbind span_of_value]. split.
  - unfold span_text_to, chars. rewrite doc_slice_py. reflexivity.
  - unfold span_to, text_slice. cbn [sp_text sp_start sp_stop]. unfold slice_start, slice_stop, slice_norm.
    replace (p <? 0) with false by (symmetry; apply Z.ltb_ge; lia). replace (q' <? 0) with false by (symmetry; apply Z.ltb_ge; lia).
    replace (Z.min q' (zlen t)) with q' by lia. split.
    + intros L. replace (Z.min p (zlen t)) with p by lia.
      replace (q' <? p) with false by (symmetry; apply Z.ltb_ge; lia). replace (zlen t <? p) with false by (symmetry; apply Z.ltb_ge; lia). replace (zlen t <? q') with false by (symmetry; apply Z.ltb_ge; lia).
      unfold new_span. replace (p <=? q') with true by (symmetry; apply Z.leb_le; lia). reflexivity.
    + intros L L2. replace (Z.min p (zlen t)) with p by lia. replace (q' <? p) with true by (symmetry; apply Z.ltb_lt; lia). reflexivity.
Qed.

(** spans in reading order lie between the first start and the last stop *)
Lemma in_order_head h f name t n r a b : in_order h f name t (n :: r) -> field_span h f n name t a b ->
  forall m, In m (n :: r) -> exists c d, field_span h f m name t c d /\ a <= c /\ b <= d.
Proof.
  revert n a b. induction r as [|x r IH]; intros n a b O F m I.
  - destruct I as [<-|[]]. exists a, b. split; [exact F|lia].
  - destruct I as [<-|I]. { exists a, b. split; [exact F|lia]. }
    inversion O as [| |? ? ? a' b' c' d' F1 F2 L1 L2 O']; subst. destruct (IH x c' d' O' F2 m I) as (c & d & F3 & L3 & L4).
    assert (a' = a /\ b' = b) as [-> ->] by (destruct F as [F _], F1 as [F1 _]; rewrite F in F1; injection F1; auto). exists c, d. split; [exact F3|lia].
Qed.
Lemma in_order_tail h f name t a l : in_order h f name t (a :: l) -> in_order h f name t l.
Proof. intros H. inversion H; subst; [constructor|assumption]. Qed.
Lemma in_order_app h f name t l1 : forall l2, in_order h f name t (l1 ++ l2) -> in_order h f name t l2.
Proof. induction l1 as [|x r IH]; intros l2 H; [exact H|]. apply IH. apply in_order_tail in H. exact H. Qed.
Lemma in_order_span h f name t n r : in_order h f name t (n :: r) -> exists a b, field_span h f n name t a b.
Proof. intros H. inversion H; subst; eauto. Qed.
Lemma field_span_fun h f n name t a b c d : field_span h f n name t a b -> field_span h f n name t c d -> a = c /\ b = d.
Proof. intros [E _] [E' _]. rewrite E in E'. injection E'. auto. Qed.
Lemma chars_part t a b c d : 0 <= a -> a <= c -> c <= d -> d <= b -> b <= zlen t -> exists u v, chars t a b = u ++ chars t c d ++ v.
Proof.
  intros H1 H2 H3 H4 H5. rewrite !chars_sub by lia. exists (sub t a c), (sub t d b).
  rewrite !sub_app by lia. reflexivity.
Qed.
Lemma span_covers h f name t x m y : in_order h f name t (x :: m ++ [y]) -> exists p q,
  nodespan_textspan h x y f = Ok (VSpan name t p q) /\ nodespan_text h x y f = Ok (chars t p q) /\
  (exists q0, field_span h f x name t p q0) /\ (exists p0, field_span h f y name t p0 q) /\
  forall n, In n (x :: m ++ [y]) -> exists c d, field_span h f n name t c d /\ p <= c /\ d <= q /\ exists u v, chars t p q = u ++ chars t c d ++ v.
Proof.
  intros O. destruct (in_order_span _ _ _ _ _ _ O) as (p & q0 & Fx).
  destruct (in_order_head _ _ _ _ _ _ _ _ O Fx y) as (p0 & q & Fy & L1 & L2). { right. apply in_app_iff. right. left. reflexivity. }
  exists p, q. pose proof Fx as (Gx & Bx & Cx). pose proof Fy as (Gy & By & Cy).
  destruct (span_text_ok h x y f name name t p q0 p0 q Gx Gy) as (T1 & T2 & _); [lia|lia|]. split; [apply T2; lia|]. split; [exact T1|]. split; [eauto|]. split; [eauto|].
  intros n I. destruct (in_order_head _ _ _ _ _ _ _ _ O Fx n I) as (c & d & Fn & L3 & L4). exists c, d. split; [exact Fn|]. split; [exact L3|].
  assert (d <= q).
  { apply in_split in I. destruct I as (l1 & l2 & E). rewrite E in O. apply in_order_app in O.
    destruct (in_order_head _ _ _ _ _ _ _ _ O Fn y) as (c' & d' & Fy' & _ & L).
    { assert (In y (l1 ++ n :: l2)) by (rewrite <- E; right; apply in_app_iff; right; left; reflexivity).
      destruct l2 as [|z l2] using rev_ind.
      - replace (x :: m ++ [y]) with ((x :: m) ++ [y]) in E by reflexivity. apply app_inj_tail in E. destruct E as [_ ->]. left; reflexivity.
      - replace (x :: m ++ [y]) with ((x :: m) ++ [y]) in E by reflexivity. replace (l1 ++ n :: l2 ++ [z]) with ((l1 ++ n :: l2) ++ [z]) in E by (rewrite <- app_assoc; reflexivity).
        apply app_inj_tail in E. destruct E as [_ ->]. right. apply in_app_iff. right. left. reflexivity. }
    destruct (field_span_fun _ _ _ _ _ _ _ _ _ Fy Fy'). lia. }
  split; [exact H|]. destruct Fn as (_ & B1 & B2). apply chars_part; lia.
Qed.
