(** Proofs about compiling a document and removing layers. *)
From Verif Require Import PyBase PyBaseFacts Model_Text Model_Heap Model_Layer Model_Types Model_Msgpack Model_Document Model_Codec
  Spec_Layer Spec_History Spec_Types Spec_Document Proof_Heap Proof_Layer Proof_Layer2 Proof_Layer3 Proof_History Proof_Layer4 Proof_Types.
Local Open Scope Z_scope.

(** ** the heap after compiling *)
Lemma compile_layer_heap h l c acc : fst (compile_layer h l c acc) = layer_prepare h l.
Proof. unfold compile_layer. destruct (if c then _ else _); reflexivity. Qed.

Lemma compile_layers_heap ls : forall h c acc h1 r, compile_layers h ls c acc = (h1, r) ->
  exists pre suf, map snd ls = pre ++ suf /\ h1 = fold_left layer_prepare pre h /\ (forall x, r = Ok x -> suf = []).
Proof.
  induction ls as [|[k l] ls IH]; intros h c acc h1 r E; simpl in E.
  - injection E as <- <-. exists [], []. auto.
  - pose proof (compile_layer_heap h l c acc) as Eh. destruct (compile_layer h l c acc) as [h2 [a|e]]; simpl in Eh; subst h2.
    + destruct (IH _ _ _ _ _ E) as (pre & suf & E1 & E2 & E3). exists (l :: pre), suf. simpl. rewrite E1. auto.
    + injection E as <- <-. exists [l], (map snd ls). simpl. split; [reflexivity|]. split; [reflexivity|discriminate].
Qed.
Lemma compile_heap h d e t h1 r : compile h d e t = (h1, r) ->
  exists pre suf, map snd (d_layers d) = pre ++ suf /\ h1 = fold_left layer_prepare pre h /\ (forall x, r = Ok x -> suf = []).
Proof.
  unfold compile. intros E. destruct (check_refs h d).
  - destruct (compile_layers _ _ _ _) as [h2 [acc|x]] eqn:Ec; injection E as <- <-;
    destruct (compile_layers_heap _ _ _ _ _ _ Ec) as (pre & suf & E1 & E2 & E3); exists pre, suf; split; auto; split; auto.
    + intros y _. eapply E3; eauto.
  - injection E as <- <-. exists [], (map snd (d_layers d)). split; [reflexivity|]. split; [reflexivity|discriminate].
Qed.
Lemma codec_encode_heap h d e t h1 r : codec_encode h d e t = (h1, r) ->
  exists o, compile h d e t = (h1, o) /\ (forall x, r = Ok x -> exists y, o = Ok y).
Proof.
  unfold codec_encode. destruct (compile h d e t) as [h2 [o|x]]; intros E; injection E as <- <-.
  - exists (Ok o). eauto.
  - exists (Err x). split; [reflexivity|discriminate].
Qed.
Lemma msgpack_encode_heap h d e t h1 r : msgpack_encode h d e t = (h1, r) ->
  exists o, compile h d e t = (h1, o) /\ (forall x, r = Ok x -> exists y, o = Ok y).
Proof.
  unfold msgpack_encode. intros E. destruct (codec_encode h d e t) as [h2 o] eqn:Ec.
  destruct (codec_encode_heap _ _ _ _ _ _ Ec) as (y & E1 & E2).
  destruct o as [o|x]; injection E as <- <-; exists y; split; auto; [eauto|discriminate].
Qed.

Lemma known_all h d pre suf : known h d -> map snd (d_layers d) = pre ++ suf -> Forall (fun l => (l < h_lnext h)%nat) pre.
Proof.
  intros K E. apply Forall_forall. intros l Hl. assert (Hin : In l (map snd (d_layers d))) by (rewrite E; apply in_or_app; auto).
  apply in_map_iff in Hin. destruct Hin as ([k l'] & <- & Hin). eapply K; eauto.
Qed.

Lemma prepared_same h ls : wf h -> Forall (fun l => (l < h_lnext h)%nat) ls ->
  let h' := fold_left layer_prepare ls h in
  wf h' /\ looks_same h h' /\ h_lnext h' = h_lnext h /\ h_nnext h' = h_nnext h /\
  (forall l, In l ls -> no_gaps h' l) /\ (forall l, no_gaps h l -> no_gaps h' l).
Proof.
  intros W Hl. destruct (prepare_all_spec ls h W Hl) as (W' & C & N1 & N2 & F & G & G' & S). cbv zeta in *.
  split; [assumption|]. split; [|auto]. split.
  - intros l. rewrite !iter_wf by assumption. rewrite C. reflexivity.
  - intros l. unfold layer_len. rewrite (ok_num _ _ (wf_layers _ W' l)), (ok_num _ _ (wf_layers _ W l)), C. reflexivity.
  - intros l n. unfold layer_contains. destruct (F n) as [_ ->]. reflexivity.
  - intros n. apply F.
  - intros n. apply F.
  - intros l. apply S.
  - intros l. apply S.
Qed.

Lemma compile_keeps h d e t h1 r : wf h -> known h d -> compile h d e t = (h1, r) ->
  wf h1 /\ looks_same h h1 /\
  (forall x k l p n, r = Ok x -> In (k, l) (d_layers d) -> nth_error (layer_iter h1 l) p = Some (Some n) -> node_i h1 n = Ok (Z.of_nat p)).
Proof.
  intros W K E. destruct (compile_heap _ _ _ _ _ _ E) as (pre & suf & E1 & -> & E3).
  destruct (prepared_same h pre W (known_all _ _ _ _ K E1)) as (W' & S & _ & _ & G & _). cbv zeta in *.
  split; [assumption|]. split; [assumption|]. intros x k l p n Hr Hin Hp. rewrite (E3 x Hr), app_nil_r in E1. subst pre.
  eapply position_spec; eauto. apply G. apply in_map_iff. exists (k, l). auto.
Qed.
Lemma encode_keeps h d e t h1 r : wf h -> known h d -> msgpack_encode h d e t = (h1, r) ->
  wf h1 /\ looks_same h h1 /\
  (forall x k l p n, r = Ok x -> In (k, l) (d_layers d) -> nth_error (layer_iter h1 l) p = Some (Some n) -> node_i h1 n = Ok (Z.of_nat p)).
Proof.
  intros W K E. destruct (msgpack_encode_heap _ _ _ _ _ _ E) as (o & Ec & Ho).
  destruct (compile_keeps _ _ _ _ _ _ W K Ec) as (W' & S & P). split; [assumption|]. split; [assumption|].
  intros x k l p n Hr. destruct (Ho x Hr) as [y Hy]. eapply P; eauto.
Qed.

(** ** validity does not depend on the numbering *)
Lemma looks_same_sym h h' : looks_same h h' -> looks_same h' h.
Proof. intros [A B C D E F G]. split; intros; symmetry; auto. Qed.
Lemma looks_same_trans h h' h'' : looks_same h h' -> looks_same h' h'' -> looks_same h h''.
Proof. intros [A B C D E F G] [A' B' C' D' E' F' G']. split; intros; congruence. Qed.
Lemma same_content h h' l : wf h -> wf h' -> looks_same h h' -> content h' l = content h l.
Proof. intros W W' S. apply map_some_inj. rewrite <- !iter_wf by assumption. apply S. Qed.

Lemma member_nth h n l : wf h -> n_collof h n = Some l -> exists p, nth_error (content h l) p = Some n.
Proof. intros W H. apply In_nth_error. apply layer_ok_member; [apply wf_layers; assumption|assumption]. Qed.
Lemma node_i_bound h n l : wf h -> n_collof h n = Some l -> node_i h n = Ok (n_idof h n).
Proof.
  intros W H. pose proof (bound_pos h n l W H). unfold node_i. destruct (Z.eqb_spec (n_idof h n) (-1)); [lia|reflexivity].
Qed.
Lemma same_order h h' a b l : wf h -> wf h' -> looks_same h h' -> n_collof h a = Some l -> n_collof h b = Some l ->
  n_idof h a <= n_idof h b -> n_idof h' a <= n_idof h' b.
Proof.
  intros W W' S Ha Hb Hle. destruct (member_nth h a l W Ha) as [p Hp]. destruct (member_nth h b l W Hb) as [q Hq].
  pose proof (id_order h l q p b a (wf_layers h W l) Hq Hp) as O1.
  pose proof (same_content h h' l W W' S) as Ec.
  assert (Hp' : nth_error (content h' l) p = Some a) by (rewrite Ec; assumption).
  assert (Hq' : nth_error (content h' l) q = Some b) by (rewrite Ec; assumption).
  pose proof (id_order h' l q p b a (wf_layers h' W' l) Hq' Hp') as O2. lia.
Qed.
Lemma same_nodespan h h' a b ns : wf h -> wf h' -> looks_same h h' -> nodespan_iter h a b = Ok ns -> nodespan_iter h' a b = Ok ns.
Proof.
  intros W W' S H. assert (Hl : exists l, n_collof h a = Some l /\ n_collof h b = Some l /\ n_idof h a <= n_idof h b).
  { unfold nodespan_iter in H. unfold node_i in H. destruct (n_idof h a =? -1); [discriminate|]. destruct (n_idof h b =? -1) eqn:Eb; [discriminate|].
    cbn [rbind] in H. destruct (n_idof h a <=? n_idof h b) eqn:El; [|discriminate]. cbn [negb] in H.
    unfold iter_span, node_i in H. rewrite Eb in H. destruct (n_idof h a =? -1); [discriminate|]. cbn [rbind] in H.
    destruct (n_collof h a) as [l|] eqn:Ca; [|discriminate]. rewrite El in H. unfold iter_nodespan, node_i in H. rewrite Eb in H.
    destruct (n_idof h a =? -1); [discriminate|]. cbn [rbind] in H. rewrite El, Ca in H. cbn [negb] in H.
    exists l. split; [reflexivity|]. destruct (n_collof h b) as [l'|] eqn:Cb; cbn in H.
    - destruct (Nat.eqb_spec l l'); [|discriminate]. subst. split; [reflexivity|]. apply Z.leb_le. assumption.
    - discriminate. }
  destruct Hl as (l & Ca & Cb & Hle). destruct (member_nth h a l W Ca) as [p Hp]. destruct (member_nth h b l W Cb) as [q Hq].
  pose proof (id_order h l q p b a (wf_layers h W l) Hq Hp) as O1. assert (Hpq : (p <= q)%nat) by lia.
  destruct (nodespan_spec h l p q a b (wf_layers h W l) Hp Hq Hpq) as (_ & E & _). rewrite E in H. injection H as <-.
  pose proof (same_content h h' l W W' S) as Ec. rewrite <- Ec in Hp, Hq.
  destruct (nodespan_spec h' l p q a b (wf_layers h' W' l) Hp Hq Hpq) as (_ & E' & _). rewrite E', Ec. reflexivity.
Qed.
Lemma same_named h h' name n : looks_same h h' -> in_named h name n -> in_named h' name n.
Proof. intros S (l & H1 & H2). exists l. rewrite (same_coll _ _ S), (same_name _ _ S). auto. Qed.
Lemma same_accepts h h' d v : wf h -> wf h' -> looks_same h h' ->
  (forall a b, v = VNodeSpan a b -> n_collof h a = n_collof h b) -> accepts h d v -> accepts h' d v.
Proof.
  intros W W' S J (name & T & A). exists name. split; [assumption|]. remember (dt_class d) as c eqn:Ec. clear T Ec d.
  inversion A; subst; try (econstructor; eauto; fail).
  - constructor. eapply same_named; eauto.
  - pose proof (J a b eq_refl) as Ej. pose proof H as (l & Ca & _). rewrite Ca in Ej. symmetry in Ej.
    rewrite (node_i_bound h a l W Ca) in H1. rewrite (node_i_bound h b l W Ej) in H2. injection H1 as <-. injection H2 as <-.
    assert (Ca' : n_collof h' a = Some l) by (rewrite (same_coll _ _ S); assumption).
    assert (Cb' : n_collof h' b = Some l) by (rewrite (same_coll _ _ S); assumption).
    econstructor; [eapply same_named; eauto|eapply same_named; eauto|apply (node_i_bound h' a l W' Ca')|apply (node_i_bound h' b l W' Cb')|].
    apply (same_order h h' a b l); assumption.
  - constructor. intros n Hn. eapply same_named; eauto.
  - apply (ad_nodecoll h' name a b ns); [apply (same_nodespan h h'); assumption|]. intros n Hn. eapply same_named; eauto.
Qed.

(** ** what a compiled document satisfies *)
Lemma check_nodes_ok h l ns : check_nodes h l ns = Ok tt -> forall n, In (Some n) ns ->
  (exists b, validate h l n = Ok b) /\ (forall f v, In (f, v) (n_fieldsof h n) -> In f (dkeys (l_fields (h_layer h l)))).
Proof.
  induction ns as [|[m|] ns IH]; intros H n Hn; simpl in H; [destruct Hn| |discriminate].
  destruct (validate h l m) as [b|] eqn:Ev; [|discriminate]. cbn [rbind] in H.
  destruct (forallb _ _) eqn:Ef; [|discriminate]. destruct Hn as [[= <-]|Hn]; [|auto].
  split; [eauto|]. intros f v Hf. rewrite forallb_forall in Ef. specialize (Ef _ Hf). simpl in Ef. apply dmem_In. assumption.
Qed.
Lemma compile_layers_checked ls : forall h acc h1 x, compile_layers h ls true acc = (h1, Ok x) -> forall k l, In (k, l) ls ->
  exists pre suf, map snd ls = pre ++ suf /\ check_nodes (fold_left layer_prepare pre h) l (layer_iter (fold_left layer_prepare pre h) l) = Ok tt.
Proof.
  induction ls as [|[k l] ls IH]; intros h acc h1 x E k0 l0 Hin; [destruct Hin|]. simpl in E.
  destruct (compile_layer h l true acc) as [h2 [a|e]] eqn:El; [|discriminate].
  pose proof (compile_layer_heap h l true acc) as Eh. rewrite El in Eh. simpl in Eh. subst h2. destruct Hin as [[= <- <-]|Hin].
  - exists [l], (map snd ls). split; [reflexivity|]. simpl. unfold compile_layer in El.
    destruct (check_nodes _ _ _) as [[]|]; [reflexivity|discriminate].
  - destruct (IH _ _ _ _ E _ _ Hin) as (pre & suf & E1 & E2). exists (l :: pre), suf. simpl. rewrite E1. auto.
Qed.

Lemma opt_name_ok t key x : opt_name t key = Ok x <-> dget (dt_opts t) key = Some (VStr x).
Proof.
  unfold opt_name, dgetE. destruct (dget (dt_opts t) key) as [[]|]; simpl; split; intros H; try discriminate; try congruence.
Qed.
Lemma field_refs_ok fs : forall a b, field_refs fs = Ok (a, b) -> forall f t, In (f, t) fs ->
  option_ok t /\ (forall x, targets_layer t x -> In x a) /\ (forall x, targets_text t x -> In x b).
Proof.
  induction fs as [|[f t] fs IH]; intros a b H f0 t0 Hin; simpl in H; [destruct Hin|].
  match type of H with rbind ?m _ = _ => destruct m as [[a1 b1]|] eqn:E1 end; [|discriminate]. cbn [rbind] in H.
  destruct (field_refs fs) as [[a2 b2]|] eqn:E2; [|discriminate]. cbn [rbind] in H. injection H as <- <-.
  destruct Hin as [[= <- <-]|Hin].
  - unfold option_ok, targets_layer, targets_text. clear IH E2.
    destruct (dt_name t) eqn:En; simpl;
    try (split; [split; [intros; exfalso; intuition discriminate|discriminate]|split; [intros x [Hx _]; exfalso; intuition discriminate|intros x [Hx _]; discriminate]]);
    match type of E1 with rbind ?m _ = _ => destruct m as [y|] eqn:Eo end; try discriminate; cbn [rbind] in E1; injection E1 as <- <-; apply opt_name_ok in Eo;
    (split; [split; [first [solve [eauto]|intros; exfalso; intuition discriminate]|first [solve [eauto]|discriminate]]|]);
    (split; [intros x [Hx1 Hx2]; try (exfalso; intuition discriminate)|intros x [Hx1 Hx2]; try discriminate]);
    rewrite Eo in Hx2; injection Hx2 as <-; left; reflexivity.
  - destruct (IH _ _ eq_refl _ _ Hin) as (O & L & T). split; [assumption|].
    split; intros x Hx; apply in_or_app; right; auto.
Qed.
Lemma layer_refs_ok h ls : forall a b, layer_refs h ls = Ok (a, b) -> forall k l f t, In (k, l) ls -> In (f, t) (l_fields (h_layer h l)) ->
  option_ok t /\ (forall x, targets_layer t x -> In x a) /\ (forall x, targets_text t x -> In x b).
Proof.
  induction ls as [|[k l] ls IH]; intros a b H k0 l0 f t Hin Hf; simpl in H; [destruct Hin|].
  destruct (field_refs (l_fields (h_layer h l))) as [[a1 b1]|] eqn:E1; [|discriminate]. cbn [rbind] in H.
  destruct (layer_refs h ls) as [[a2 b2]|] eqn:E2; [|discriminate]. cbn [rbind] in H. injection H as <- <-.
  destruct Hin as [[= <- <-]|Hin].
  - destruct (field_refs_ok _ _ _ E1 _ _ Hf) as (O & L & T). split; [assumption|]. split; intros x Hx; apply in_or_app; left; auto.
  - destruct (IH _ _ eq_refl _ _ _ _ Hin Hf) as (O & L & T). split; [assumption|]. split; intros x Hx; apply in_or_app; right; auto.
Qed.
Lemma check_refs_ok h d : check_refs h d = Ok tt -> forall k f t, declared h d k f t ->
  option_ok t /\ (forall x, targets_layer t x -> In x (dkeys (d_layers d))) /\ (forall x, targets_text t x -> In x (dkeys (d_texts d))).
Proof.
  unfold check_refs. intros H k f t (l & Hin & Hf). destruct (layer_refs h (d_layers d)) as [[a b]|] eqn:E; [|discriminate]. cbn [rbind] in H.
  destruct (forallb (fun x => dmem (d_layers d) x) a) eqn:E1; [|discriminate].
  destruct (forallb (fun x => dmem (d_texts d) x) b) eqn:E2; [|discriminate].
  rewrite forallb_forall in E1, E2. destruct (layer_refs_ok _ _ _ _ E _ _ _ _ Hin Hf) as (O & L & T). split; [assumption|].
  split; intros x Hx; [apply dmem_In, E1, L|apply dmem_In, E2, T]; assumption.
Qed.

Lemma compile_checked h d h1 o : wf h -> known h d -> compile h d false true = (h1, Ok o) ->
  (forall k f t, declared h d k f t -> option_ok t /\
     (forall x, targets_layer t x -> In x (dkeys (d_layers d))) /\ (forall x, targets_text t x -> In x (dkeys (d_texts d)))) /\
  (forall k l n, doc_node h d k l n -> forall f v, In (f, v) (n_fieldsof h n) -> In f (dkeys (l_fields (h_layer h l)))) /\
  (spans_joined h d -> forall k l n, doc_node h d k l n -> schema_ok h l ->
     forall f t v, dget (l_fields (h_layer h l)) f = Some t -> dget (n_fieldsof h n) f = Some v -> 
     (forall g u m, dget (l_fields (h_layer h l)) g = Some u -> dget (n_fieldsof h n) g = Some (VNode m) -> dt_class u <> KNodespan) ->
     accepts h1 t v /\ accepts h t v).
Proof.
  intros W K E. pose proof E as Ek. unfold compile in E. destruct (check_refs h d) as [[]|] eqn:Er; [|discriminate].
  destruct (compile_layers _ _ _ _) as [h2 [acc|]] eqn:Ec; [|discriminate]. injection E as <- _.
  destruct (compile_keeps _ _ _ _ _ _ W K Ek) as (W1 & S1 & _). split; [exact (check_refs_ok _ _ Er)|].
  assert (Hc : forall k l n, doc_node h d k l n -> exists h', wf h' /\ looks_same h h' /\ 
     (exists b, validate h' l n = Ok b) /\ (forall f v, In (f, v) (n_fieldsof h' n) -> In f (dkeys (l_fields (h_layer h' l))))).
  { intros k l n [Hin Hn]. destruct (compile_layers_checked _ _ _ _ _ Ec _ _ Hin) as (pre & suf & E1 & E2).
    destruct (prepared_same h pre W (known_all _ _ _ _ K E1)) as (W' & S & _). cbv zeta in *.
    exists (fold_left layer_prepare pre h). split; [assumption|]. split; [assumption|]. apply (check_nodes_ok _ _ _ E2).
    rewrite (same_iter _ _ S). assumption. }
  split.
  - intros k l n Hn f v Hf. destruct (Hc _ _ _ Hn) as (h' & W' & S & _ & H). rewrite (same_fields _ _ S), (same_schema _ _ S) in H. eauto.
  - intros J k l n Hn Hs f t v Ht Hv Hno. destruct (Hc _ _ _ Hn) as (h' & W' & S & [b Hb] & _).
    assert (Hcoll : n_collof h n = Some l).
    { destruct Hn as [_ Hn]. rewrite iter_wf in Hn by assumption. apply In_map_some in Hn. apply layer_ok_member in Hn; [assumption|apply wf_layers; assumption]. }
    assert (Hcoll' : n_collof h' n = Some l) by (rewrite (same_coll _ _ S); assumption).
    assert (Hs' : schema_ok h' l) by (unfold schema_ok; rewrite (same_schema _ _ S); exact Hs).
    destruct (validate_spec h' l n W' Hcoll' Hs') as [V1 V2].
    assert (Ha : accepts h' t v).
    { destruct b.
      - apply (proj1 V1 Hb f); [rewrite (same_schema _ _ S)|rewrite (same_fields _ _ S)]; assumption.
      - exfalso. destruct (V2 Hb) as (g & u & w & G1 & G2 & _ & G3 & m & ->). rewrite (same_schema _ _ S) in G1. rewrite (same_fields _ _ S) in G2.
        exact (Hno _ _ _ G1 G2 G3). }
    assert (Hj : forall a b, v = VNodeSpan a b -> n_collof h' a = n_collof h' b).
    { intros a' b' ->. rewrite !(same_coll _ _ S). eapply J; eauto. }
    split.
    + apply (same_accepts h' h2); auto. eapply looks_same_trans; [apply looks_same_sym; eassumption|assumption].
    + apply (same_accepts h' h); auto. apply looks_same_sym. assumption.
Qed.

(** ** remove_layer *)
Lemma refers_spec name t : option_ok t -> exists b, refers name t = Ok b /\ (b = true <-> refers_to name t).
Proof.
  intros [O _]. unfold refers, refers_to. destruct (dt_name t) eqn:E; try (exists false; split; [reflexivity|]; simpl; split; [discriminate|intros [H _]; exfalso; intuition discriminate]);
  (destruct O as [x Hx]; [simpl; auto|]); rewrite (opt_is_spec _ _ _ name Hx); eexists; (split; [reflexivity|]); rewrite Hx.
  - destruct (str_eqb_spec name x) as [->|Hne]; split; intros H; auto; try (split; [simpl; auto|reflexivity]); try discriminate. destruct H as [_ H]; injection H as H; congruence.
  - destruct (str_eqb_spec name x) as [->|Hne]; split; intros H; auto; try (split; [simpl; auto|reflexivity]); try discriminate. destruct H as [_ H]; injection H as H; congruence.
Qed.
Lemma refer_fields_spec name fs : (forall f t, In (f, t) fs -> option_ok t) -> exists q, refer_fields name fs = Ok q /\
  (forall f, In f q <-> exists t, In (f, t) fs /\ refers_to name t).
Proof.
  induction fs as [|[f t] fs IH]; intros O; simpl.
  - exists []. split; [reflexivity|]. intros f. simpl. split; [tauto|intros (t & [] & _)].
  - destruct (refers_spec name t (O f t (or_introl eq_refl))) as (b & -> & Hb). destruct IH as (q & -> & Hq); [intros; eapply O; right; eassumption|].
    cbn [rbind]. eexists. split; [reflexivity|]. intros g. destruct b; simpl; rewrite Hq; split.
    + intros [<-|(u & H1 & H2)]; [exists t; split; [auto|apply Hb; reflexivity]|exists u; auto].
    + intros (u & [[= <- <-]|H1] & H2); [auto|right; eauto].
    + intros (u & H1 & H2). exists u. auto.
    + intros (u & [[= <- <-]|H1] & H2); [apply Hb in H2; discriminate|eauto].
Qed.
Lemma referencing_spec h name ls : (forall k l f t, In (k, l) ls -> In (f, t) (l_fields (h_layer h l)) -> option_ok t) ->
  exists q, referencing h name ls = Ok q /\
  (q <> [] <-> exists k l f t, In (k, l) ls /\ k <> name /\ In (f, t) (l_fields (h_layer h l)) /\ refers_to name t).
Proof.
  induction ls as [|[k l] ls IH]; intros O; simpl.
  - exists []. split; [reflexivity|]. split; [congruence|intros (k & l & f & t & [] & _)].
  - destruct IH as (q & Eq & Hq); [intros; eapply O; [right|]; eassumption|]. destruct (str_eqb_spec k name) as [->|Hne].
    + exists q. split; [assumption|]. rewrite Hq. split.
      * intros (k & l' & f & t & H & R). exists k, l', f, t. auto.
      * intros (k & l' & f & t & [[= <- <-]|H] & R); [destruct R; congruence|exists k, l', f, t; auto].
    + destruct (refer_fields_spec name (l_fields (h_layer h l))) as (fs & -> & Hfs); [intros; eapply O; [left; reflexivity|]; eassumption|].
      rewrite Eq. cbn [rbind]. destruct fs as [|f0 fs].
      * exists q. split; [reflexivity|]. rewrite Hq. split.
        -- intros (k' & l' & f & t & H & R). exists k', l', f, t. auto.
        -- intros (k' & l' & f & t & [[= <- <-]|H] & N & F & R); [|exists k', l', f, t; auto].
           exfalso. destruct (proj2 (Hfs f)). exists t. auto.
      * eexists. split; [reflexivity|]. split; [intros _|discriminate].
        destruct (proj1 (Hfs f0) (or_introl eq_refl)) as (t & T1 & T2). exists k, l, f0, t. auto.
Qed.
Lemma remove_layer_spec h d name : NoDup (dkeys (d_layers d)) -> (forall k f t, declared h d k f t -> option_ok t) ->
  (~ In name (dkeys (d_layers d)) -> forall c, remove_layer h d name c = Ok (d, Some false)) /\
  (In name (dkeys (d_layers d)) ->
   (exists k f t, declared h d k f t /\ k <> name /\ refers_to name t) -> remove_layer h d name false = Err DataValidationError) /\
  (In name (dkeys (d_layers d)) -> forall c,
   c = true \/ ~ (exists k f t, declared h d k f t /\ k <> name /\ refers_to name t) ->
   exists d', remove_layer h d name c = Ok (d', None) /\ d_props d' = d_props d /\ d_texts d' = d_texts d /\
     (forall k l, In (k, l) (d_layers d') <-> In (k, l) (d_layers d) /\ k <> name) /\
     (exists a l b, d_layers d = a ++ (name, l) :: b /\ d_layers d' = a ++ b)).
Proof.
  intros ND O.
  destruct (referencing_spec h name (d_layers d)) as (q & Eq & Hq). { intros k l f t H1 H2. apply (O k f t). exists l. auto. }
  assert (Hiff : q <> [] <-> exists k f t, declared h d k f t /\ k <> name /\ refers_to name t).
  { rewrite Hq. unfold declared. split.
    - intros (k & l & f & t & A & B & C & D). exists k, f, t. split; [exists l; auto|auto].
    - intros (k & f & t & (l & A & C) & B & D). exists k, l, f, t. auto. }
  unfold remove_layer. split; [|split].
  - intros H c. destruct (dmem (d_layers d) name) eqn:E; [apply dmem_In in E; contradiction|reflexivity].
  - intros H R. apply dmem_In in H. rewrite H, Eq. cbn. apply Hiff in R. destruct q; [congruence|reflexivity].
  - intros H c R. pose proof H as H'. apply dmem_In in H. rewrite H, Eq. cbn [rbind negb].
    assert (Hb : negb c && negb match q with [] => true | _ => false end = false).
    { destruct R as [->|R]; [reflexivity|]. destruct q; [rewrite andb_false_r; reflexivity|]. exfalso. apply R, Hiff. discriminate. }
    rewrite Hb. eexists. split; [reflexivity|]. simpl. split; [reflexivity|]. split; [reflexivity|].
    assert (G : exists a l b, d_layers d = a ++ (name, l) :: b /\ ddel (d_layers d) name = a ++ b /\ ~ In name (dkeys a)).
    { clear -H'. induction (d_layers d) as [|[k l] r IH]; [destruct H'|]. simpl. destruct (str_eqb_spec name k) as [->|Hne].
      - exists [], l, r. simpl. auto.
      - destruct H' as [<-|H']; [simpl in Hne; congruence|]. destruct (IH H') as (a & l' & b & -> & -> & Hn).
        exists ((k, l) :: a), l', b. simpl. split; [reflexivity|]. split; [reflexivity|]. intros [<-|X]; [congruence|contradiction]. }
    destruct G as (a & l & b & Ea & Eb & Hn). split; [|exists a, l, b; auto].
    intros k l'. rewrite Eb, Ea. unfold dkeys in *. rewrite Ea, map_app in ND. simpl in ND. apply NoDup_remove_2 in ND. rewrite !in_app_iff. simpl. split.
    + intros Hin. split; [tauto|]. intros ->. apply ND. rewrite in_app_iff. destruct Hin as [Hin|Hin]; [left|right]; apply (in_map fst) in Hin; assumption.
    + intros [[Hin|[[= <- <-]|Hin]] Hne]; [auto|congruence|auto].
Qed.
