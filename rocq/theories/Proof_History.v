(** The layers of the heap refine the plain-list machine. *)
From Verif Require Import PyBase PyBaseFacts Model_Heap Model_Layer Model_Types Spec_Layer Spec_History
  Proof_Heap Proof_Layer Proof_Layer2 Proof_Layer3.
Local Open Scope Z_scope.

Section History.
Context {K : Type} (leb : K -> K -> bool).

Record Rel (h : heap) (a : astate) : Prop := {
  rel_list : forall l, content h l = a_list a l;
  rel_nn : h_nnext h = a_nn a;
  rel_ln : h_lnext h = a_ln a }.

Lemma bound_layer h n l : wf h -> n_collof h n = Some l -> (l < h_lnext h)%nat.
Proof.
  intros W H. destruct (le_lt_dec (h_lnext h) l) as [Hle|]; [|assumption]. exfalso.
  destruct (ok_coll _ _ (wf_layers h W l) n H) as (i & _ & Hi). rewrite (wf_fresh_l h W l Hle) in Hi. destruct i; discriminate.
Qed.

Lemma is_bound_a h a n : wf h -> Rel h a -> is_bound h n = a_bound a n.
Proof.
  intros W [Rl Rn Rll]. unfold is_bound, a_bound. apply eq_true_iff_eq. split.
  - destruct (n_collof h n) as [l|] eqn:E; [|discriminate]. intros _. apply existsb_exists. exists l.
    split; [apply in_seq; rewrite <- Rll; simpl; pose proof (bound_layer h n l W E); lia|].
    apply mem_nid_In. rewrite <- Rl. apply layer_ok_member; [apply wf_layers|]; assumption.
  - intros H. apply existsb_exists in H. destruct H as (l & _ & Hm). apply mem_nid_In in Hm. rewrite <- Rl in Hm.
    apply layer_ok_member in Hm; [|apply wf_layers; assumption]. rewrite Hm. reflexivity.
Qed.

Lemma upd_same {A} (f : nat -> A) k v : upd f k v k = v. Proof. unfold upd. rewrite Nat.eqb_refl. reflexivity. Qed.
Lemma upd_other {A} (f : nat -> A) k v j : j <> k -> upd f k v j = f j.
Proof. intros H. unfold upd. destruct (Nat.eqb_spec j k); congruence. Qed.

Lemma rel_set l h h' a c : Rel h a -> frame l h h' -> content h' l = c -> Rel h' (a_set a l c).
Proof.
  intros [Rl Rn Rll] F Ec. split; simpl.
  - intros k. destruct (Nat.eq_dec k l) as [->|Hne]; [rewrite upd_same; assumption|]. rewrite upd_other by assumption.
    rewrite <- Rl. apply (content_frame l); assumption.
  - rewrite (fr_nnext _ _ _ F). assumption.
  - rewrite (fr_lnext _ _ _ F). assumption.
Qed.

Lemma Rel_ext h a a' : Rel h a -> (forall l, a_list a' l = a_list a l) -> a_nn a' = a_nn a -> a_ln a' = a_ln a -> Rel h a'.
Proof. intros [Rl Rn Rll] E1 E2 E3. split; intros; rewrite ?E1, ?E2, ?E3; auto. Qed.

Lemma take_unbound_leading ns : NoDup (live ns) -> forall b seen, (forall n, In n (live ns) -> b n = false /\ ~ In n seen) ->
  take_unbound b seen ns = (leading_nodes ns, forallb (fun x => match x with Some _ => true | None => false end) ns).
Proof.
  induction ns as [|[n|] ns IH]; intros Hnd b seen H; simpl; [reflexivity| |reflexivity].
  simpl in Hnd. inversion Hnd as [|? ? Hni Hnd']; subst. destruct (H n (or_introl eq_refl)) as [E1 E2]. rewrite E1.
  destruct (mem_nid n seen) eqn:Em; [apply mem_nid_In in Em; contradiction|]. simpl.
  rewrite IH; [reflexivity|assumption|]. intros m Hm. destruct (H m (or_intror Hm)) as [F1 F2]. split; [assumption|].
  intros [<-|X]; [apply Hni; assumption|contradiction].
Qed.

Lemma without_absent n c : ~ In n c -> without n c = c.
Proof.
  intros H. apply filter_all_true. intros m Hm. destruct (Nat.eqb_spec m n) as [->|]; [contradiction|reflexivity].
Qed.

Lemma prepare_all_spec ls : forall h, wf h -> Forall (fun l => (l < h_lnext h)%nat) ls ->
  let h' := fold_left layer_prepare ls h in
  wf h' /\ (forall l, content h' l = content h l) /\ h_nnext h' = h_nnext h /\ h_lnext h' = h_lnext h /\
  (forall n, n_fieldsof h' n = n_fieldsof h n /\ n_collof h' n = n_collof h n) /\
  (forall l, In l ls -> no_gaps h' l) /\ (forall l, no_gaps h l -> no_gaps h' l) /\
  (forall l, l_fields (h_layer h' l) = l_fields (h_layer h l) /\ l_nameof h' l = l_nameof h l).
Proof.
  induction ls as [|l ls IH]; intros h W Hl; simpl.
  - split; [assumption|]. split; [auto|]. split; [reflexivity|]. split; [reflexivity|]. split; [auto|]. split; [intros k []|]. split; auto.
  - inversion Hl as [|? ? Hl1 Hl2]; subst. destruct (prepare_spec h l (wf_layers h W l)) as (S & Ok1 & G & C & Cl).
    assert (W1 : wf (layer_prepare h l)) by (eapply wf_by_shrink; eauto).
    destruct (IH (layer_prepare h l) W1) as (W2 & C2 & N2 & L2 & F2 & G2 & G3 & S2).
    { rewrite (fr_lnext _ _ _ (sh_frame _ _ _ S)). assumption. }
    split; [assumption|].
    split; [intros k; rewrite C2; destruct (Nat.eq_dec k l) as [->|Hne]; [assumption|apply (content_frame l); [apply S|assumption]]|].
    split; [rewrite N2; apply S|]. split; [rewrite L2; apply S|].
    split; [intros n; destruct (F2 n) as [-> ->]; split; [apply S|apply Cl]|].
    split; [intros k [<-|Hk]; auto|].
    split.
    { intros k Hk. apply G3. destruct (Nat.eq_dec k l) as [->|Hne]; [assumption|]. unfold no_gaps, l_nodesof in *.
      rewrite (fr_layer _ _ _ (sh_frame _ _ _ S)) by assumption. assumption. }
    intros k. destruct (S2 k) as [-> ->]. destruct (Nat.eq_dec k l) as [->|Hne].
    + split; [apply S|apply S].
    + unfold l_nameof. rewrite (fr_layer _ _ _ (sh_frame _ _ _ S)) by assumption. auto.
Qed.

Lemma wf_set_fields h n f : wf h -> wf (set_fields h n f).
Proof.
  intros W. apply (wf_same_slots h); [assumption| | |apply le_n|reflexivity| |].
  - intros m. hs. auto.
  - intros l. hs. auto.
  - intros l. apply (wf_defaults h W).
  - intros l. apply (wf_schema h W).
Qed.

Lemma step_refines h a o h' ok : wf h -> Rel h a -> op_ok h o -> exec leb h o = (h', ok) ->
  wf h' /\ Rel h' (spec_step leb h a o ok) /\ (forall b, spec_ok a o = Some b -> ok = b).
Proof.
  intros W R Hop E. destruct o; cbn [exec op_ok] in Hop, E.
  - (* ONode *) destruct (new_node h f) as [h1 n] eqn:En. injection E as <- <-. simpl.
    destruct (new_node_spec h f h1 n W En) as (W1 & E1 & E2 & E3 & E4 & _).
    split; [assumption|]. split; [|discriminate]. destruct R as [Rl Rn Rll]. split; simpl; [|congruence|congruence].
    intros l. rewrite <- Rl. apply content_layer. rewrite E4. reflexivity.
  - (* OLayer *) destruct (alloc_layer h (new_layer name fs)) as [h1 l] eqn:El. injection E as <- <-. simpl.
    destruct (alloc_layer_spec h name fs h1 l W Hop El) as (W1 & E1 & E2 & E3 & E4 & E5 & E6 & E7 & E8).
    split; [assumption|]. split; [|discriminate]. destruct R as [Rl Rn Rll]. split; simpl; [|congruence|congruence].
    intros k. rewrite <- Rl. destruct (Nat.eq_dec k l) as [->|Hne]; [congruence|]. apply content_layer. auto.
  - (* OAdd *) destruct Hop as [Hl Hnd]. destruct (layer_add_kw h l kw) as [h1 r] eqn:Ea. unfold done in E. simpl in E.
    pose proof (add_kw_spec h l kw h1 r W Hl Ea) as S. destruct r as [n|e]; injection E as <- <-; simpl.
    + destruct S as (W1 & -> & Ec & El & Em & _ & _ & _ & _ & _ & N1 & N2 & _). split; [assumption|]. split; [|discriminate].
      destruct R as [Rl Rn Rll]. split; simpl; [|congruence|congruence]. intros k.
      destruct (Nat.eq_dec k l) as [->|Hne]; [rewrite upd_same, Ec, Rl, Rn; reflexivity|]. rewrite upd_other by assumption.
      rewrite <- Rl. apply content_layer. auto.
    + subst h1. split; [assumption|]. split; [assumption|discriminate].
  - (* OAddNodes *) destruct Hop as (Hl & Ha & Hnd & Hub). destruct (layer_add_nodes h l args) as [h1 r] eqn:Ea. unfold done in E. simpl in E.
    pose proof (add_nodes_spec l args h W Hl Ha Hnd Hub h1 r Ea) as S.
    rewrite take_unbound_leading in S; [|assumption|].
    2:{ intros n Hn. split; [unfold is_bound; rewrite (Hub n Hn); reflexivity|intros []]. }
    destruct S as (W1 & G & Er). injection E as <- <-. simpl. split; [assumption|]. split.
    + apply (rel_set l h); [assumption|apply G|]. rewrite (grown_content l h h1 _ l G), Nat.eqb_refl. rewrite (rel_list h a R). reflexivity.
    + intros b [= <-]. rewrite Er. destruct (forallb _ args); reflexivity.
  - (* OAddMany *) destruct Hop as (Hl & Ha). destruct (layer_add_many h l one_shot ns default_fill full_validation) as [h1 r] eqn:Ea.
    unfold done in E. simpl in E. injection E as <- <-.
    destruct (add_many_spec h l _ ns _ _ h1 r W Hl Ha Ea) as (W1 & F & Es & _). split; [assumption|]. split; [|discriminate].
    simpl. apply (rel_set l h); [assumption|assumption|].
    unfold content. rewrite Es, live_app, live_map_some. fold (content h l). rewrite (rel_list h a R). f_equal. f_equal.
    apply take_unbound_ext. intros m. rewrite (is_bound_a h a m W R). reflexivity.
  - (* ORemove *) destruct (layer_remove h l n) as [h1 r] eqn:Er. unfold done in E. simpl in E. injection E as <- <-.
    destruct (remove_spec h l n h1 r (wf_layers h W l) Er) as (S & Ok1 & C). split; [eapply wf_by_shrink; eauto|]. simpl.
    rewrite (rel_list h a R) in C. destruct (mem_nid n (a_list a l)) eqn:Em.
    + destruct C as (-> & C & _). split; [apply (rel_set l h); [assumption|apply S|assumption]|intros b [= <-]; reflexivity].
    + destruct C as (-> & ->). split; [|intros b [= <-]; reflexivity]. apply (rel_set l h); [assumption|apply frame_refl|].
      rewrite without_absent; [apply rel_list; assumption|]. intros X. apply mem_nid_In in X. congruence.
  - (* ORemoveMany *) destruct (layer_remove_many h l is_list items) as [h1 r] eqn:Er. unfold done in E. simpl in E. injection E as <- <-.
    destruct (remove_many_spec h l _ items h1 r (wf_layers h W l) Er) as (S & Ok1 & C & _ & Hr). split; [eapply wf_by_shrink; eauto|]. simpl.
    rewrite (rel_list h a R) in C, Hr. split; [apply (rel_set l h); [assumption|apply S|assumption]|].
    intros b [= <-]. destruct (snd (list_remove (a_list a l) items)); [subst r; reflexivity|]. destruct Hr as [-> | ->]; reflexivity.
  - (* ODetach *) unfold node_detach in E. pose proof (is_bound_a h a n W R) as Hb. unfold is_bound in Hb.
    destruct (n_collof h n) as [l|] eqn:En.
    + pose proof (bound_layer h n l W En) as Hl.
      destruct (layer_remove h l n) as [h1 r] eqn:Er. unfold done in E. simpl in E. injection E as <- <-.
      destruct (remove_spec h l n h1 r (wf_layers h W l) Er) as (S & Ok1 & C). split; [eapply wf_by_shrink; eauto|]. simpl.
      assert (Hin : In n (content h l)) by (apply layer_ok_member; [apply wf_layers; assumption|assumption]).
      rewrite (proj2 (mem_nid_In n (content h l)) Hin) in C. destruct C as (-> & C & _).
      split; [|intros b [= <-]; assumption].
      destruct R as [Rl Rn Rll]. split; simpl; [|rewrite (fr_nnext _ _ _ (sh_frame _ _ _ S)); assumption|rewrite (fr_lnext _ _ _ (sh_frame _ _ _ S)); assumption].
      intros k. destruct (Nat.eq_dec k l) as [->|Hne]; [rewrite C, Rl; reflexivity|].
      rewrite (content_frame l h h1 k) by (try apply S; assumption). rewrite Rl. symmetry. apply without_absent.
      rewrite <- Rl. intros X. apply layer_ok_member in X; [|apply wf_layers; assumption]. congruence.
    + unfold done in E. simpl in E. injection E as <- <-. split; [assumption|]. split; [|intros b [= <-]; assumption].
      simpl. apply (Rel_ext h a); auto. intros l. simpl. apply without_absent. rewrite <- (rel_list h a R). intros X.
      apply layer_ok_member in X; [|apply wf_layers; assumption]. congruence.
  - (* ORetain *) destruct Hop as (Hl & Hg & Hn & Hin). destruct (retain_spec h l ns (wf_layers h W l) Hg Hin Hn) as (h1 & E1 & S & Ok1 & G1 & C & _).
    rewrite E1 in E. unfold done in E. simpl in E. injection E as <- <-. split; [eapply wf_by_shrink; eauto|]. simpl.
    split; [|intros b [= <-]; reflexivity]. apply (rel_set l h); [assumption|apply S|]. rewrite C, (rel_list h a R). reflexivity.
  - (* OSort *) pose proof (wf_layers h W l) as Hok. destruct (mapM (keyfn h) (content h l)) as [ks|e] eqn:Ek.
    + destruct (sort_spec leb (keyfn h) h l ks Hok Ek) as (h1 & E1 & S & Ok1 & G1 & C & _). rewrite E1 in E. unfold done in E. simpl in E.
      injection E as <- <-. split; [eapply wf_by_shrink; eauto|]. split; [|discriminate]. simpl.
      apply (rel_set l h); [assumption|apply S|]. rewrite C, (rel_list h a R). reflexivity.
    + rewrite (sort_raises leb (keyfn h) h l e Hok Ek) in E. unfold done in E. simpl in E. injection E as <- <-.
      split; [apply wf_compact; assumption|]. split; [|discriminate]. simpl.
      apply (rel_set l h); [assumption|apply compact_shrink; assumption|]. rewrite compact_content by assumption.
      rewrite (rel_list h a R) in *. unfold list_sort. rewrite Ek. reflexivity.
  - (* OCompact *) injection E as <- <-. split; [apply wf_compact; assumption|]. split; [|intros b [= <-]; reflexivity]. simpl.
    pose proof (compact_shrink h l (wf_layers h W l)) as S. destruct R as [Rl Rn Rll]. split.
    + intros k. rewrite compact_content by (apply wf_layers; assumption). apply Rl.
    + rewrite (fr_nnext _ _ _ (sh_frame _ _ _ S)). assumption.
    + rewrite (fr_lnext _ _ _ (sh_frame _ _ _ S)). assumption.
  - (* OCompile *) injection E as <- <-. destruct (prepare_all_spec ls h W Hop) as (W1 & C & N1 & N2 & _). cbv zeta in *.
    split; [assumption|]. split; [|intros b [= <-]; reflexivity]. simpl. destruct R as [Rl Rn Rll]. split; try congruence.
  - (* OSetField *) injection E as <- <-. split.
    + apply wf_set_fields; assumption.
    + split; [|discriminate]. simpl. destruct R as [Rl Rn Rll]. split; auto.
  - (* ODelField *) destruct (dmem (n_fieldsof h n) k); injection E as <- <-.
    + split; [apply wf_set_fields; assumption|].
      split; [|discriminate]. simpl. destruct R as [Rl Rn Rll]. split; auto.
    + split; [assumption|]. split; [assumption|discriminate].
  - (* OAddField *) unfold done in E. simpl in E. destruct (dget (l_fields (h_layer h l)) k) as [x|] eqn:Ek.
    + unfold layer_add_field in E. unfold dmem in E. rewrite Ek in E. simpl in E. injection E as <- <-.
      split; [assumption|]. split; [assumption|discriminate].
    + destruct (add_field_spec h l k d init W Ek) as (h1 & E1 & W1 & _ & Es & _ & N1 & N2 & _). rewrite E1 in E. simpl in E. injection E as <- <-.
      split; [assumption|]. split; [|discriminate]. simpl. destruct R as [Rl Rn Rll]. split; [|congruence|congruence].
      intros j. rewrite <- Rl. unfold content. destruct (Es j) as [-> _]. reflexivity.
  - (* ORemoveField *) unfold done in E. simpl in E. pose proof (remove_field_spec h l k leave W) as S.
    destruct (dmem (l_fields (h_layer h l)) k).
    + destruct S as (h1 & E1 & W1 & _ & Es & _ & N1 & N2 & _). rewrite E1 in E. simpl in E. injection E as <- <-.
      split; [assumption|]. split; [|discriminate]. simpl. destruct R as [Rl Rn Rll]. split; [|congruence|congruence].
      intros j. rewrite <- Rl. unfold content. destruct (Es j) as [-> _]. reflexivity.
    + rewrite S in E. simpl in E. injection E as <- <-. split; [assumption|]. split; [assumption|discriminate].
Qed.

Lemma hist_refines h a os h' a' : hist leb h a os h' a' -> wf h -> Rel h a -> wf h' /\ Rel h' a'.
Proof.
  induction 1 as [|h a o os h1 ok h2 a2 Hop E _ IH]; intros W R; [auto|].
  destruct (step_refines h a o h1 ok W R Hop E) as (W1 & R1 & _). auto.
Qed.

Lemma wf_empty : wf empty_heap.
Proof.
  split; try reflexivity.
  - intros l. split; [reflexivity|intros [|i] n; discriminate|discriminate].
  - intros l. constructor.
Qed.
Lemma rel_empty : Rel empty_heap a_empty. Proof. split; reflexivity. Qed.

Lemma reachable_wf h : reachable leb h -> wf h.
Proof. intros (os & a & H). eapply hist_refines; eauto using wf_empty, rel_empty. Qed.

Lemma rel_iter h a l : wf h -> Rel h a -> layer_iter h l = map Some (a_list a l) /\ layer_len h l = zlen (a_list a l).
Proof.
  intros W [Rl _ _]. rewrite <- Rl. split; [apply iter_content, wf_layers; assumption|]. apply ok_num, wf_layers; assumption.
Qed.

Lemma history_main os h a : hist leb empty_heap a_empty os h a ->
  forall l, layer_iter h l = map Some (a_list a l) /\ layer_len h l = zlen (a_list a l).
Proof. intros H l. destruct (hist_refines _ _ _ _ _ H wf_empty rel_empty) as [W R]. apply rel_iter; assumption. Qed.

(** keys stay distinct *)
Lemma NoDup_dupdate {A} (e : dict A) : forall d, NoDup (dkeys d) -> NoDup (dkeys (dupdate d e)).
Proof.
  unfold dupdate. induction e as [|[k v] e IH]; intros d H; simpl; [assumption|]. apply IH. apply NoDup_dset. assumption.
Qed.
End History.
