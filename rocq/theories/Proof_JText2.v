(** Compiling a text of the Java port. *)
From Verif Require Import PyBase PyBaseFacts Model_Text Proof_Text Proof_Xml Proof_Codec4 Model_JText Spec_JText Proof_JText.
From Coq Require Import Sorted.
Local Open Scope Z_scope.

Lemma knows_entered t o : knows t o = true <-> entered t o.
Proof.
  unfold knows, entered. rewrite existsb_exists. split.
  - intros ((p & x) & H & E). simpl in E. apply andb_prop in E. destruct E as [E1 E2].
    apply Z.eqb_eq in E1. apply Nat.eqb_eq in E2. subst. assumption.
  - intros H. eexists. split; [exact H|]. simpl. rewrite Z.eqb_refl, Nat.eqb_refl. reflexivity.
Qed.
Lemma known_cuts_In t spans p : In p (known_cuts t spans) <-> exists o, In o (used spans) /\ entered t o /\ o_pos (jt_obj t o) = p.
Proof.
  unfold known_cuts. rewrite in_map_iff. split.
  - intros (o & E & H). apply filter_In in H. rewrite knows_entered in H. exists o. tauto.
  - intros (o & A & B & C). exists o. split; [assumption|]. apply filter_In. rewrite knows_entered. auto.
Qed.
Lemma used_current t spans o : Forall (current t) spans -> In o (used spans) -> entered t o.
Proof.
  intros F H. unfold used in H. apply in_flat_map in H. destruct H as (s & Hs & H). rewrite Forall_forall in F. apply F in Hs.
  destruct Hs as [A B]. simpl in H. destruct H as [<-|[<-|[]]]; assumption.
Qed.
Lemma known_cuts_current t spans : Forall (current t) spans -> known_cuts t spans = cut_at t spans.
Proof.
  intros F. unfold known_cuts, cut_at. f_equal. assert (G : forall o, In o (used spans) -> knows t o = true).
  { intros o H. apply knows_entered. eapply used_current; eassumption. }
  induction (used spans) as [|o l IH]; simpl; [reflexivity|]. rewrite G by (left; reflexivity). f_equal. apply IH. intros x Hx. apply G. right. assumption.
Qed.

(** the text with its map as it is cut *)
Definition pruned (t : jtext) (spans : list jspan) : jtext :=
  fst (jt_place (fst (jt_place (drop_unused (fold_left jt_incref spans (jt_reset t))) 0)) (zlen (jt_text t))).
Lemma pruned_spec t spans : jt_wf t -> let t3 := pruned t spans in
  jt_wf t3 /\ jt_name t3 = jt_name t /\ jt_text t3 = jt_text t /\ jt_valid t3 = jt_valid t /\ (jt_next t <= jt_next t3)%nat /\
  (forall o, (o < jt_next t)%nat -> o_pos (jt_obj t3 o) = o_pos (jt_obj t o) /\ o_num (jt_obj t3 o) = o_num (jt_obj t o)) /\
  (forall o, (o < jt_next t)%nat -> entered t3 o <-> entered t o /\ In o (used spans)) /\
  (forall p, In p (map fst (jt_map t3)) <-> p = 0 \/ p = zlen (jt_text t) \/ In p (known_cuts t spans)).
Proof.
  intros W t3. subst t3. unfold pruned.
  destruct (reset_spec t) as (A & An & Ar). destruct (increfs_spec spans (jt_reset t)) as (B & Bn & Br).
  set (t0 := fold_left jt_incref spans (jt_reset t)) in *.
  assert (L0 : alike t t0) by (eapply alike_trans; eassumption).
  assert (N0 : forall o, o_num (jt_obj t0 o) = o_num (jt_obj t o)) by (intros o; rewrite Bn; apply An).
  assert (W0 : jt_wf t0) by (eapply alike_wf; eassumption).
  assert (R0 : forall o, entered t o -> (o_ref (jt_obj t0 o) <> 0 <-> In o (used spans))).
  { intros o H. rewrite Br, Ar by assumption. pose proof (tally_pos o (used spans)) as T. split; intros X.
    - destruct (in_dec Nat.eq_dec o (used spans)); [assumption|]. exfalso. apply X. rewrite Z.add_0_l. apply T. assumption.
    - rewrite Z.add_0_l. intros Y. apply T in Y. contradiction. }
  clearbody t0. clear A An Ar B Bn Br. destruct L0 as (A1&A2&A3&A4&A5&A6).
  pose proof (drop_wf t0 W0) as W1.
  destruct (jt_place (drop_unused t0) 0) as [t2 z] eqn:E2.
  destruct (place_spec _ _ _ _ W1 E2) as (W2&P1&P2&P3&P4&P5&P6&P7&P8&P9&P10). simpl fst.
  destruct (jt_place t2 (zlen (jt_text t))) as [t4 y] eqn:E4.
  destruct (place_spec _ _ _ _ W2 E4) as (W4&Q1&Q2&Q3&Q4&Q5&Q6&Q7&Q8&Q9&Q10). simpl fst.
  change (jt_next (drop_unused t0)) with (jt_next t0) in *. change (jt_obj (drop_unused t0)) with (jt_obj t0) in *.
  change (jt_name (drop_unused t0)) with (jt_name t0) in *. change (jt_text (drop_unused t0)) with (jt_text t0) in *.
  change (jt_valid (drop_unused t0)) with (jt_valid t0) in *.
  assert (OB : forall o, (o < jt_next t)%nat -> jt_obj t4 o = jt_obj t0 o).
  { intros o H. rewrite Q6 by lia. apply P6. lia. }
  assert (MP : forall q o, In (q, o) (jt_map t4) <-> ((In (q, o) (jt_map t) /\ In o (used spans)) \/ (q = 0 /\ o = z)) \/ (q = zlen (jt_text t) /\ o = y)).
  { intros q o. rewrite Q8, P8, drop_spec by assumption. rewrite A5.
    assert (X : (In (q, o) (jt_map t) /\ o_ref (jt_obj t0 o) <> 0) <-> (In (q, o) (jt_map t) /\ In o (used spans))).
    { split; intros [X1 X2]; (split; [assumption|]); apply (R0 o); auto; destruct (mapped_entered _ _ _ W X1); assumption. }
    rewrite X. reflexivity. }
  split; [assumption|]. split; [congruence|]. split; [congruence|]. split; [congruence|]. split; [lia|]. split; [|split].
  - intros o H. rewrite OB by assumption. split; [apply A6|apply N0].
  - intros o H. unfold entered. rewrite OB, A6 by assumption. rewrite MP. split.
    + intros [[X|[X1 X2]]|[X1 X2]]; [assumption| |].
      * subst o. rewrite A4 in P10. specialize (P10 H). apply drop_spec in P10; [|assumption]. rewrite A5 in P10. rewrite X1.
        destruct P10 as [Y1 Y2]. split; [assumption|]. apply R0; [|assumption]. destruct (mapped_entered _ _ _ W Y1); assumption.
      * subst o. assert (Y : In (zlen (jt_text t), y) (jt_map t2)) by (apply Q10; lia). apply P8 in Y. rewrite X1. destruct Y as [Y|[Y1 Y2]].
        -- apply drop_spec in Y; [|assumption]. rewrite A5 in Y. destruct Y as [Y1 Y2]. split; [assumption|]. apply R0; [|assumption]. destruct (mapped_entered _ _ _ W Y1); assumption.
        -- subst z. rewrite A4 in P10. specialize (P10 H). apply drop_spec in P10; [|assumption]. rewrite A5 in P10. rewrite Y1.
           destruct P10 as [Z1 Z2]. split; [assumption|]. apply R0; [|assumption]. destruct (mapped_entered _ _ _ W Z1); assumption.
    + intros X. left. left. assumption.
  - intros p. rewrite known_cuts_In. split.
    + intros H. apply in_map_iff in H. destruct H as ((q & o) & E & H). simpl in E. subst q. apply MP in H.
      destruct H as [[[H1 H2]|[H1 H2]]|[H1 H2]]; [|auto|auto]. right. right. exists o. destruct (mapped_entered _ _ _ W H1). auto.
    + intros H. apply in_map_iff. destruct H as [->|[->|(o & H1 & H2 & H3)]].
      * exists (0, z). split; [reflexivity|]. apply MP. auto.
      * exists (zlen (jt_text t), y). split; [reflexivity|]. apply MP. auto.
      * exists (p, o). split; [reflexivity|]. apply MP. left. left. split; [|assumption]. rewrite <- H3. exact H2.
Qed.
Lemma pruned_sorted t spans : jt_wf t ->
  fold_right zset_insert [] (map fst (jt_map (pruned t spans))) = sorted_offsets (jt_text t) (known_cuts t spans).
Proof.
  intros W. destruct (pruned_spec t spans W) as (_&_&_&_&_&_&_&K). apply sorted_same; [apply zsort_sorted|apply sorted_offsets_sorted|].
  intros x. rewrite zsort_In, sorted_offsets_In. apply K.
Qed.
Lemma prepare_unfold t spans : jt_wf t -> jt_prepare t spans =
  let t3 := pruned t spans in
  match sorted_offsets (jt_text t) (known_cuts t spans) with
  | [] => (t3, Err RuntimeError)
  | [_] => (t3, Ok [[]])
  | p :: r => cut_loop (number t3 p 0) 1 p r
  end.
Proof.
  intros W. rewrite <- pruned_sorted by assumption. unfold jt_prepare, jt_compile.
  assert (E : jt_text (fold_left jt_incref spans (jt_reset t)) = jt_text t).
  { destruct (reset_spec t) as (A & _). destruct (increfs_spec spans (jt_reset t)) as (B & _).
    destruct A as (_&A&_). destruct B as (_&B&_). congruence. }
  rewrite E. reflexivity.
Qed.

Lemma text_compile_nonempty t l : forall a, StronglySorted Z.lt (a :: l) -> Forall (fun o => 0 <= o <= zlen t) (a :: l) ->
  ~ In [] (text_compile t (a :: l)).
Proof.
  induction l as [|b l IH]; intros a S F; [simpl; tauto|].
  inversion S as [|? ? S' La]; subst. inversion F as [|? ? Fa F']; subst. inversion La as [|? ? Lab _]; subst. inversion F' as [|? ? Fb F'']; subst.
  change (text_compile t (a :: b :: l)) with (py_slice t (Some a) (Some b) :: text_compile t (b :: l)). intros [E|E]; [|exact (IH b S' F' E)].
  unfold py_slice in E. simpl in E. rewrite !slice_norm_id in E by lia.
  assert (X : zlen (sub t a b) = b - a) by (apply sub_length; lia). rewrite E in X. unfold zlen in X. simpl in X. lia.
Qed.

Lemma offsets_empty c : Forall (fun o => 0 <= o <= 0) c -> sorted_offsets [] c = [0].
Proof.
  intros F. apply sorted_same; [apply sorted_offsets_sorted|repeat constructor|]. intros x. rewrite sorted_offsets_In. rewrite Forall_forall in F.
  unfold zlen; simpl. split; [intros [->|[->|H]]; [auto|auto|apply F in H; left; lia]|intros [<-|[]]; auto].
Qed.

Lemma prefix_eq {A} (a b x : list A) k : x = a ++ b -> 0 + zlen a = k -> a = firstn (Z.to_nat k) x.
Proof. intros -> E. symmetry. apply prefix_firstn. lia. Qed.
Theorem prepare_spec t spans : jt_ok t ->
  exists t' parts, jt_prepare t spans = (t', Ok parts) /\
  parts = cut_text (jt_text t) (known_cuts t spans) /\
  List.concat parts = jt_text t /\ (jt_text t <> [] -> ~ In [] parts) /\
  (forall o, (o < jt_next t)%nat -> o_pos (jt_obj t' o) = o_pos (jt_obj t o)) /\
  (forall o, entered t o -> In o (used spans) -> names parts (o_num (jt_obj t' o)) (o_pos (jt_obj t o)) (jt_text t)) /\
  (forall o, (o < jt_next t)%nat -> ~ (entered t o /\ In o (used spans)) -> o_num (jt_obj t' o) = o_num (jt_obj t o)) /\
  jt_ok t' /\ jt_name t' = jt_name t /\ jt_text t' = jt_text t /\ jt_valid t' = jt_valid t /\ (jt_next t <= jt_next t')%nat /\
  (forall o, (o < jt_next t)%nat -> entered t' o <-> entered t o /\ In o (used spans)).
Proof.
  intros [W R]. rewrite (prepare_unfold t spans W). destruct (pruned_spec t spans W) as (W3&Nm&Tx&Vd&Nx&Ob&En&Ky). set (t3 := pruned t spans) in *. cbv zeta.
  assert (F : Forall (fun o => 0 <= o <= zlen (jt_text t)) (known_cuts t spans)).
  { apply Forall_forall. intros p H. apply known_cuts_In in H. destruct H as (o & _ & H & <-). apply (R _ _ H). }
  assert (R3 : in_range t3).
  { intros p o H. rewrite Tx. apply (in_map fst) in H. change (fst (p, o)) with p in H. apply Ky in H. rewrite Forall_forall in F. pose proof (zlen_nonneg (jt_text t)). destruct H as [->|[->|H]]; [lia|lia|auto]. }
  set (ps := sorted_offsets (jt_text t) (known_cuts t spans)) in *.
  assert (TT : jt_text t = [] \/ jt_text t <> []) by (destruct (jt_text t); [left; reflexivity|right; discriminate]).
  destruct TT as [T|NE].
  - (* the empty text *)
    assert (E : ps = [0]) by (unfold ps; rewrite T in F |- *; apply offsets_empty; exact F).
    rewrite E, T. exists t3, [[]]. split; [reflexivity|]. split; [reflexivity|]. split; [reflexivity|]. split; [congruence|].
    split; [intros o H; apply Ob; assumption|]. split; [|split].
    + intros o H1 H2. pose proof (entered_lt _ _ W H1) as L. destruct (Ob o L) as [_ ->].
      assert (o_num (jt_obj t o) = 0) as -> by (apply W; assumption). split; [unfold zlen; simpl; lia|]. simpl. rewrite firstn_nil. reflexivity.
    + intros o L _. apply Ob. assumption.
    + split; [split; assumption|]. rewrite <- T. tauto.
  - assert (Lp : 0 < zlen (jt_text t)) by (destruct (jt_text t); [congruence|]; unfold zlen; simpl length; lia).
    pose proof (sorted_offsets_sorted (jt_text t) (known_cuts t spans)) as Sp. fold ps in Sp.
    assert (Fp : Forall (fun o => 0 <= o <= zlen (jt_text t)) ps).
    { apply Forall_forall. intros o Ho. apply sorted_offsets_In in Ho. rewrite Forall_forall in F. destruct Ho as [->|[->|Ho]]; [lia|lia|auto]. }
    assert (I0 : In 0 ps) by (apply sorted_offsets_In; auto). assert (I1 : In (zlen (jt_text t)) ps) by (apply sorted_offsets_In; auto).
    destruct ps as [|p [|q r]] eqn:Eps; [destruct I0|destruct I0 as [->|[]]; destruct I1 as [I1|[]]; lia|]. 
    set (r' := q :: r) in *. destruct (number_spec t3 p 0) as (A & B & C). pose proof A as (A1&A2&A3&A4&A5&A6).
    assert (W4 : jt_wf (number t3 p 0)).
    { destruct W3 as (D & P & Z0). split; [rewrite A5; assumption|]. split; [|rewrite A2, Tx; intros; congruence]. rewrite A5, A4. intros x o H'. rewrite A6. auto. }
    destruct (cut_ok r' (number t3 p 0) 1 p W4 Sp) as (t' & E1 & E2 & E3 & E4); [rewrite A2, Tx; exact Fp|].
    rewrite E1. rewrite A2, Tx, A5 in *. pose proof (alike_trans _ _ _ A E2) as AL. clear E2. pose proof AL as (L1&L2&L3&L4&L5&L6).
    assert (NU : forall i x o, nth_error (p :: r') i = Some x -> zget (jt_map t3) x = Some o -> o_num (jt_obj t' o) = Z.of_nat i).
    { intros [|i] x o Hi G; simpl in Hi.
      - injection Hi as <-. rewrite E4; [rewrite (B _ G); reflexivity|]. intros y Hy G'.
        assert (p = y). { pose proof W3 as (_ & P & _). apply zget_In in G, G'. apply P in G, G'. destruct G as [_ G]. destruct G' as [_ G']. congruence. }
        subst y. inversion Sp as [|? ? _ Lb]; subst. rewrite Forall_forall in Lb. apply Lb in Hy. lia.
      - rewrite (E3 i x o Hi G). lia. }
    pose proof (segmentation (jt_text t) (known_cuts t spans) F) as [Sj So]. fold ps in Sj, So. rewrite Eps in Sj, So. unfold join_segs in Sj.
    exists t', (text_compile (jt_text t) (p :: r')). split; [reflexivity|].
    split; [unfold cut_text; fold ps; rewrite Eps; destruct (jt_text t); [congruence|reflexivity]|]. split; [assumption|].
    split; [intros _; apply text_compile_nonempty; assumption|].
    split; [intros o L; rewrite L6; apply Ob; assumption|]. split; [|split; [|split; [|split; [|split; [|split; [|split]]]]]].
    + intros o H1 H2. pose proof (entered_lt _ _ W H1) as L. destruct (Ob o L) as [Op _].
      assert (En3 : entered t3 o) by (apply En; auto). pose proof En3 as G. unfold entered in G. rewrite Op in G. apply In_zget in G; [|apply W3].
      assert (Hin : In (o_pos (jt_obj t o)) (p :: r')). { rewrite <- Eps. apply sorted_offsets_In. right. right. apply known_cuts_In. exists o. auto. }
      apply In_nth_error in Hin. destruct Hin as (i & Hi). rewrite (NU i _ o Hi G). rewrite <- So in Hi. apply seg_offsets_nth in Hi. destruct Hi as [Li Ei].
      unfold names. rewrite Nat2Z.id. split; [split; [lia|]; unfold zlen; apply inj_le; exact Li|].
      eapply prefix_eq; [|rewrite <- Ei; reflexivity]. rewrite <- concat_firstn_skipn. symmetry. exact Sj.
    + intros o L Hn. assert (Hn3 : ~ entered t3 o) by (rewrite (En o L); assumption).
      assert (G : forall x, zget (jt_map t3) x <> Some o). { intros x G. apply Hn3. apply zget_In in G. destruct (mapped_entered _ _ _ W3 G). assumption. }
      rewrite E4 by (intros; apply G). rewrite C by apply G. apply Ob. assumption.
    + split; [split; [rewrite L5; apply W3|split; [|rewrite L2, Tx; intros; congruence]]|].
      * rewrite L5, L4. intros x o H. rewrite L6. apply W3. assumption.
      * intros x o H. rewrite L5 in H. rewrite L2. apply (R3 _ _ H).
    + congruence.
    + congruence.
    + congruence.
    + lia.
    + intros o L. rewrite (alike_entered _ _ _ AL). apply En. assumption.
Qed.

(** an offset outside the text *)
Lemma cut_bad ps : forall t k a, StronglySorted Z.lt (a :: ps) -> ps <> [] ->
  (exists p, In p (a :: ps) /\ ~ (0 <= p <= zlen (jt_text t))) -> snd (cut_loop t k a ps) = Err IndexError.
Proof.
  induction ps as [|b ps IH]; intros t k a S NE (p & Hp & B); [congruence|].
  inversion S as [|? ? S' La]; subst. inversion La as [|? ? Lab _]; subst. inversion S' as [|? ? _ Lb]; subst. rewrite Forall_forall in La, Lb.
  simpl. destruct (number_spec t b k) as ((_&A2&_) & _ & _). unfold java_sub. rewrite A2.
  destruct (Z.leb_spec 0 a); [|reflexivity]. destruct (Z.leb_spec a b); [|lia]. destruct (Z.leb_spec b (zlen (jt_text t))); [|reflexivity]. simpl.
  assert (Hps : In p ps). { destruct Hp as [<-|[<-|Hp]]; [lia|lia|assumption]. }
  specialize (IH (number t b k) (k + 1) b S'). rewrite A2 in IH.
  assert (X : ps <> []) by (intros ->; destruct Hps). specialize (IH X (ex_intro _ p (conj (or_intror Hps) B))).
  destruct (cut_loop (number t b k) (k + 1) b ps) as [t2 [xs|e]]; simpl in *; [discriminate IH|exact IH].
Qed.
Theorem prepare_outside t spans : jt_wf t -> (exists p, In p (known_cuts t spans) /\ ~ (0 <= p <= zlen (jt_text t))) ->
  snd (jt_prepare t spans) = Err IndexError.
Proof.
  intros W (p & Hp & B). rewrite (prepare_unfold t spans W). cbv zeta. destruct (pruned_spec t spans W) as (_&_&Tx&_).
  pose proof (sorted_offsets_sorted (jt_text t) (known_cuts t spans)) as Sp.
  assert (I0 : In 0 (sorted_offsets (jt_text t) (known_cuts t spans))) by (apply sorted_offsets_In; auto).
  assert (I1 : In p (sorted_offsets (jt_text t) (known_cuts t spans))) by (apply sorted_offsets_In; auto).
  pose proof (zlen_nonneg (jt_text t)) as Z0.
  destruct (sorted_offsets (jt_text t) (known_cuts t spans)) as [|a [|b r]]; [destruct I0|destruct I0 as [->|[]]; destruct I1 as [I1|[]]; subst; exfalso; apply B; lia|].
  apply cut_bad; [assumption|discriminate|]. destruct (number_spec (pruned t spans) a 0) as ((_&A2&_) & _ & _). rewrite A2, Tx. exists p. auto.
Qed.

(** making spans *)
Lemma jt_new_ok name text : jt_ok (jt_new name text).
Proof. split; [split; [constructor|split; [intros p o []|reflexivity]]|intros p o []]. Qed.
Theorem span_spec t a b : jt_wf t ->
  (jt_valid t = true -> ~ (0 <= a < zlen (jt_text t) /\ a <= b <= zlen (jt_text t)) -> jt_span t a b = (t, Err ValueError)) /\
  (jt_valid t = false \/ (0 <= a < zlen (jt_text t) /\ a <= b <= zlen (jt_text t)) ->
   exists t' s, jt_span t a b = (t', Ok s) /\ jt_wf t' /\ jt_name t' = jt_name t /\ jt_text t' = jt_text t /\ jt_valid t' = jt_valid t /\
     js_start t' s = a /\ js_stop t' s = b /\ current t' s /\ (jt_next t <= jt_next t')%nat /\
     (forall o, (o < jt_next t)%nat -> jt_obj t' o = jt_obj t o) /\ (forall o, entered t o -> entered t' o) /\
     (in_range t -> 0 <= a <= zlen (jt_text t) -> 0 <= b <= zlen (jt_text t) -> in_range t')).
Proof.
  intros W. unfold jt_span. split.
  - intros -> H. destruct (Z.leb_spec 0 a), (Z.ltb_spec a (zlen (jt_text t))), (Z.leb_spec 0 b), (Z.leb_spec b (zlen (jt_text t))), (Z.leb_spec a b);
      simpl; try reflexivity; exfalso; apply H; lia.
  - intros H.
    assert (E : jt_valid t && negb ((0 <=? a) && (a <? zlen (jt_text t)) && ((0 <=? b) && (b <=? zlen (jt_text t))) && (a <=? b)) = false).
    { destruct H as [->|H]; [reflexivity|]. destruct (Z.leb_spec 0 a), (Z.ltb_spec a (zlen (jt_text t))), (Z.leb_spec 0 b), (Z.leb_spec b (zlen (jt_text t))), (Z.leb_spec a b);
      try lia. }
    rewrite E. destruct (jt_place t a) as [t1 x] eqn:E1. destruct (place_spec _ _ _ _ W E1) as (W1&P1&P2&P3&P4&P5&P6&P7&P8&P9&P10).
    destruct (jt_place t1 b) as [t2 y] eqn:E2. destruct (place_spec _ _ _ _ W1 E2) as (W2&Q1&Q2&Q3&Q4&Q5&Q6&Q7&Q8&Q9&Q10).
    pose proof (entered_lt _ _ W1 P1) as Lx.
    exists t2, (x, y). split; [reflexivity|]. split; [assumption|]. split; [congruence|]. split; [congruence|]. split; [congruence|].
    split; [unfold js_start; simpl; rewrite Q6 by assumption; assumption|]. split; [exact Q2|].
    split; [split; [|exact Q1]; simpl; unfold entered; rewrite Q6 by assumption; apply Q8; left; exact P1|].
    split; [lia|]. split; [intros o L; rewrite Q6 by lia; apply P6; assumption|]. split.
    + intros o Ho. pose proof (entered_lt _ _ W Ho) as L. unfold entered. rewrite Q6 by lia. rewrite P6 by assumption. apply Q8. left. apply P8. left. exact Ho.
    + intros R Ha Hb p o Hp. rewrite Q4, P4. apply Q8 in Hp. destruct Hp as [Hp|[-> _]]; [|assumption]. apply P8 in Hp. destruct Hp as [Hp|[-> _]]; [|assumption]. apply (R _ _ Hp).
Qed.
