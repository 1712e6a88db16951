(** Proofs about the texts of the Java port. *)
From Verif Require Import PyBase PyBaseFacts Model_Text Proof_Text Proof_Xml Proof_Codec4 Model_JText Spec_JText.
From Coq Require Import Sorted.
Local Open Scope Z_scope.

(** the map *)
Lemma zget_In m p o : zget m p = Some o -> In (p, o) m.
Proof.
  induction m as [|[q x] m IH]; simpl; [discriminate|]. destruct (Z.eqb_spec q p) as [->|]; intros E; [injection E as ->; auto|auto].
Qed.
Lemma In_zget m p o : NoDup (map fst m) -> In (p, o) m -> zget m p = Some o.
Proof.
  induction m as [|[q x] m IH]; simpl; [tauto|]. intros D. inversion D as [|? ? Hn D']; subst.
  intros [E|E]; [injection E as -> ->; rewrite Z.eqb_refl; reflexivity|].
  destruct (Z.eqb_spec q p) as [->|]; [|auto]. exfalso. apply Hn. apply (in_map fst) in E. exact E.
Qed.
Lemma zget_none m p : zget m p = None <-> ~ In p (map fst m).
Proof.
  induction m as [|[q x] m IH]; simpl; [intuition|]. destruct (Z.eqb_spec q p) as [->|Hn]; [intuition; discriminate|].
  rewrite IH. intuition.
Qed.
Lemma zput_new m p o : ~ In p (map fst m) -> zput m p o = m ++ [(p, o)].
Proof.
  induction m as [|[q x] m IH]; simpl; [reflexivity|]. intros Hn. destruct (Z.eqb_spec q p) as [->|]; [intuition|].
  f_equal. apply IH. intuition.
Qed.
Lemma zput_keys m p o q : In q (map fst (zput m p o)) <-> q = p \/ In q (map fst m).
Proof.
  induction m as [|[r x] m IH]; simpl; [intuition|]. destruct (Z.eqb_spec r p) as [->|]; simpl; [intuition|]. rewrite IH. intuition.
Qed.
Lemma zput_nodup m p o : NoDup (map fst m) -> NoDup (map fst (zput m p o)).
Proof.
  induction m as [|[r x] m IH]; simpl; intros D; [repeat constructor; intuition|]. inversion D as [|? ? Hn D']; subst.
  destruct (Z.eqb_spec r p) as [->|]; simpl; [constructor; assumption|]. constructor; [|auto]. rewrite zput_keys. intuition.
Qed.
Lemma zput_In m p o q x : NoDup (map fst m) -> In (q, x) (zput m p o) <-> (q = p /\ x = o) \/ (q <> p /\ In (q, x) m).
Proof.
  induction m as [|[r y] m IH]; simpl; intros D.
  - split; [intros [E|[]]; injection E as <- <-; auto|intros [[-> ->]|[_ []]]; auto].
  - inversion D as [|? ? Hn D']; subst. destruct (Z.eqb_spec r p) as [->|Hr]; simpl.
    + split.
      * intros [E|E]; [injection E as <- <-; auto|]. right. split; [|auto]. intros ->. apply Hn. apply (in_map fst) in E. exact E.
      * intros [[-> ->]|[Hq [E|E]]]; [auto|injection E as -> ->; congruence|auto].
    + rewrite IH by assumption. split.
      * intros [E|[E|[E1 E2]]]; [injection E as <- <-; auto|auto|auto].
      * intros [E|[E1 [E|E]]]; auto.
Qed.
Lemma nodup_same m (p : Z) (o o' : nat) : NoDup (map fst m) -> In (p, o) m -> In (p, o') m -> o = o'.
Proof. intros D A B. apply In_zget in A; [|assumption]. apply In_zget in B; [|assumption]. congruence. Qed.

Lemma entered_zget t o : jt_wf t -> entered t o <-> zget (jt_map t) (o_pos (jt_obj t o)) = Some o.
Proof. intros (D & _). split; [apply In_zget; assumption|apply zget_In]. Qed.
Lemma mapped_entered t p o : jt_wf t -> In (p, o) (jt_map t) -> entered t o /\ o_pos (jt_obj t o) = p.
Proof. intros (D & P & _) H. destruct (P _ _ H) as [_ E]. split; [unfold entered; rewrite E; assumption|assumption]. Qed.
Lemma entered_lt t o : jt_wf t -> entered t o -> (o < jt_next t)%nat.
Proof. intros (_ & P & _) H. apply P in H. tauto. Qed.
Lemma entered_inj t o o' : jt_wf t -> entered t o -> entered t o' -> o_pos (jt_obj t o) = o_pos (jt_obj t o') -> o = o'.
Proof. intros (D & _) A B E. unfold entered in *. rewrite E in A. eapply nodup_same; eassumption. Qed.

(** placing an offset *)
Lemma place_spec t p t' o : jt_wf t -> jt_place t p = (t', o) ->
  jt_wf t' /\ entered t' o /\ o_pos (jt_obj t' o) = p /\ jt_name t' = jt_name t /\ jt_text t' = jt_text t /\ jt_valid t' = jt_valid t /\
  (forall x, (x < jt_next t)%nat -> jt_obj t' x = jt_obj t x) /\ (jt_next t <= jt_next t')%nat /\
  (forall q x, In (q, x) (jt_map t') <-> In (q, x) (jt_map t) \/ (q = p /\ x = o)) /\
  ((jt_next t <= o)%nat -> jt_obj t' o = mkOff 0 p 0) /\
  ((o < jt_next t)%nat -> In (p, o) (jt_map t)).
Proof.
  intros W E. unfold jt_place in E. destruct (zget (jt_map t) p) as [x|] eqn:G.
  - injection E as <- <-. apply zget_In in G. destruct (mapped_entered _ _ _ W G) as [A B].
    split; [assumption|]. split; [assumption|]. split; [assumption|]. do 3 (split; [reflexivity|]). split; [reflexivity|]. split; [lia|].
    split; [intros q y; split; [auto|intros [H|[-> ->]]; assumption]|]. split; [|auto].
    intros L. destruct W as (_ & P & _). apply P in G. lia.
  - injection E as <- <-. destruct W as (D & P & Z0). apply zget_none in G.
    assert (M : forall q x, In (q, x) (zput (jt_map t) p (jt_next t)) <-> In (q, x) (jt_map t) \/ (q = p /\ x = jt_next t)).
    { intros q x. rewrite zput_new by assumption. rewrite in_app_iff. simpl. split; [intros [H|[H|[]]]; [auto|injection H as <- <-; auto]|].
      intros [H|[-> ->]]; auto. }
    split; [|split; [|split; [|]]].
    + split; [|split].
      * simpl. apply zput_nodup; assumption.
      * simpl. intros q x H. apply M in H. destruct H as [H|[-> ->]].
        -- destruct (P _ _ H) as [L E]. split; [lia|]. destruct (Nat.eqb_spec x (jt_next t)); [lia|assumption].
        -- split; [lia|]. rewrite Nat.eqb_refl. reflexivity.
      * simpl. intros E x. destruct (Nat.eqb x (jt_next t)); [reflexivity|auto].
    + unfold entered. simpl. rewrite Nat.eqb_refl. apply M. auto.
    + simpl. rewrite Nat.eqb_refl. reflexivity.
    + simpl. do 3 (split; [reflexivity|]). split; [intros x L; destruct (Nat.eqb_spec x (jt_next t)); [lia|reflexivity]|].
      split; [lia|]. split; [assumption|]. split; [intros _; rewrite Nat.eqb_refl; reflexivity|lia].
Qed.

(** texts that differ only in reference counts and numbers *)
Definition alike (t t' : jtext) : Prop :=
  jt_name t' = jt_name t /\ jt_text t' = jt_text t /\ jt_valid t' = jt_valid t /\ jt_next t' = jt_next t /\ jt_map t' = jt_map t /\
  forall o, o_pos (jt_obj t' o) = o_pos (jt_obj t o).
Lemma alike_refl t : alike t t. Proof. repeat split. Qed.
Lemma alike_trans a b c : alike a b -> alike b c -> alike a c.
Proof. intros (A1&A2&A3&A4&A5&A6) (B1&B2&B3&B4&B5&B6). do 5 (split; [congruence|]). intros o. rewrite B6. apply A6. Qed.
Lemma alike_set t o x : o_pos x = o_pos (jt_obj t o) -> alike t (jt_set t o x).
Proof. intros E. do 5 (split; [reflexivity|]). intros i. simpl. destruct (Nat.eqb_spec i o) as [->|]; auto. Qed.

Lemma reset_loop l : forall t,
  let t' := fold_left (fun t e => let x := jt_obj t (snd e) in jt_set t (snd e) (mkOff (o_num x) (o_pos x) 0)) l t in
  alike t t' /\ (forall o, o_num (jt_obj t' o) = o_num (jt_obj t o)) /\
  (forall o, In o (map (@snd Z nat) l) -> o_ref (jt_obj t' o) = 0) /\ (forall o, o_ref (jt_obj t o) = 0 -> o_ref (jt_obj t' o) = 0).
Proof.
  induction l as [|[p o] l IH]; intros t; simpl; [split; [apply alike_refl|tauto]|].
  specialize (IH (jt_set t o (mkOff (o_num (jt_obj t o)) (o_pos (jt_obj t o)) 0))). cbv zeta in IH. destruct IH as (A & B & C & D).
  split; [eapply alike_trans; [|exact A]; apply alike_set; reflexivity|]. split; [|split].
  - intros i. rewrite B. simpl. destruct (Nat.eqb_spec i o) as [->|]; reflexivity.
  - intros i [<-|H]; [apply D; simpl; rewrite Nat.eqb_refl; reflexivity|auto].
  - intros i E. apply D. simpl. destruct (Nat.eqb_spec i o); [reflexivity|assumption].
Qed.
Lemma reset_spec t : alike t (jt_reset t) /\ (forall o, o_num (jt_obj (jt_reset t) o) = o_num (jt_obj t o)) /\
  (forall o, entered t o -> o_ref (jt_obj (jt_reset t) o) = 0).
Proof.
  destruct (reset_loop (jt_map t) t) as (A & B & C & _). split; [exact A|]. split; [exact B|].
  intros o H. apply C. apply (in_map snd) in H. exact H.
Qed.

Definition tally (o : nat) (l : list nat) : Z := Z.of_nat (count_occ Nat.eq_dec l o).
Lemma incref1_spec t o : alike t (incref1 t o) /\ (forall i, o_num (jt_obj (incref1 t o) i) = o_num (jt_obj t i)) /\
  (forall i, o_ref (jt_obj (incref1 t o) i) = o_ref (jt_obj t i) + tally i [o]).
Proof.
  unfold incref1. split; [apply alike_set; reflexivity|]. split; intros i; simpl.
  - destruct (Nat.eqb_spec i o) as [->|]; reflexivity.
  - unfold tally. simpl. destruct (Nat.eqb_spec i o) as [->|Hn].
    + destruct (Nat.eq_dec o o); [simpl; lia|congruence].
    + destruct (Nat.eq_dec o i); [congruence|simpl; lia].
Qed.
Lemma tally_app o a b : tally o (a ++ b) = tally o a + tally o b.
Proof. unfold tally. rewrite count_occ_app. lia. Qed.
Lemma increfs_spec spans : forall t, let t' := fold_left jt_incref spans t in
  alike t t' /\ (forall i, o_num (jt_obj t' i) = o_num (jt_obj t i)) /\
  (forall i, o_ref (jt_obj t' i) = o_ref (jt_obj t i) + tally i (used spans)).
Proof.
  induction spans as [|[a b] l IH]; intros t; cbn [fold_left].
  - split; [apply alike_refl|]. split; [reflexivity|]. intros i. unfold tally. simpl. lia.
  - destruct (IH (jt_incref t (a, b))) as (A & B & C). change (jt_incref t (a, b)) with (incref1 (incref1 t a) b) in *.
    destruct (incref1_spec t a) as (A1 & B1 & C1). destruct (incref1_spec (incref1 t a) b) as (A2 & B2 & C2).
    split; [eapply alike_trans; [eapply alike_trans; eassumption|exact A]|]. split; [intros i; rewrite B, B2, B1; reflexivity|].
    intros i. rewrite C, C2, C1. change (used ((a, b) :: l)) with ([a] ++ [b] ++ used l). rewrite !tally_app. lia.
Qed.
Lemma tally_pos o l : tally o l = 0 <-> ~ In o l.
Proof. unfold tally. rewrite (count_occ_not_In Nat.eq_dec). lia. Qed.

Lemma alike_wf t t' : alike t t' -> (forall o, o_num (jt_obj t' o) = o_num (jt_obj t o)) -> jt_wf t -> jt_wf t'.
Proof.
  intros (A1&A2&A3&A4&A5&A6) B (D & P & Z0). split; [rewrite A5; assumption|]. split.
  - rewrite A5, A4. intros p o H. rewrite A6. auto.
  - rewrite A2. intros E o. rewrite B. auto.
Qed.
Lemma alike_entered t t' o : alike t t' -> entered t' o <-> entered t o.
Proof. intros (A1&A2&A3&A4&A5&A6). unfold entered. rewrite A5, A6. reflexivity. Qed.

(** the text just before it is cut *)
Lemma drop_spec t q o : jt_wf t -> In (q, o) (jt_map (drop_unused t)) <-> In (q, o) (jt_map t) /\ o_ref (jt_obj t o) <> 0.
Proof.
  intros W. destruct W as (D & P & _). unfold drop_unused. simpl. rewrite filter_In. simpl.
  rewrite negb_true_iff, <- not_true_iff_false, existsb_exists. split; intros [A B]; (split; [assumption|]).
  - intros E. apply B. exists q. split; [|apply Z.eqb_refl]. apply in_map_iff. exists (q, o). split; [apply P; assumption|].
    apply filter_In. split; [assumption|]. simpl. rewrite E. reflexivity.
  - intros (z & H & E). apply Z.eqb_eq in E. subst z. apply in_map_iff in H. destruct H as ((q' & o') & E1 & E2). simpl in E1.
    apply filter_In in E2. destruct E2 as [E2 E3]. simpl in E3. apply Z.eqb_eq in E3. destruct (P _ _ E2) as [_ E4].
    assert (H : q' = q) by congruence. rewrite H in E2. assert (o' = o) by (exact (nodup_same _ _ _ _ D E2 A)). congruence.
Qed.
Lemma nodup_filter_keys (f : Z * nat -> bool) m : NoDup (map fst m) -> NoDup (map fst (filter f m)).
Proof.
  induction m as [|[q x] m IH]; simpl; intros D; [constructor|]. inversion D as [|? ? Hn D']; subst.
  destruct (f (q, x)); simpl; [|auto]. constructor; [|auto]. intros H. apply Hn. apply in_map_iff in H. destruct H as (e & E & H).
  apply filter_In in H. apply in_map_iff. exists e. tauto.
Qed.
Lemma drop_wf t : jt_wf t -> jt_wf (drop_unused t).
Proof.
  intros W. pose proof W as (D & P & Z0). split; [apply nodup_filter_keys; assumption|]. split; [|exact Z0].
  intros q o H. apply drop_spec in H; [|assumption]. apply P. tauto.
Qed.

(** what a step keeps of the objects it does not make: position; and the map *)
Lemma zsort_In o l : In o (fold_right zset_insert [] l) <-> In o l.
Proof. induction l as [|x l IH]; simpl; [tauto|]. rewrite zset_insert_In, IH. intuition. Qed.
Lemma zsort_sorted l : StronglySorted Z.lt (fold_right zset_insert [] l).
Proof. induction l as [|x l IH]; simpl; [constructor|]. apply zset_insert_sorted. assumption. Qed.

Lemma number_spec t p k : alike t (number t p k) /\
  (forall o, zget (jt_map t) p = Some o -> o_num (jt_obj (number t p k) o) = k) /\
  (forall o, zget (jt_map t) p <> Some o -> jt_obj (number t p k) o = jt_obj t o).
Proof.
  unfold number. destruct (zget (jt_map t) p) as [x|].
  - split; [apply alike_set; reflexivity|]. split; intros o H.
    + injection H as <-. simpl. rewrite Nat.eqb_refl. reflexivity.
    + simpl. destruct (Nat.eqb_spec o x); [congruence|reflexivity].
  - split; [apply alike_refl|]. split; [discriminate|reflexivity].
Qed.

(** cutting *)
Lemma cut_ok ps : forall t k a, jt_wf t ->
  StronglySorted Z.lt (a :: ps) -> Forall (fun p => 0 <= p <= zlen (jt_text t)) (a :: ps) ->
  exists t', cut_loop t k a ps = (t', Ok (text_compile (jt_text t) (a :: ps))) /\ alike t t' /\
  (forall i p o, nth_error ps i = Some p -> zget (jt_map t) p = Some o -> o_num (jt_obj t' o) = k + Z.of_nat i) /\
  (forall o, (forall p, In p ps -> zget (jt_map t) p <> Some o) -> jt_obj t' o = jt_obj t o).
Proof.
  induction ps as [|b ps IH]; intros t k a W S F.
  - exists t. split; [reflexivity|]. split; [apply alike_refl|]. split; [intros [|i]; discriminate|reflexivity].
  - inversion S as [|? ? S' La]; subst. inversion F as [|? ? Fa F']; subst. inversion La as [|? ? Lab _]; subst. inversion F' as [|? ? Fb F'']; subst.
    destruct (number_spec t b k) as (A & B & C). pose proof A as (A1&A2&A3&A4&A5&A6).
    simpl. unfold java_sub. rewrite A2. destruct (Z.leb_spec 0 a); [|lia]. destruct (Z.leb_spec a b); [|lia]. destruct (Z.leb_spec b (zlen (jt_text t))); [|lia]. simpl.
    assert (W' : NoDup (map fst (jt_map t))) by apply W.
    assert (IH' : exists t', cut_loop (number t b k) (k + 1) b ps = (t', Ok (text_compile (jt_text t) (b :: ps))) /\ alike (number t b k) t' /\
      (forall i p o, nth_error ps i = Some p -> zget (jt_map t) p = Some o -> o_num (jt_obj t' o) = k + 1 + Z.of_nat i) /\
      (forall o, (forall p, In p ps -> zget (jt_map t) p <> Some o) -> jt_obj t' o = jt_obj (number t b k) o)).
    { destruct (jt_text t) as [|c tx] eqn:T.
      - (* a strictly sorted list of positions of the empty text has one element *)
        unfold zlen in *. simpl in *. lia.
      - specialize (IH (number t b k) (k + 1) b). rewrite A2 in IH. rewrite <- A5. apply IH; try assumption.
        destruct W as (D & P & Z0). split; [rewrite A5; assumption|]. split; [|rewrite A2; discriminate].
        rewrite A5, A4. intros p o H'. rewrite A6. auto. }
    destruct IH' as (t' & E1 & E2 & E3 & E4). exists t'. rewrite E1. split; [|split; [|split]].
    + f_equal. f_equal. f_equal. unfold py_slice. simpl. rewrite !slice_norm_id by lia. reflexivity.
    + eapply alike_trans; eassumption.
    + intros [|i] p o Hi G; simpl in Hi.
      * injection Hi as <-. simpl. rewrite Z.add_0_r. rewrite E4; [auto|]. intros p Hp G'.
        assert (b = p). { pose proof W as (_ & P & _). apply zget_In in G, G'. apply P in G, G'. destruct G as [_ G]. destruct G' as [_ G']. congruence. }
        subst p. inversion S' as [|? ? _ Lb]; subst. rewrite Forall_forall in Lb. apply Lb in Hp. lia.
      * rewrite (E3 i p o Hi G). lia.
    + intros o H'. rewrite E4; [|intros p Hp; apply H'; right; assumption]. apply C. apply H'. left. reflexivity.
Qed.
