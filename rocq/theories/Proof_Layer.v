(** Layer invariants and refinement of the layer operations by plain lists. *)
From Verif Require Import PyBase PyBaseFacts Model_Heap Model_Layer Model_Types Spec_Layer Proof_Heap.
Local Open Scope Z_scope.

Lemma layer_ok_NoDup h l : layer_ok h l -> NoDup (content h l).
Proof.
  intros [_ Hs _]. unfold content. revert Hs. generalize (l_nodesof h l). intros ns.
  assert (G : forall ns off, (forall i n, nth_error ns i = Some (Some n) -> n_idof h n = Z.of_nat (off + i)%nat) -> NoDup (live ns)).
  { clear ns. induction ns as [|[n|] ns IH]; intros off H; simpl; [constructor| |].
    - constructor.
      + intros Hin. apply live_In in Hin. apply In_nth_error in Hin. destruct Hin as [i Hi].
        pose proof (H 0%nat n eq_refl) as E1. pose proof (H (S i) n Hi) as E2. lia.
      + apply (IH (S off)). intros i m Hi. pose proof (H (S i) m Hi). rewrite <- plus_n_Sm in H0. simpl. assumption.
    - apply (IH (S off)). intros i m Hi. pose proof (H (S i) m Hi). rewrite <- plus_n_Sm in H0. simpl. assumption. }
  intros Hs. apply (G ns O). intros i n Hi. apply Hs in Hi. tauto.
Qed.

Lemma layer_ok_member h l n : layer_ok h l -> (n_collof h n = Some l <-> In n (content h l)).
Proof.
  intros [_ Hs Hc]. split.
  - intros H. destruct (Hc _ H) as (i & _ & Hi). eapply nth_error_live_In; eauto.
  - intros H. apply live_In in H. apply In_nth_error in H. destruct H as [i Hi]. apply Hs in Hi. tauto.
Qed.

Lemma contains_iff h l n : layer_contains h l n = true <-> n_collof h n = Some l.
Proof.
  unfold layer_contains. destruct (n_collof h n) as [l'|]; [|split; discriminate].
  rewrite Nat.eqb_eq. split; congruence.
Qed.

Lemma mem_nid_In n c : mem_nid n c = true <-> In n c.
Proof.
  unfold mem_nid. rewrite existsb_exists. split.
  - intros (m & Hin & E). apply Nat.eqb_eq in E. subst. assumption.
  - intros H. exists n. split; [assumption|apply Nat.eqb_refl].
Qed.

Lemma contains_mem h l n : layer_ok h l -> layer_contains h l n = mem_nid n (content h l).
Proof.
  intros Hok. apply eq_true_iff_eq. rewrite contains_iff, mem_nid_In. apply layer_ok_member. assumption.
Qed.

Lemma iter_content h l : layer_ok h l -> layer_iter h l = map Some (content h l).
Proof.
  intros [Hn _ _]. unfold layer_iter. destruct (Z.eqb_spec (l_numof h l) (zlen (l_nodesof h l))) as [E|E]; [|reflexivity].
  apply live_length_full. rewrite Hn in E. unfold zlen, content in E. lia.
Qed.

(** no gaps exactly when the count is the number of slots *)
Lemma gapless_iff h l : layer_ok h l -> (zlen (l_nodesof h l) = l_numof h l <-> l_nodesof h l = map Some (content h l)).
Proof.
  intros [Hn _ _]. rewrite Hn. split; intros H.
  - apply live_length_full. unfold zlen, content in H. lia.
  - rewrite H. unfold zlen. rewrite map_length. reflexivity.
Qed.

(** Other layers are not affected by changes to nodes that are not in them. *)
Lemma layer_ok_frame h h' l' : layer_ok h l' -> h_layer h' l' = h_layer h l' ->
  (forall n, n_collof h n = Some l' \/ n_collof h' n = Some l' -> n_idof h' n = n_idof h n /\ n_collof h' n = n_collof h n) ->
  layer_ok h' l'.
Proof.
  intros [Hn Hs Hc] El Hf. unfold content, l_numof, l_nodesof in *.
  split; unfold content, l_numof, l_nodesof in *; rewrite ?El.
  - assumption.
  - intros i n Hi. destruct (Hs _ _ Hi) as [E1 E2]. destruct (Hf n (or_introl E2)) as [F1 F2]. rewrite F1, F2. auto.
  - intros n E. destruct (Hf n (or_intror E)) as [F1 F2]. rewrite F2 in E. rewrite F1. apply Hc. assumption.
Qed.

(** A layer without gaps, described by its node list. *)
Lemma layer_ok_dense h l ns : l_nodesof h l = map Some ns -> l_numof h l = zlen ns ->
  (forall i n, nth_error ns i = Some n -> n_idof h n = Z.of_nat i /\ n_collof h n = Some l) ->
  (forall n, n_collof h n = Some l -> In n ns) -> layer_ok h l.
Proof.
  intros En Ek Hs Hc. split.
  - unfold content. rewrite En, live_map_some. assumption.
  - intros i n Hi. rewrite En in Hi. rewrite nth_error_map in Hi. destruct (nth_error ns i) eqn:E; [|discriminate].
    injection Hi as ->. apply Hs. assumption.
  - intros n E. apply Hc in E. apply In_nth_error in E. destruct E as [i Hi]. exists i. split; [apply Hs; assumption|].
    rewrite En, nth_error_map, Hi. reflexivity.
Qed.

(** ** frame algebra *)
Lemma frame_refl l h : frame l h h. Proof. split; auto. Qed.
Lemma frame_trans l h1 h2 h3 : frame l h1 h2 -> frame l h2 h3 -> frame l h1 h3.
Proof. intros [A1 A2 A3 A4 A5 A6] [B1 B2 B3 B4 B5 B6]. split; intros; try congruence. rewrite B1, A1; auto. Qed.
Lemma frame_set_id l h n i : frame l h (set_id h n i). Proof. split; reflexivity. Qed.
Lemma frame_set_coll l h n i : frame l h (set_coll h n i). Proof. split; reflexivity. Qed.
Lemma frame_set_fields l h n i : frame l h (set_fields h n i). Proof. split; reflexivity. Qed.
Lemma frame_set_nodes l h x : frame l h (set_nodes h l x).
Proof. split; intros; hs; try reflexivity. apply layer_set_nodes_other; assumption. Qed.
Lemma frame_set_num l h x : frame l h (set_num h l x).
Proof. split; intros; hs; try reflexivity. apply layer_set_num_other; assumption. Qed.
Global Hint Resolve frame_refl frame_set_id frame_set_coll frame_set_fields frame_set_nodes frame_set_num : frame.

(** ** compact *)
Lemma firstn_S_nth {A} (l : list A) k x : nth_error l k = Some x -> firstn (S k) l = firstn k l ++ [x].
Proof.
  revert k. induction l as [|y l IH]; intros [|k] H; simpl in H; try discriminate; [injection H as ->; reflexivity|].
  simpl. f_equal. apply IH. assumption.
Qed.
Lemma firstn_upd_nth {A} (l : list A) k x : (k < length l)%nat -> firstn (S k) (upd_nth l k x) = firstn k l ++ [x].
Proof.
  revert k. induction l as [|y l IH]; intros [|k] H; simpl in *; try lia; [reflexivity|].
  f_equal. apply IH. lia.
Qed.
Lemma skipn_upd_nth {A} (l : list A) j : forall k x, (k < j)%nat -> skipn j (upd_nth l k x) = skipn j l.
Proof.
  revert j. induction l as [|y l IH]; intros j k x H; simpl; [reflexivity|].
  destruct k; destruct j; simpl; try lia; [reflexivity|]. apply IH. lia.
Qed.
Lemma skipn_cons_nth {A} (l : list A) k x r : skipn k l = x :: r -> nth_error l k = Some x /\ skipn (S k) l = r.
Proof.
  revert k. induction l as [|y l IH]; intros [|k] H; simpl in H; try discriminate.
  - injection H as -> ->. split; reflexivity.
  - apply IH. assumption.
Qed.
Lemma nth_error_skipn_cons {A} (l : list A) k x : nth_error l k = Some x -> skipn k l = x :: skipn (S k) l.
Proof.
  revert k. induction l as [|y l IH]; intros [|k] H; simpl in H; try discriminate; [injection H as ->; reflexivity|].
  simpl. apply IH. assumption.
Qed.

(** What a loop that writes node ids does to the nodes *)
Definition renumbered (h h' : heap) (base : nat) (ns : list nid) : Prop :=
  (forall n, n_fieldsof h' n = n_fieldsof h n /\ n_collof h' n = n_collof h n) /\
  (forall i n, nth_error ns i = Some n -> n_idof h' n = Z.of_nat (base + i)) /\
  (forall n, ~ In n ns -> n_idof h' n = n_idof h n).

Lemma compact_loop_spec l s0 : NoDup (live s0) -> forall todo h k i,
  (k + todo = length s0)%nat -> i = length (live (firstn k s0)) ->
  length (l_nodesof h l) = length s0 ->
  firstn i (l_nodesof h l) = map Some (live (firstn k s0)) ->
  skipn k (l_nodesof h l) = skipn k s0 ->
  let '(h', i') := compact_loop h l k i todo in
  frame l h h' /\ l_numof h' l = l_numof h l /\
  i' = length (live s0) /\ firstn i' (l_nodesof h' l) = map Some (live s0) /\
  renumbered h h' i (live (skipn k s0)).
Proof.
  intros Hnd. induction todo as [|todo IH]; intros h k i Hk Hi Hlen Hf Hsk; simpl.
  - rewrite Nat.add_0_r in Hk. subst k. rewrite firstn_all in *. rewrite skipn_all. simpl.
    repeat split; auto with frame; intros; simpl in *.
    + destruct i0; discriminate.
  - assert (Hkl : (k < length s0)%nat) by lia.
    destruct (nth_error s0 k) as [o|] eqn:Ek; [|apply nth_error_None in Ek; lia].
    assert (Ek' : nth_error (l_nodesof h l) k = Some o).
    { pose proof (nth_error_skipn_cons _ _ _ Ek) as E. rewrite <- Hsk in E. apply skipn_cons_nth in E. tauto. }
    rewrite Ek'.
    assert (Hsk' : skipn (S k) (l_nodesof h l) = skipn (S k) s0).
    { pose proof (nth_error_skipn_cons _ _ _ Ek) as E. rewrite <- Hsk in E. apply skipn_cons_nth in E. tauto. }
    assert (Hil : (i <= k)%nat).
    { subst i. pose proof (live_length_le (firstn k s0)). rewrite firstn_length in H. lia. }
    destruct o as [n|].
    + specialize (IH (set_id (set_nodes h l (upd_nth (l_nodesof h l) i (Some n))) n (Z.of_nat i)) (S k) (S i)).
      destruct (compact_loop (set_id (set_nodes h l (upd_nth (l_nodesof h l) i (Some n))) n (Z.of_nat i)) l (S k) (S i) todo) as [h' i'].
      destruct IH as (F & Hnum & Hi' & Hf' & Hr1 & Hr2 & Hr3).
      * lia.
      * rewrite (firstn_S_nth _ _ _ Ek), live_app. simpl. rewrite app_length. simpl. lia.
      * hs. rewrite upd_nth_length. assumption.
      * hs. rewrite firstn_upd_nth by lia. rewrite Hf. rewrite (firstn_S_nth _ _ _ Ek), live_app, map_app. reflexivity.
      * hs. rewrite skipn_upd_nth by lia. assumption.
      * hs. rewrite (nth_error_skipn_cons _ _ _ Ek). cbn [live].
        split; [eapply frame_trans; [|exact F]; eapply frame_trans; [apply frame_set_nodes|apply frame_set_id]|].
        split; [assumption|]. split; [assumption|]. split; [assumption|].
        assert (Hnn : ~ In n (live (skipn (S k) s0))).
        { rewrite <- (firstn_skipn k s0), live_app, (nth_error_skipn_cons _ _ _ Ek) in Hnd. cbn [live] in Hnd.
          apply NoDup_remove_2 in Hnd. intros Hin. apply Hnd. apply in_or_app. right. assumption. }
        split; [|split].
        -- intros m. destruct (Hr1 m) as [G1 G2]. hs. split; assumption.
        -- intros [|j] m Hj; simpl in Hj.
           ++ injection Hj as ->. rewrite Hr3 by assumption. hs. lia.
           ++ rewrite (Hr2 _ _ Hj). lia.
        -- intros m Hm. rewrite Hr3 by (intros Hin; apply Hm; right; assumption). hs.
           destruct (Nat.eqb_spec m n) as [->|]; [exfalso; apply Hm; left; reflexivity|reflexivity].
    + specialize (IH h (S k) i). destruct (compact_loop h l (S k) i todo) as [h' i'].
      rewrite (nth_error_skipn_cons _ _ _ Ek). cbn [live]. apply IH; auto; [lia| |].
      * rewrite (firstn_S_nth _ _ _ Ek), live_app. simpl. rewrite app_nil_r. assumption.
      * rewrite (firstn_S_nth _ _ _ Ek), live_app. simpl. rewrite app_nil_r. assumption.
Qed.

(** Everything compact does. *)
Lemma compact_spec h l : layer_ok h l ->
  frame l h (compact h l) /\
  l_nodesof (compact h l) l = map Some (content h l) /\
  l_numof (compact h l) l = l_numof h l /\
  renumbered h (compact h l) 0 (content h l).
Proof.
  intros Hok. unfold compact. destruct (Z.eqb_spec (zlen (l_nodesof h l)) (l_numof h l)) as [E|E].
  - apply gapless_iff in E; [|assumption]. split; [apply frame_refl|]. split; [assumption|]. split; [reflexivity|].
    split; [auto|]. split; [|auto]. intros i n Hi. destruct Hok as [_ Hs _].
    specialize (Hs i n). rewrite E, nth_error_map, Hi in Hs. apply Hs. reflexivity.
  - pose proof (compact_loop_spec l (l_nodesof h l) (layer_ok_NoDup _ _ Hok) (length (l_nodesof h l)) h 0 0) as H.
    destruct (compact_loop h l 0 0 (length (l_nodesof h l))) as [h' i'].
    destruct H as (F & Hnum & Hi' & Hf' & Hr1 & Hr2 & Hr3); auto. hs.
    split; [eapply frame_trans; [exact F|apply frame_set_nodes]|].
    split; [assumption|]. split; [assumption|].
    split; [intros n; destruct (Hr1 n); hs; split; assumption|]. split; intros; hs; auto.
Qed.

Lemma compact_ok h l : layer_ok h l -> layer_ok (compact h l) l.
Proof.
  intros Hok. destruct (compact_spec h l Hok) as (F & En & Ek & Hr1 & Hr2 & Hr3).
  apply (layer_ok_dense _ _ (content h l)); auto.
  - rewrite Ek. apply ok_num. assumption.
  - intros i n Hi. split; [rewrite (Hr2 _ _ Hi); reflexivity|]. destruct (Hr1 n) as [_ ->].
    apply layer_ok_member; [assumption|]. eapply nth_error_In; eauto.
  - intros n E. destruct (Hr1 n) as [_ G]. rewrite G in E. apply layer_ok_member; assumption.
Qed.

(** lift of a change on one layer to all *)
Lemma wf_by_frame l h h' : wf h -> frame l h h' -> layer_ok h' l ->
  (forall n, n_collof h n <> Some l -> n_collof h' n <> Some l -> n_idof h' n = n_idof h n /\ n_collof h' n = n_collof h n) ->
  (forall n l', l' <> l -> n_collof h n = Some l' -> n_collof h' n = Some l') ->
  (forall n l', l' <> l -> n_collof h' n = Some l' -> n_collof h n = Some l') ->
  (forall n, (h_nnext h <= n)%nat -> n_collof h' n = None) ->
  (forall l', (h_lnext h <= l')%nat -> l_nodesof h' l' = []) -> wf h'.
Proof.
  intros [Wl Wn Wf Wd Ws] F Hok Hsame Hk1 Hk2 Hfr Hfl. destruct F. split.
  - intros l'. destruct (Nat.eq_dec l' l) as [->|Hne]; [assumption|].
    apply (layer_ok_frame h); auto. intros n [E|E].
    + pose proof (Hk1 _ _ Hne E) as E'. apply Hsame; congruence.
    + pose proof (Hk2 _ _ Hne E) as E'. apply Hsame; congruence.
  - intros n Hn. apply Hfr. congruence.
  - intros l' Hl. apply Hfl. congruence.
  - intros l'. destruct (Nat.eq_dec l' l) as [->|Hne]; [congruence|]. rewrite fr_layer by assumption. apply Wd.
  - intros l'. destruct (Nat.eq_dec l' l) as [->|Hne]; [rewrite fr_schema; apply Ws|]. rewrite fr_layer by assumption. apply Ws.
Qed.

Lemma wf_compact h l : wf h -> wf (compact h l).
Proof.
  intros Hwf. pose proof (wf_layers h Hwf l) as Hok.
  destruct (compact_spec h l Hok) as (F & En & Ek & Hr1 & Hr2 & Hr3).
  apply (wf_by_frame l h); auto using compact_ok.
  - intros n E1 E2. destruct (Hr1 n) as [_ G]. split; [|assumption]. apply Hr3. intros Hin.
    apply E1. apply layer_ok_member; assumption.
  - intros n l' _ E. destruct (Hr1 n) as [_ ->]. assumption.
  - intros n l' _ E. destruct (Hr1 n) as [_ G]. congruence.
  - intros n Hn. destruct (Hr1 n) as [_ ->]. apply wf_fresh_n; assumption.
  - intros l' Hl. destruct (Nat.eq_dec l' l) as [->|Hne].
    + rewrite En. unfold content. rewrite (wf_fresh_l h Hwf l Hl). reflexivity.
    + unfold l_nodesof. rewrite (fr_layer _ _ _ F l' Hne). apply (wf_fresh_l h Hwf l' Hl).
Qed.

Lemma content_frame l h h' l' : frame l h h' -> l' <> l -> content h' l' = content h l'.
Proof. intros F Hne. unfold content, l_nodesof. rewrite (fr_layer _ _ _ F l' Hne). reflexivity. Qed.

Lemma compact_content h l l' : layer_ok h l -> content (compact h l) l' = content h l'.
Proof.
  intros Hok. destruct (compact_spec h l Hok) as (F & En & _).
  destruct (Nat.eq_dec l' l) as [->|Hne]; [unfold content at 1; rewrite En; apply live_map_some|].
  eapply content_frame; eauto.
Qed.

(** ** binding and appending *)
Lemma frame_append h l n : frame l h (append_node (bind_node h l n) l n).
Proof.
  unfold append_node, bind_node.
  repeat (eapply frame_trans; [|first [apply frame_set_num|apply frame_set_nodes|apply frame_set_coll|apply frame_set_id]]).
  apply frame_refl.
Qed.

Lemma append_acc h l n :
  let h' := append_node (bind_node h l n) l n in
  l_nodesof h' l = l_nodesof h l ++ [Some n] /\ l_numof h' l = l_numof h l + 1 /\
  n_idof h' n = zlen (l_nodesof h l) /\ n_collof h' n = Some l /\
  (forall m, m <> n -> n_idof h' m = n_idof h m /\ n_collof h' m = n_collof h m) /\
  (forall m, n_fieldsof h' m = n_fieldsof h m).
Proof.
  unfold append_node, bind_node. cbn zeta. hs. split; [reflexivity|]. split; [reflexivity|].
  split; [reflexivity|]. split; [reflexivity|]. split.
  - intros m Hm. hs. destruct (Nat.eqb_spec m n); [congruence|]. split; reflexivity.
  - intros m. hs. reflexivity.
Qed.

Lemma append_ok h l n : layer_ok h l -> n_collof h n = None ->
  layer_ok (append_node (bind_node h l n) l n) l.
Proof.
  intros Hok Hn. destruct (append_acc h l n) as (En & Ek & Ei & Ec & Hm & _). cbn zeta in *.
  set (h' := append_node (bind_node h l n) l n) in *. destruct Hok as [On Os Oc].
  split.
  - unfold content. rewrite Ek, En, live_app, On. unfold content, zlen. rewrite app_length. simpl. lia.
  - intros i m Hi. rewrite En in Hi. destruct (lt_dec i (length (l_nodesof h l))) as [Hlt|Hge].
    + rewrite nth_error_app1 in Hi by assumption. destruct (Os _ _ Hi) as [E1 E2].
      assert (m <> n) by congruence. destruct (Hm m H) as [-> ->]. auto.
    + rewrite nth_error_app2 in Hi by lia. destruct (i - length (l_nodesof h l))%nat eqn:Ed; simpl in Hi.
      * injection Hi as <-. rewrite Ei, Ec. unfold zlen. split; [f_equal; lia|reflexivity].
      * destruct n0; discriminate.
  - intros m E. destruct (Nat.eq_dec m n) as [->|Hne].
    + exists (length (l_nodesof h l)). rewrite Ei, En. split; [reflexivity|].
      rewrite nth_error_app2 by lia. rewrite Nat.sub_diag. reflexivity.
    + destruct (Hm m Hne) as [F1 F2]. rewrite F2 in E. destruct (Oc _ E) as (i & E1 & E2). exists i.
      rewrite F1, En. split; [assumption|]. rewrite nth_error_app1; [assumption|]. apply nth_error_Some. congruence.
Qed.

Lemma wf_append h l n : wf h -> n_collof h n = None -> (n < h_nnext h)%nat -> (l < h_lnext h)%nat ->
  wf (append_node (bind_node h l n) l n).
Proof.
  intros Hwf Hn Hnn Hll. destruct (append_acc h l n) as (En & Ek & Ei & Ec & Hm & _). cbn zeta in *.
  pose proof (frame_append h l n) as F.
  apply (wf_by_frame l h); auto using append_ok, wf_layers.
  - intros m E1 E2. apply Hm. congruence.
  - intros m l' Hne E. destruct (Nat.eq_dec m n) as [->|Hmn]; [congruence|]. destruct (Hm m Hmn) as [_ ->]. assumption.
  - intros m l' Hne E. destruct (Nat.eq_dec m n) as [->|Hmn]; [congruence|]. destruct (Hm m Hmn) as [_ G]. congruence.
  - intros m Hge. destruct (Hm m ltac:(lia)) as [_ ->]. apply wf_fresh_n; assumption.
  - intros l' Hl. assert (l' <> l) by lia. unfold l_nodesof. rewrite (fr_layer _ _ _ F l' H). apply (wf_fresh_l h Hwf l' Hl).
Qed.



Definition is_some {A} (o : option A) : bool := match o with Some _ => true | None => false end.

Lemma mem_nid_cons n m c : mem_nid n (m :: c) = Nat.eqb n m || mem_nid n c.
Proof. reflexivity. Qed.

Lemma take_unbound_ext ns : forall b1 b2 s1 s2, (forall m, b1 m || mem_nid m s1 = b2 m || mem_nid m s2) ->
  take_unbound b1 s1 ns = take_unbound b2 s2 ns.
Proof.
  induction ns as [|[n|] ns IH]; intros b1 b2 s1 s2 H; simpl; [reflexivity| |reflexivity].
  rewrite H. destruct (b2 n || mem_nid n s2) eqn:E; [reflexivity|].
  rewrite (IH b1 b2 (n :: s1) (n :: s2)); [reflexivity|].
  intros m. rewrite !mem_nid_cons, !orb_assoc, !(orb_comm _ (Nat.eqb m n)), <- !orb_assoc, H. reflexivity.
Qed.

(** What appending does *)
Record grown (l : lid) (h h' : heap) (added : list nid) : Prop := {
  gr_frame : frame l h h';
  gr_fields : forall n, n_fieldsof h' n = n_fieldsof h n;
  gr_slots : l_nodesof h' l = l_nodesof h l ++ map Some added;
  gr_num : l_numof h' l = l_numof h l + zlen added;
  gr_coll : forall n, n_collof h' n = if mem_nid n added then Some l else n_collof h n;
  gr_id : forall n, mem_nid n added = false -> n_idof h' n = n_idof h n }.

Lemma grown_nil l h : grown l h h [].
Proof. split; auto with frame; rewrite ?app_nil_r; auto. simpl. unfold zlen; simpl; lia. Qed.

Lemma grown_cons l h n a h' : grown l (append_node (bind_node h l n) l n) h' a -> grown l h h' (n :: a).
Proof.
  intros [G1 G2 G3 G4 G5 G6]. destruct (append_acc h l n) as (En & Ek & Ei & Ec & Hm & Hf). cbn zeta in *. split.
  - eapply frame_trans; [apply frame_append|exact G1].
  - intros m. rewrite G2, Hf. reflexivity.
  - rewrite G3, En, <- app_assoc. reflexivity.
  - rewrite G4, Ek. unfold zlen. simpl length. lia.
  - intros m. rewrite G5, mem_nid_cons. destruct (mem_nid m a); [rewrite orb_true_r; reflexivity|]. rewrite orb_false_r.
    destruct (Nat.eqb_spec m n) as [->|Hne]; [assumption|]. apply Hm. assumption.
  - intros m. rewrite mem_nid_cons. intros H. apply orb_false_iff in H. destruct H as [H1 H2]. rewrite G6 by assumption.
    apply Nat.eqb_neq in H1. apply Hm. assumption.
Qed.

Lemma grown_content l h h' a l' : grown l h h' a ->
  content h' l' = if Nat.eqb l' l then content h l ++ a else content h l'.
Proof.
  intros G. destruct (Nat.eqb_spec l' l) as [->|Hne].
  - unfold content. rewrite (gr_slots _ _ _ _ G), live_app, live_map_some. reflexivity.
  - apply (content_frame l); [apply G|assumption].
Qed.

Definition alloced (h : heap) (ns : list nid) : Prop := Forall (fun n => (n < h_nnext h)%nat) ns.

Lemma is_bound_append h l n m : is_bound (append_node (bind_node h l n) l n) m = Nat.eqb m n || is_bound h m.
Proof.
  destruct (append_acc h l n) as (En & Ek & Ei & Ec & Hm & Hf). cbn zeta in *. unfold is_bound.
  destruct (Nat.eqb_spec m n) as [->|Hne]; [rewrite Ec; reflexivity|]. destruct (Hm m Hne) as [_ ->]. reflexivity.
Qed.

Lemma add_many_loop_spec l ns : forall h, wf h -> (l < h_lnext h)%nat -> alloced h (live ns) ->
  forall h' r, add_many_loop h l ns = (h', r) ->
  let '(added, ok) := take_unbound (is_bound h) [] ns in
  wf h' /\ grown l h h' added /\ r = if ok then Ok tt else Err AssertionError.
Proof.
  induction ns as [|[n|] ns IH]; intros h Hwf Hl Ha h' r E; simpl in *.
  - injection E as <- <-. split; [assumption|]. split; [apply grown_nil|reflexivity].
  - unfold is_bound at 1. rewrite orb_false_r. inversion Ha as [|? ? Hn Ha']; subst.
    destruct (n_collof h n) as [l0|] eqn:Ec.
    + injection E as <- <-. split; [assumption|]. split; [apply grown_nil|reflexivity].
    + pose proof (frame_append h l n) as F.
      assert (Hwf1 : wf (append_node (bind_node h l n) l n)) by (apply wf_append; assumption).
      specialize (IH _ Hwf1 ltac:(rewrite (fr_lnext _ _ _ F); assumption)).
      specialize (IH ltac:(unfold alloced; rewrite (fr_nnext _ _ _ F); assumption) _ _ E).
      rewrite (take_unbound_ext ns _ (is_bound h) [] [n]) in IH.
      2:{ intros m. rewrite is_bound_append. rewrite mem_nid_cons. simpl. rewrite !orb_false_r. apply orb_comm. }
      destruct (take_unbound (is_bound h) [n] ns) as [a ok]. destruct IH as (W & G & R).
      split; [assumption|]. split; [apply grown_cons; assumption|assumption].
  - injection E as <- <-. split; [assumption|]. split; [apply grown_nil|reflexivity].
Qed.

Lemma add_nodes_spec l ns : forall h, wf h -> (l < h_lnext h)%nat -> alloced h (live ns) ->
  NoDup (live ns) -> (forall n, In n (live ns) -> n_collof h n = None) ->
  forall h' r, layer_add_nodes h l ns = (h', r) ->
  let '(added, ok) := take_unbound (is_bound h) [] ns in
  wf h' /\ grown l h h' added /\ r = if ok then Ok tt else Err ValueError.
Proof.
  induction ns as [|[n|] ns IH]; intros h Hwf Hl Ha Hnd Hub h' r E; simpl in *.
  - injection E as <- <-. split; [assumption|]. split; [apply grown_nil|reflexivity].
  - inversion Ha as [|? ? Hn Ha']; subst. inversion Hnd as [|? ? Hni Hnd']; subst.
    pose proof (Hub n (or_introl eq_refl)) as Ec. unfold is_bound at 1. rewrite Ec. simpl.
    pose proof (frame_append h l n) as F.
    assert (Hwf1 : wf (append_node (bind_node h l n) l n)) by (apply wf_append; assumption).
    specialize (IH _ Hwf1 ltac:(rewrite (fr_lnext _ _ _ F); assumption)).
    specialize (IH ltac:(unfold alloced; rewrite (fr_nnext _ _ _ F); assumption) Hnd').
    assert (Hub' : forall m, In m (live ns) -> n_collof (append_node (bind_node h l n) l n) m = None).
    { intros m Hm. destruct (append_acc h l n) as (_ & _ & _ & _ & G & _). destruct (G m) as [_ ->]; [congruence|].
      apply Hub. right. assumption. }
    specialize (IH Hub' _ _ E).
    rewrite (take_unbound_ext ns _ (is_bound h) [] [n]) in IH.
    2:{ intros m. rewrite is_bound_append. rewrite mem_nid_cons. simpl. rewrite !orb_false_r. apply orb_comm. }
    destruct (take_unbound (is_bound h) [n] ns) as [a ok]. destruct IH as (W & G & R).
    split; [assumption|]. split; [apply grown_cons; assumption|assumption].
  - injection E as <- <-. split; [assumption|]. split; [apply grown_nil|reflexivity].
Qed.

(** ** shrinking operations *)
Lemma shrink_refl l h : shrink l h h. Proof. split; auto with frame. Qed.
Lemma shrink_trans l h1 h2 h3 : shrink l h1 h2 -> shrink l h2 h3 -> shrink l h1 h3.
Proof.
  intros [A1 A2 A3 A4] [B1 B2 B3 B4]. split.
  - eapply frame_trans; eauto.
  - intros n. rewrite B2, A2. reflexivity.
  - intros n Hn. destruct (A3 n Hn) as [E1 E2]. destruct (B3 n) as [F1 F2]; [congruence|]. split; congruence.
  - intros n Hn. destruct (A4 n Hn) as [E|E].
    + apply B4. assumption.
    + right. destruct (B3 n) as [_ F]; [congruence|]. congruence.
Qed.

Lemma wf_by_shrink l h h' : wf h -> (l < h_lnext h)%nat -> shrink l h h' -> layer_ok h' l -> wf h'.
Proof.
  intros Hwf Hl [F Hf Ho Hm] Hok. apply (wf_by_frame l h); auto.
  - intros n l' Hne E. destruct (Ho n) as [_ ->]; congruence.
  - intros n l' Hne E. destruct (n_collof h n) as [l0|] eqn:E0.
    + destruct (Nat.eq_dec l0 l) as [->|Hne0].
      * destruct (Hm n E0) as [G|G]; congruence.
      * destruct (Ho n) as [_ G]; [congruence|]. congruence.
    + destruct (Ho n) as [_ G]; congruence.
  - intros n Hge. pose proof (wf_fresh_n h Hwf n Hge) as E. destruct (Ho n) as [_ ->]; congruence.
  - intros l' Hge. assert (l' <> l) by lia. unfold l_nodesof. rewrite (fr_layer _ _ _ F l' H). apply (wf_fresh_l h Hwf l' Hge).
Qed.

Lemma compact_shrink h l : layer_ok h l -> shrink l h (compact h l).
Proof.
  intros Hok. destruct (compact_spec h l Hok) as (F & En & Ek & Hr1 & Hr2 & Hr3). split; auto.
  - intros n. apply Hr1.
  - intros n Hn. destruct (Hr1 n) as [_ G]. split; [|assumption]. apply Hr3. intros Hin. apply Hn.
    apply layer_ok_member; assumption.
  - intros n Hn. left. destruct (Hr1 n) as [_ ->]. assumption.
Qed.

Lemma filter_all_true {A} (f : A -> bool) l : (forall x, In x l -> f x = true) -> filter f l = l.
Proof.
  induction l as [|x l IH]; intros H; [reflexivity|]. simpl. rewrite H by (left; reflexivity). f_equal.
  apply IH. intros; apply H; right; assumption.
Qed.

Lemma without_split a n b : NoDup (a ++ n :: b) -> without n (a ++ n :: b) = a ++ b.
Proof.
  intros H. pose proof (NoDup_remove_2 _ _ _ H) as Hni. unfold without. rewrite filter_app. simpl.
  rewrite Nat.eqb_refl. simpl.
  rewrite !filter_all_true; [reflexivity| |]; intros m Hm; destruct (Nat.eqb_spec m n) as [->|]; try reflexivity;
  exfalso; apply Hni; apply in_or_app; auto.
Qed.

Lemma drop_node_spec h l n : layer_ok h l -> n_collof h n = Some l ->
  exists h', drop_node h l n = (h', Ok tt) /\ shrink l h h' /\ layer_ok h' l /\
    content h' l = without n (content h l) /\ n_collof h' n = None /\
    (forall m, m <> n -> n_collof h' m = n_collof h m) /\ (forall m, n_idof h' m = n_idof h m) /\
    length (l_nodesof h' l) = length (l_nodesof h l).
Proof.
  intros Hok Hn. pose proof (layer_ok_NoDup _ _ Hok) as Hnd. destruct Hok as [On Os Oc].
  destruct (Oc n Hn) as (i & Ei & Es). unfold drop_node. rewrite Ei.
  assert (Hi : (i < length (l_nodesof h l))%nat) by (apply nth_error_Some; congruence).
  unfold py_setitem. rewrite py_index_nonneg by (unfold zlen; lia). rewrite Nat2Z.id.
  eexists. split; [reflexivity|]. hs.
  destruct (live_upd_none _ _ _ Es) as [L1 L2].
  assert (Ew : live (upd_nth (l_nodesof h l) i None) = without n (content h l)).
  { rewrite L1. unfold content in *. rewrite L2 in *. symmetry. apply without_split. assumption. }
  assert (Hsh : shrink l h (set_coll (set_num (set_nodes h l (upd_nth (l_nodesof h l) i None)) l (l_numof h l - 1)) n None)).
  { split.
    - repeat (eapply frame_trans; [|first [apply frame_set_coll|apply frame_set_num|apply frame_set_nodes]]). apply frame_refl.
    - intros m. hs. reflexivity.
    - intros m Hm. hs. destruct (Nat.eqb_spec m n) as [->|]; [congruence|split; reflexivity].
    - intros m Hm. hs. destruct (Nat.eqb_spec m n); auto. }
  split; [assumption|]. split.
  { split.
    - unfold content. hs. rewrite Ew, On. unfold content. rewrite L2 in *.
      rewrite without_split by (unfold content in Hnd; rewrite L2 in Hnd; assumption).
      unfold zlen. rewrite !app_length. simpl. lia.
    - intros j m Hj. hs. destruct (Nat.eq_dec j i) as [->|Hne].
      + rewrite nth_error_upd_same in Hj by assumption. discriminate.
      + rewrite nth_error_upd_other in Hj by congruence. destruct (Os _ _ Hj) as [E1 E2].
        destruct (Nat.eqb_spec m n) as [->|]; [|auto]. exfalso. apply Hne. lia.
    - intros m Hm. hs. destruct (Nat.eqb_spec m n) as [E0|Hne]; [discriminate Hm|].
      destruct (Oc m Hm) as (j & Ej & Esj). exists j. split; [assumption|].
      rewrite nth_error_upd_other; [assumption|]. intros ->. congruence. }
  split; [unfold content at 1; hs; assumption|]. split; [reflexivity|].
  split; [intros m Hm; hs; destruct (Nat.eqb_spec m n); congruence|].
  split; [intros m; hs; reflexivity|]. apply upd_nth_length.
Qed.

Lemma auto_compact_spec h l : layer_ok h l ->
  shrink l h (auto_compact h l) /\ layer_ok (auto_compact h l) l /\ content (auto_compact h l) l = content h l /\
  (forall n, n_collof (auto_compact h l) n = n_collof h n).
Proof.
  intros Hok. unfold auto_compact. destruct (_ && _).
  - split; [apply compact_shrink; assumption|]. split; [apply compact_ok; assumption|].
    split; [apply compact_content; assumption|]. intros n.
    destruct (compact_spec h l Hok) as (_ & _ & _ & Hr & _). apply Hr.
  - split; [apply shrink_refl|]. auto.
Qed.

Lemma remove_loop_spec l shown items : forall h, layer_ok h l ->
  forall h' r, remove_loop h l shown items = (h', r) ->
  shrink l h h' /\ layer_ok h' l /\ content h' l = fst (list_remove (content h l) items) /\
  (forall n, n_collof h n = Some l -> ~ In n (content h' l) -> n_collof h' n = None) /\
  (if snd (list_remove (content h l) items) then r = Ok tt
   else r = Err ValueError \/ r = Err (value_error_repr h' shown)).
Proof.
  induction items as [|[n| |] items IH]; intros h Hok h' r E; simpl in *.
  - injection E as <- <-. split; [apply shrink_refl|]. split; [assumption|]. split; [reflexivity|]. split; [|reflexivity].
    intros n Hn Hni. exfalso. apply Hni. apply layer_ok_member; assumption.
  - rewrite (contains_mem h l n Hok) in E. destruct (mem_nid n (content h l)) eqn:Em.
    + apply mem_nid_In in Em. apply layer_ok_member in Em; [|assumption].
      destruct (drop_node_spec h l n Hok Em) as (h1 & Ed & Hsh & Hok1 & Ec & En & Eo & _).
      rewrite Ed in E. destruct (IH h1 Hok1 h' r E) as (S2 & O2 & C2 & D2 & R2).
      rewrite Ec in *. split; [eapply shrink_trans; eauto|]. split; [assumption|]. split; [assumption|].
      split; [|assumption]. intros m Hm Hni. destruct (Nat.eq_dec m n) as [->|Hne].
      * destruct (sh_other _ _ _ S2 n) as [_ G]; congruence.
      * apply D2; [rewrite Eo; assumption|assumption].
    + injection E as <- <-. split; [apply shrink_refl|]. split; [assumption|]. split; [reflexivity|]. split; [|simpl; auto].
      intros m Hm Hni. exfalso. apply Hni. apply layer_ok_member; assumption.
  - apply IH; assumption.
  - injection E as <- <-. split; [apply shrink_refl|]. split; [assumption|]. split; [reflexivity|]. split; [|simpl; auto].
    intros m Hm Hni. exfalso. apply Hni. apply layer_ok_member; assumption.
Qed.

Lemma remove_many_spec h l b items h' r : layer_ok h l -> layer_remove_many h l b items = (h', r) ->
  shrink l h h' /\ layer_ok h' l /\ content h' l = fst (list_remove (content h l) items) /\
  (forall n, n_collof h n = Some l -> ~ In n (content h' l) -> n_collof h' n = None) /\
  (if snd (list_remove (content h l) items) then r = Ok tt
   else r = Err ValueError \/ r = Err (value_error_repr h' (if b then ritem_nodes items else []))).
Proof.
  intros Hok. unfold layer_remove_many.
  destruct (remove_loop h l (if b then ritem_nodes items else []) items) as [h1 r1] eqn:E1.
  destruct (remove_loop_spec l _ items h Hok h1 r1 E1) as (S1 & O1 & C1 & D1 & R1).
  destruct r1 as [[]|e]; intros E; injection E as <- <-.
  - destruct (auto_compact_spec h1 l O1) as (S2 & O2 & C2 & D2). rewrite C2.
    split; [eapply shrink_trans; eauto|]. split; [assumption|]. split; [assumption|].
    split; [intros n Hn Hni; rewrite D2; auto|].
    destruct (snd (list_remove (content h l) items)); [reflexivity|]. destruct R1; discriminate.
  - split; [assumption|]. split; [assumption|]. split; [assumption|]. split; [assumption|]. assumption.
Qed.

Lemma remove_spec h l n h' r : layer_ok h l -> layer_remove h l n = (h', r) ->
  shrink l h h' /\ layer_ok h' l /\
  (if mem_nid n (content h l)
   then r = Ok tt /\ content h' l = without n (content h l) /\ n_collof h' n = None
   else r = Err (value_error_repr h [n]) /\ h' = h).
Proof.
  intros Hok. unfold layer_remove. rewrite (contains_mem h l n Hok). destruct (mem_nid n (content h l)) eqn:Em.
  - apply mem_nid_In in Em. apply layer_ok_member in Em; [|assumption].
    destruct (drop_node_spec h l n Hok Em) as (h1 & Ed & Hsh & Hok1 & Ec & En & Eo & _).
    rewrite Ed. intros E. injection E as <- <-.
    destruct (auto_compact_spec h1 l Hok1) as (S2 & O2 & C2 & D2). rewrite C2, D2.
    split; [eapply shrink_trans; eauto|]. auto.
  - intros E. injection E as <- <-. split; [apply shrink_refl|]. auto.
Qed.
