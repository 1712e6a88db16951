(** What the layer operations do in the cases that C12 and C15 leave out. *)
From Verif Require Import PyBase PyBaseFacts Model_Heap Model_Layer Spec_Layer Spec_Exact Proof_Heap Proof_Layer Proof_Layer2 Proof_Layer4.
Local Open Scope Z_scope.

(** *** remove *)
Lemma repr_not_ok h n : node_repr_ok h n = false <-> unprintable h n.
Proof.
  unfold node_repr_ok, unprintable. destruct (n_fieldsof h n), (n_collof h n); split; intros H; try discriminate; try tauto; try (destruct H; congruence).
  split; [reflexivity|discriminate].
Qed.
Lemma value_error_exact h ns : (value_error_repr h ns = AttributeError <-> exists n, In n ns /\ unprintable h n) /\
  (value_error_repr h ns = ValueError <-> ~ exists n, In n ns /\ unprintable h n).
Proof.
  unfold value_error_repr. destruct (forallb (node_repr_ok h) ns) eqn:E.
  - rewrite forallb_forall in E. assert (X : ~ exists n, In n ns /\ unprintable h n).
    { intros (n & I & U). apply repr_not_ok in U. rewrite (E n I) in U. discriminate. }
    split; split; intros H; try discriminate; tauto.
  - assert (X : exists n, In n ns /\ unprintable h n).
    { clear -E. induction ns as [|n ns IH]; [discriminate|]. simpl in E. destruct (node_repr_ok h n) eqn:F.
      - destruct (IH E) as (m & I & U). exists m. split; [right|]; assumption.
      - exists n. split; [left; reflexivity|apply repr_not_ok; exact F]. }
    split; split; intros H; try discriminate; tauto.
Qed.
Lemma remove_error h l n : layer_contains h l n = false ->
  (snd (layer_remove h l n) = Err AttributeError <-> unprintable h n) /\ (snd (layer_remove h l n) = Err ValueError <-> ~ unprintable h n).
Proof.
  intros E. unfold layer_remove. rewrite E. simpl. destruct (value_error_exact h [n]) as (A & B).
  assert (X : (exists m, In m [n] /\ unprintable h m) <-> unprintable h n).
  { split; [intros (m & [<-|[]] & U); exact U|intros U; exists n; split; [left; reflexivity|exact U]]. }
  rewrite X in A, B. split; [rewrite <- A|rewrite <- B]; split; congruence.
Qed.

Lemma stops_snd items : forall c, snd (list_remove c items) = match stops_at c items with None => true | Some _ => false end.
Proof. induction items as [|[n| |] items IH]; intros c; simpl; [reflexivity| |apply IH|reflexivity]. destruct (mem_nid n c); [apply IH|reflexivity]. Qed.
Lemma remove_loop_error l shown items : forall h h' r, layer_ok h l -> remove_loop h l shown items = (h', r) ->
  match stops_at (content h l) items with
  | None => r = Ok tt
  | Some ROther => r = Err ValueError
  | Some _ => r = Err (value_error_repr h' shown)
  end.
Proof.
  induction items as [|[n| |] items IH]; intros h h' r Hok E; simpl in *.
  - congruence.
  - rewrite (contains_mem h l n Hok) in E. destruct (mem_nid n (content h l)) eqn:Em; [|congruence].
    apply mem_nid_In in Em. apply layer_ok_member in Em; [|assumption].
    destruct (drop_node_spec h l n Hok Em) as (h1 & Ed & _ & Hok1 & Ec & _). rewrite Ed in E. rewrite <- Ec. eapply IH; eauto.
  - eapply IH; eauto.
  - congruence.
Qed.
Lemma remove_many_error h l b items h' r : wf h -> layer_remove_many h l b items = (h', r) -> forall c, layer_iter h l = map Some c ->
  match stops_at c items with
  | None => r = Ok tt
  | Some (RNode n) =>
      (b = true -> (exists n, In (RNode n) items /\ unprintable h' n) -> r = Err AttributeError) /\
      (b = false \/ ~ (exists n, In (RNode n) items /\ unprintable h' n) -> r = Err ValueError)
  | Some _ => r = Err ValueError
  end.
Proof.
  intros W E c Hc. apply iter_eq in Hc; [|assumption]. subst c. pose proof (wf_layers h W l) as Hok. unfold layer_remove_many in E.
  destruct (remove_loop h l (if b then ritem_nodes items else []) items) as [h1 r1] eqn:E1.
  pose proof (remove_loop_error l _ items h h1 r1 Hok E1) as R. pose proof (stops_snd items (content h l)) as Sn.
  assert (J : forall n, In n (ritem_nodes items) <-> In (RNode n) items).
  { intros n. clear. induction items as [|[m| |] items IH]; simpl; [tauto| | |].
    - rewrite IH. split; (intros [H|H]; [left; congruence|right; exact H]).
    - rewrite IH. split; [auto|intros [H|H]; [discriminate|exact H]].
    - rewrite IH. split; [auto|intros [H|H]; [discriminate|exact H]]. }
  destruct (stops_at (content h l) items) as [[n| |]|] eqn:St.
  - subst r1. injection E as <- <-. destruct (value_error_exact h1 (if b then ritem_nodes items else [])) as (A & B).
    assert (X : (exists n, In n (if b then ritem_nodes items else []) /\ unprintable h1 n) <-> b = true /\ exists n, In (RNode n) items /\ unprintable h1 n).
    { destruct b; split; [intros (m & I & U)|intros (_ & m & I & U)|intros (m & [] & _)|intros (D & _); discriminate].
      - split; [reflexivity|]. exists m. rewrite <- J. auto.
      - exists m. rewrite J. auto. }
    split.
    + intros Hb Hu. f_equal. apply A, X. auto.
    + intros Hn. f_equal. apply B. rewrite X. intros (Hb & Hu). destruct Hn as [Hn|Hn]; [congruence|tauto].
  - exfalso. clear -St. revert St. generalize (content h l). induction items as [|[m| |] items IH]; intros c St; simpl in St; try discriminate; [|eauto].
    destruct (mem_nid m c); [eauto|discriminate].
  - subst r1. congruence.
  - subst r1. congruence.
Qed.

(** *** retain *)
(** marking stops at the first element that is not a node of the layer *)
Lemma mark_app l : forall a b h, retain_mark h l (a ++ b) = match retain_mark h l a with (h1, Ok _) => retain_mark h1 l b | (h1, Err e) => (h1, Err e) end.
Proof.
  induction a as [|[n|] a IH]; intros b h; simpl; [reflexivity| |reflexivity].
  destruct (layer_contains h l n); [|reflexivity]. destruct (0 <=? n_idof h n); apply IH.
Qed.
Lemma retain_foreign h l ns o rest h' r : wf h -> (forall n, In n ns -> layer_contains h l n = true) ->
  (forall n, o = Some n -> layer_contains h l n = false) -> layer_retain h l (map Some ns ++ o :: rest) = (h', r) ->
  r = Err (match o with Some n => value_error_repr h [n] | None => AttributeError end) /\
  h_layer h' = h_layer h /\ (forall n, n_collof h' n = n_collof h n /\ n_fieldsof h' n = n_fieldsof h n) /\
  (forall n, n_idof h' n = if mem_nid n ns then - (n_idof h n + 1) else n_idof h n).
Proof.
  intros W Hin Hout E. pose proof (wf_layers h W l) as Hok.
  assert (Hpos : forall n, n_collof h n = Some l -> 0 <= n_idof h n).
  { intros n Hn. destruct (ok_coll _ _ Hok n Hn) as (i & -> & _). lia. }
  destruct (retain_mark_spec l h Hpos (map Some ns) h (fun _ => false)) as (h1 & E1 & G1 & G2 & G3 & G4 & G5); auto.
  { intros n I. apply in_map_iff in I. destruct I as (m & [= <-] & I). apply contains_iff, Hin, I. }
  { intros I. apply in_map_iff in I. destruct I as (m & D & _). discriminate. }
  assert (Ek : forall n, kept (map Some ns) n = mem_nid n ns).
  { intros n. clear. induction ns as [|m ns IH]; [reflexivity|]. cbn [map]. rewrite kept_cons, IH. simpl. rewrite Nat.eqb_sym. reflexivity. }
  assert (Ep : forall n, node_repr_ok h1 n = node_repr_ok h n).
  { intros n. unfold node_repr_ok. destruct (G2 n) as [-> ->]. reflexivity. }
  unfold layer_retain in E. rewrite mark_app, E1 in E. simpl in E.
  assert (Out : h' = h1 /\ r = Err (match o with Some n => value_error_repr h [n] | None => AttributeError end)).
  { destruct o as [n|]; [|split; congruence]. specialize (Hout n eq_refl).
    assert (Ec : layer_contains h1 l n = false).
    { rewrite <- Hout. unfold layer_contains. destruct (G2 n) as [-> _]. reflexivity. }
    rewrite Ec in E. unfold value_error_repr in *. simpl in *. rewrite Ep in E. split; congruence. }
  destruct Out as [-> ->]. split; [reflexivity|]. split; [exact G3|]. split; [exact G2|].
  intros n. rewrite G1, Ek. reflexivity.
Qed.

(** the loop of retain over the slots before a gap *)
Lemma loop_app l a b : forall h i k, retain_loop h l i k (a + b) = match retain_loop h l i k a with (h1, Ok k1) => retain_loop h1 l (i + a) k1 b | (h1, Err e) => (h1, Err e) end.
Proof.
  induction a as [|a IH]; intros h i k; simpl; [rewrite Nat.add_0_r; reflexivity|].
  destruct (nth_error (l_nodesof h l) i) as [[n|]|]; [|reflexivity|reflexivity].
  destruct (0 <=? n_idof h n); rewrite IH, <- Nat.add_succ_comm; reflexivity.
Qed.
Lemma retain_loop_prefix l c tl keep : NoDup c -> forall todo h i k,
  (i + todo = length c)%nat -> k = length (filter keep (firstn i c)) ->
  firstn k (l_nodesof h l) = map Some (filter keep (firstn i c)) ->
  skipn i (l_nodesof h l) = map Some (skipn i c) ++ tl ->
  (length c <= length (l_nodesof h l))%nat ->
  (forall n, In n (skipn i c) -> (n_idof h n < 0 <-> keep n = true)) ->
  exists h' k', retain_loop h l i k todo = (h', Ok k') /\
  frame l h h' /\ (forall n, n_fieldsof h' n = n_fieldsof h n) /\
  l_numof h' l = l_numof h l - zlen (filter (fun n => negb (keep n)) (skipn i c)) /\
  firstn (length (filter keep c)) (l_nodesof h' l) = map Some (filter keep c) /\ skipn (length (filter keep c)) (l_nodesof h' l) = skipn (length (filter keep c)) (l_nodesof h l) /\
  (forall n, n_collof h' n = if mem_nid n (skipn i c) && negb (keep n) then None else n_collof h n) /\
  (forall p n, nth_error (filter keep (skipn i c)) p = Some n -> n_idof h' n = Z.of_nat (k + p)) /\
  (forall n, ~ In n (filter keep (skipn i c)) -> n_idof h' n = n_idof h n) /\ skipn (length c) (l_nodesof h' l) = tl.
Proof.
  intros Hnd. induction todo as [|todo IH]; intros h i k Hi Hk Hf Hsk Hlen Hid; simpl.
  - rewrite Nat.add_0_r in Hi. subst i. rewrite firstn_all in *. rewrite skipn_all in *. simpl in *. subst k.
    exists h, (length (filter keep c)). split; [reflexivity|]. split; [apply frame_refl|]. split; [auto|].
    split; [unfold zlen; simpl; lia|]. split; [assumption|]. split; [reflexivity|]. split; [auto|].
    split; [intros [|p] n; discriminate|auto].
  - assert (Hil : (i < length c)%nat) by lia.
    destruct (nth_error c i) as [n|] eqn:En; [|apply nth_error_None in En; lia].
    pose proof (nth_error_skipn_cons _ _ _ En) as Ecs. rewrite Ecs in Hsk. cbn [map app] in Hsk.
    destruct (skipn_cons_nth _ _ _ _ Hsk) as [Es Hsk'].
    rewrite Es.
    assert (Hki : (k <= i)%nat).
    { subst k. clear -Hil. pose proof (firstn_length i c).
      assert (length (filter keep (firstn i c)) <= length (firstn i c))%nat by (generalize (firstn i c); induction l as [|x l IH]; simpl; [lia|]; destruct (keep x); simpl; lia). lia. }
    assert (Hkf : keep n = true -> (k < length (filter keep c))%nat).
    { intros Hn. subst k. rewrite <- (firstn_skipn i c) at 2. rewrite filter_app, app_length, Ecs. simpl. rewrite Hn. simpl. lia. }
    assert (Hni : ~ In n (skipn (S i) c)).
    { rewrite <- (firstn_skipn i c), Ecs in Hnd. apply NoDup_remove_2 in Hnd. intros Hin. apply Hnd. apply in_or_app. right; assumption. }
    pose proof (Hid n ltac:(rewrite Ecs; left; reflexivity)) as Hidn.
    rewrite Ecs. cbn [filter].
    destruct (Z.leb_spec 0 (n_idof h n)) as [Hpos|Hneg].
    + assert (Ekeep : keep n = false) by (destruct (keep n); [exfalso; destruct Hidn as [_ X]; specialize (X eq_refl); lia|reflexivity]).
      rewrite Ekeep. simpl negb. cbv iota.
      destruct (IH (set_num (set_coll h n None) l (l_numof h l - 1)) (S i) k) as (h' & k' & E & F & G1 & G2 & G3 & G4 & G5 & G6 & G7 & G8).
      * lia.
      * rewrite (firstn_S_nth _ _ _ En), filter_app. simpl. rewrite Ekeep, app_nil_r. assumption.
      * hs. rewrite (firstn_S_nth _ _ _ En), filter_app. simpl. rewrite Ekeep, app_nil_r. assumption.
      * hs. assumption.
      * hs. assumption.
      * intros m Hm. hs. apply Hid. rewrite Ecs. right. assumption.
      * exists h', k'. hs. split; [assumption|].
        split; [eapply frame_trans; [|exact F]; eapply frame_trans; [apply frame_set_coll|apply frame_set_num]|].
        split; [intros m; rewrite G1; hs; reflexivity|].
        split; [rewrite G2; unfold zlen; simpl length; lia|]. split; [assumption|]. split; [rewrite G4; hs; reflexivity|].
        split.
        { intros m. rewrite G5. hs. rewrite mem_nid_cons. destruct (Nat.eqb_spec m n) as [->|Hne]; [|reflexivity].
          rewrite Ekeep. destruct (mem_nid n (skipn (S i) c)); reflexivity. }
        split; [assumption|]. split; [|assumption]. intros m Hm. rewrite G7 by assumption. hs. reflexivity.
    + assert (Ekeep : keep n = true) by (apply Hidn; assumption). specialize (Hkf Ekeep).
      rewrite Ekeep. simpl negb. cbv iota.
      destruct (IH (set_id (set_nodes h l (upd_nth (l_nodesof h l) k (Some n))) n (Z.of_nat k)) (S i) (S k)) as (h' & k' & E & F & G1 & G2 & G3 & G4 & G5 & G6 & G7 & G8).
      * lia.
      * rewrite (firstn_S_nth _ _ _ En), filter_app. simpl. rewrite Ekeep, app_length. simpl. lia.
      * hs. rewrite firstn_upd_nth by lia. rewrite (firstn_S_nth _ _ _ En), filter_app, map_app. simpl. rewrite Ekeep, Hf. reflexivity.
      * hs. rewrite skipn_upd_nth by lia. assumption.
      * hs. rewrite upd_nth_length. assumption.
      * intros m Hm. hs. destruct (Nat.eqb_spec m n) as [->|]; [contradiction|]. apply Hid. rewrite Ecs. right. assumption.
      * exists h', k'. hs. split; [assumption|].
        split; [eapply frame_trans; [|exact F]; eapply frame_trans; [apply frame_set_nodes|apply frame_set_id]|].
        split; [intros m; rewrite G1; hs; reflexivity|].
        split; [assumption|]. split; [assumption|]. split; [rewrite G4; hs; apply skipn_upd_nth; assumption|].
        split.
        { intros m. rewrite G5. hs. rewrite mem_nid_cons. destruct (Nat.eqb_spec m n) as [->|Hne]; [|reflexivity].
          rewrite Ekeep. rewrite !andb_false_r. reflexivity. }
        assert (Hnf : ~ In n (filter keep (skipn (S i) c))) by (intros Hin; apply filter_In in Hin; tauto).
        split.
        { intros [|p] m Hp; simpl in Hp.
          - injection Hp as ->. rewrite G7 by assumption. hs. lia.
          - rewrite (G6 _ _ Hp). lia. }
        split; [|assumption].
        intros m Hm. rewrite G7 by (intros Hin; apply Hm; right; assumption). hs.
        destruct (Nat.eqb_spec m n) as [->|]; [exfalso; apply Hm; left; reflexivity|reflexivity].
Qed.

Lemma retain_gap h l c tl ns h' r : wf h -> l_nodesof h l = map Some c ++ None :: tl -> (forall n, In n ns -> layer_contains h l n = true) ->
  layer_retain h l (map Some ns) = (h', r) ->
  let k := filter (fun n => mem_nid n ns) c in
  r = Err AttributeError /\ (forall n, n_fieldsof h' n = n_fieldsof h n) /\ (forall l', l' <> l -> h_layer h' l' = h_layer h l') /\
  l_nodesof h' l = map Some k ++ skipn (length k) (l_nodesof h l) /\ l_numof h' l = l_numof h l - (zlen c - zlen k) /\
  (forall n, n_collof h' n = if mem_nid n c && negb (mem_nid n ns) then None else n_collof h n) /\
  (forall p n, nth_error k p = Some n -> n_idof h' n = Z.of_nat p) /\
  (forall n, ~ In n k -> n_idof h' n = if mem_nid n ns then - (n_idof h n + 1) else n_idof h n).
Proof.
  intros W Es Hin E k. pose proof (wf_layers h W l) as Hok.
  assert (Hpos : forall n, n_collof h n = Some l -> 0 <= n_idof h n).
  { intros n Hn. destruct (ok_coll _ _ Hok n Hn) as (i & -> & _). lia. }
  destruct (retain_mark_spec l h Hpos (map Some ns) h (fun _ => false)) as (h1 & E1 & G1 & G2 & G3 & G4 & G5); auto.
  { intros n I. apply in_map_iff in I. destruct I as (m & [= <-] & I). apply contains_iff, Hin, I. }
  { intros I. apply in_map_iff in I. destruct I as (m & D & _). discriminate. }
  assert (Ek : forall n, kept (map Some ns) n = mem_nid n ns).
  { intros n. clear. induction ns as [|m ns IH]; [reflexivity|]. cbn [map]. rewrite kept_cons, IH. simpl. rewrite Nat.eqb_sym. reflexivity. }
  assert (Hc : forall n, In n c -> n_collof h n = Some l).
  { intros n I. apply In_nth_error in I. destruct I as (i & I). eapply (ok_slot _ _ Hok i). rewrite Es, nth_error_app1.
    - rewrite nth_error_map, I. reflexivity.
    - rewrite map_length. apply nth_error_Some. congruence. }
  assert (Hnd : NoDup c).
  { pose proof (layer_ok_NoDup _ _ Hok) as D. unfold content in D. rewrite Es in D.
    clear -D. induction c as [|x c IH]; [constructor|]. simpl in D. inversion D as [|? ? D1 D2]; subst. constructor; [|apply IH, D2].
    intros I. apply D1. clear -I. induction c as [|y c IH]; [destruct I|]. destruct I as [->|I]; [left; reflexivity|right; apply IH, I]. }
  assert (Es1 : l_nodesof h1 l = map Some c ++ None :: tl) by (unfold l_nodesof; rewrite G3; exact Es).
  destruct (retain_loop_prefix l c (None :: tl) (fun n => mem_nid n ns) Hnd (length c) h1 0 0) as
    (h2 & k2 & E2 & F & K1 & K2 & K3 & K4 & K5 & K6 & K7 & K8); auto.
  { rewrite Es1, app_length, map_length. lia. }
  { intros n Hn. simpl in Hn. rewrite G1, Ek. simpl. assert (0 <= n_idof h n) by (apply Hpos, Hc, Hn).
    destruct (mem_nid n ns); [split; [auto|lia]|split; [lia|discriminate]]. }
  simpl skipn in *. fold k in K3, K4, K6, K7.
  assert (Er : layer_retain h l (map Some ns) = (h2, Err AttributeError)).
  { unfold layer_retain. rewrite E1, Es1, app_length, map_length. simpl length. rewrite loop_app, E2. simpl.
    assert (X : nth_error (l_nodesof h2 l) (length c) = Some None) by (destruct (skipn_cons_nth _ _ _ _ K8) as [X _]; exact X). rewrite X. reflexivity. }
  rewrite Er in E. injection E as <- <-.
  split; [reflexivity|]. split; [intros n; rewrite K1; apply G2|]. split; [intros l' Hl; rewrite (fr_layer _ _ _ F l' Hl), G3; reflexivity|].
  split. { rewrite <- K3 at 1. rewrite <- (firstn_skipn (length k) (l_nodesof h2 l)) at 1. rewrite K4. f_equal. f_equal. rewrite Es1, Es. reflexivity. }
  split. { rewrite K2. pose proof (filter_len_split (fun n => mem_nid n ns) c) as L. fold k in L. unfold l_numof, zlen. rewrite G3. lia. }
  split. { intros n. rewrite K5. destruct (mem_nid n c && negb (mem_nid n ns)); [reflexivity|apply G2]. }
  split; [exact K6|]. intros n Hn. rewrite K7 by exact Hn. rewrite G1, Ek. reflexivity.
Qed.
