(** The layer properties in the form in which Prop_Layer states them. *)
From Verif Require Import PyBase PyBaseFacts Model_Heap Model_Layer Model_Types Spec_Layer Spec_History
  Proof_Heap Proof_Layer Proof_Layer2 Proof_Layer3 Proof_History.
Local Open Scope Z_scope.

Lemma iter_wf h l : wf h -> layer_iter h l = map Some (content h l).
Proof. intros W. apply iter_content, wf_layers, W. Qed.
Lemma map_some_inj (a b : list nid) : map Some a = map Some b -> a = b.
Proof. intros H. rewrite <- (live_map_some a), <- (live_map_some b), H. reflexivity. Qed.
Lemma iter_eq h l c : wf h -> layer_iter h l = map Some c -> content h l = c.
Proof. intros W H. rewrite iter_wf in H by assumption. apply map_some_inj. assumption. Qed.
Lemma In_map_some n (c : list nid) : In (Some n) (map Some c) <-> In n c.
Proof. rewrite in_map_iff. split; [intros (x & [= ->] & H); assumption|intros H; eauto]. Qed.
Lemma nth_map_some (c : list nid) p n : nth_error (map Some c) p = Some (Some n) -> nth_error c p = Some n.
Proof. rewrite nth_error_map. destruct (nth_error c p); simpl; congruence. Qed.

Lemma outcomes_spec {K} (leb : K -> K -> bool) os h a o h' ok b :
  hist leb empty_heap a_empty os h a -> op_ok h o -> exec leb h o = (h', ok) -> spec_ok a o = Some b -> ok = b.
Proof.
  intros H Hop E. destruct (hist_refines _ _ _ _ _ _ H wf_empty rel_empty) as [W R].
  destruct (step_refines leb h a o h' ok W R Hop E) as (_ & _ & G). apply G.
Qed.

Lemma membership_spec h l : wf h ->
  NoDup (layer_iter h l) /\
  (forall n, layer_contains h l n = true <-> In (Some n) (layer_iter h l)) /\
  (forall n, layer_contains h l n = true -> exists i, node_i h n = Ok i /\ layer_getitem h l i = Ok (Some n)) /\
  (forall p q x y, nth_error (layer_iter h l) p = Some (Some x) -> nth_error (layer_iter h l) q = Some (Some y) ->
     (p < q)%nat -> exists i j, node_i h x = Ok i /\ node_i h y = Ok j /\ i < j).
Proof.
  intros W. pose proof (wf_layers h W l) as Hok. rewrite iter_wf by assumption.
  assert (Hi : forall n, n_collof h n = Some l -> node_i h n = Ok (n_idof h n)).
  { intros n Hn. pose proof (bound_pos h n l W Hn). unfold node_i. destruct (Z.eqb_spec (n_idof h n) (-1)); [lia|reflexivity]. }
  split; [apply FinFun.Injective_map_NoDup; [intros x y [= ->]; reflexivity|apply layer_ok_NoDup; assumption]|].
  split; [intros n; rewrite In_map_some, contains_iff; apply layer_ok_member; assumption|].
  split.
  - intros n Hn. apply contains_iff in Hn. exists (n_idof h n). split; [auto|]. apply getitem_id; assumption.
  - intros p q x y Hp Hq Hlt. apply nth_map_some in Hp, Hq.
    exists (n_idof h x), (n_idof h y). split; [|split].
    + apply Hi. apply layer_ok_member; [assumption|]. eapply nth_error_In; eauto.
    + apply Hi. apply layer_ok_member; [assumption|]. eapply nth_error_In; eauto.
    + apply (id_order h l p q x y Hok Hp Hq). assumption.
Qed.

Lemma position_spec h l p n : wf h -> no_gaps h l -> nth_error (layer_iter h l) p = Some (Some n) -> node_i h n = Ok (Z.of_nat p).
Proof.
  intros W G Hp. pose proof (wf_layers h W l) as Hok. rewrite iter_wf in Hp by assumption. rewrite <- (live_no_none _ G) in Hp || idtac.
  apply nth_map_some in Hp. assert (Hs : nth_error (l_nodesof h l) p = Some (Some n)).
  { rewrite (live_no_none _ G). fold (content h l). rewrite nth_error_map, Hp. reflexivity. }
  destruct (ok_slot _ _ Hok _ _ Hs) as [Hid _]. unfold node_i. rewrite Hid.
  destruct (Z.eqb_spec (Z.of_nat p) (-1)); [lia|reflexivity].
Qed.

Lemma neighbours_spec h l : wf h ->
  (forall a x n b, layer_iter h l = map Some (a ++ x :: n :: b) -> layer_left h l n = Ok (Some x) /\ layer_right h l x = Ok (Some n)) /\
  (forall n b, layer_iter h l = map Some (n :: b) -> layer_left h l n = Ok None) /\
  (forall a n, layer_iter h l = map Some (a ++ [n]) -> layer_right h l n = Ok None) /\
  (forall n, layer_contains h l n = true -> node_left h n = layer_left h l n /\ node_right h n = layer_right h l n).
Proof.
  intros W. pose proof (wf_layers h W l) as Hok. split; [|split; [|split]].
  - intros a x n b H. apply iter_eq in H; [|assumption].
    destruct (left_right_spec h l x a (n :: b) Hok H) as [_ E1].
    replace (a ++ x :: n :: b) with ((a ++ [x]) ++ n :: b) in H by (rewrite <- app_assoc; reflexivity).
    destruct (left_right_spec h l n (a ++ [x]) b Hok H) as [E2 _]. rewrite E1, E2. split; [|reflexivity].
    unfold last_opt. rewrite rev_app_distr. reflexivity.
  - intros n b H. apply iter_eq in H; [|assumption]. destruct (left_right_spec h l n [] b Hok H) as [E _]. exact E.
  - intros a n H. apply iter_eq in H; [|assumption]. destruct (left_right_spec h l n a [] Hok H) as [_ E]. exact E.
  - intros n Hn. apply contains_iff in Hn. unfold node_left, node_right. rewrite Hn. auto.
Qed.

Lemma run_mid (a m b : list nid) : m <> [] -> run (a ++ m ++ b) (length a) (length a + length m - 1) = m.
Proof.
  intros Hm. unfold run. rewrite skipn_app, Nat.sub_diag, skipn_all. simpl skipn.
  assert (length m <> 0%nat) by (destruct m; simpl; congruence).
  replace (S (length a + length m - 1) - length a)%nat with (length m) by lia.
  simpl. rewrite firstn_app, Nat.sub_diag, firstn_all, firstn_O, app_nil_r. reflexivity.
Qed.

Lemma nodespan_runs h l : wf h ->
  (forall a x m y b, layer_iter h l = map Some (a ++ (x :: m ++ [y]) ++ b) ->
     new_nodespan h x y = Ok (x, y) /\ nodespan_iter h x y = Ok (x :: m ++ [y]) /\
     nodespan_len h x y = Ok (zlen m + 2) /\
     iter_span h x y = Ok (x :: m ++ [y]) /\ iter_span h y x = Ok (x :: m ++ [y]) /\
     new_nodespan h y x = Err AssertionError) /\
  (forall n, layer_contains h l n = true ->
     new_nodespan h n n = Ok (n, n) /\ nodespan_iter h n n = Ok [n] /\ nodespan_len h n n = Ok 1 /\ iter_span h n n = Ok [n]).
Proof.
  intros W. pose proof (wf_layers h W l) as Hok. split.
  - intros a x m y b H. apply iter_eq in H; [|assumption].
    assert (Hp : nth_error (content h l) (length a) = Some x).
    { rewrite H, nth_error_app2, Nat.sub_diag by lia. reflexivity. }
    assert (Hq : nth_error (content h l) (length a + length (x :: m ++ [y]) - 1) = Some y).
    { rewrite H. replace (a ++ (x :: m ++ [y]) ++ b) with ((a ++ x :: m) ++ y :: b).
      - rewrite nth_error_app2.
        + simpl length. rewrite !app_length. simpl length.
          replace (length a + S (length m + 1) - 1 - (length a + S (length m)))%nat with 0%nat by lia. reflexivity.
        + rewrite !app_length. simpl length. rewrite app_length. simpl. lia.
      - rewrite <- !app_assoc. simpl. rewrite <- app_assoc. reflexivity. }
    assert (Hle : (length a <= length a + length (x :: m ++ [y]) - 1)%nat) by (simpl; lia).
    destruct (nodespan_spec h l _ _ x y Hok Hp Hq Hle) as (E1 & E2 & E3 & E4 & E5).
    pose proof (run_mid a (x :: m ++ [y]) b ltac:(discriminate)) as Er. rewrite <- H in Er. rewrite Er in *.
    split; [assumption|]. split; [assumption|]. split.
    { rewrite E3. f_equal. simpl length. rewrite app_length. unfold zlen. simpl length. lia. }
    split; [assumption|]. split; [assumption|].
    pose proof (id_order h l _ _ x y Hok Hp Hq) as Ho.
    assert (Hlt : n_idof h x < n_idof h y) by (apply Ho; simpl; rewrite app_length; simpl; lia).
    assert (Cx : n_collof h x = Some l) by (apply layer_ok_member; [assumption|eapply nth_error_In; eauto]).
    assert (Cy : n_collof h y = Some l) by (apply layer_ok_member; [assumption|eapply nth_error_In; eauto]).
    pose proof (bound_pos h x l W Cx). pose proof (bound_pos h y l W Cy).
    unfold new_nodespan, node_i. rewrite Cy. destruct (Z.eqb_spec (n_idof h y) (-1)); [lia|].
    destruct (Z.eqb_spec (n_idof h x) (-1)); [lia|]. cbn [rbind].
    destruct (Z.leb_spec (n_idof h y) (n_idof h x)); [lia|reflexivity].
  - intros n Hn. apply contains_iff in Hn. pose proof Hn as Hin. apply layer_ok_member in Hin; [|assumption].
    destruct (in_split _ _ Hin) as (a & b & H).
    assert (Hp : nth_error (content h l) (length a) = Some n) by (rewrite H, nth_error_app2, Nat.sub_diag by lia; reflexivity).
    destruct (nodespan_spec h l _ _ n n Hok Hp Hp (le_n _)) as (E1 & E2 & E3 & E4 & _).
    pose proof (run_mid a [n] b ltac:(discriminate)) as Er. simpl app in Er. rewrite <- H in Er.
    simpl length in Er. replace (length a + 1 - 1)%nat with (length a) in Er by lia. rewrite Er in *.
    split; [assumption|]. split; [assumption|]. split; [|assumption]. rewrite E3. f_equal. lia.
Qed.

Lemma shrink_iter l h h' l' : shrink l h h' -> wf h -> wf h' -> l' <> l -> layer_iter h' l' = layer_iter h l'.
Proof. intros S W W' Hne. rewrite !iter_wf by assumption. rewrite (content_frame l h h') by (try apply S; assumption). reflexivity. Qed.

Lemma gone h n : wf h -> n_collof h n = None -> forall l, layer_contains h l n = false.
Proof. intros W H l. unfold layer_contains. rewrite H. reflexivity. Qed.

Definition raises_value_error {A} (r : res A) : Prop := r = Err ValueError.

Lemma remove_one_spec h l n h' r : wf h -> (l < h_lnext h)%nat -> layer_remove h l n = (h', r) ->
  wf h' /\ (forall m, n_fieldsof h' m = n_fieldsof h m) /\
  (forall l', l' <> l -> layer_iter h' l' = layer_iter h l') /\
  (layer_contains h l n = true ->
     r = Ok tt /\ layer_iter h' l = filter (fun o => negb (opt_lid_eqb o (Some n))) (layer_iter h l) /\
     forall l', layer_contains h' l' n = false) /\
  (layer_contains h l n = false -> h' = h /\ (r = Err ValueError \/ (r = Err AttributeError /\ n_collof h n = None /\ n_fieldsof h n <> []))).
Proof.
  intros W Hl E. destruct (remove_spec h l n h' r (wf_layers h W l) E) as (S & Ok1 & C).
  assert (W' : wf h') by (eapply wf_by_shrink; eauto).
  split; [assumption|]. split; [apply S|]. split; [intros; eapply shrink_iter; eauto|].
  rewrite (contains_mem h l n) by (apply wf_layers; assumption).
  destruct (mem_nid n (content h l)).
  - destruct C as (C1 & C2 & C3). split; [intros _|discriminate]. split; [assumption|]. split; [|apply gone; assumption].
    rewrite !iter_wf by assumption. rewrite C2. unfold without. clear. induction (content h l) as [|x c IH]; [reflexivity|].
    simpl. destruct (Nat.eqb_spec x n); simpl; [assumption|f_equal; assumption].
  - destruct C as (C1 & C2). split; [discriminate|]. intros _. split; [assumption|]. subst r. unfold value_error_repr. simpl.
    destruct (node_repr_ok h n) eqn:En; simpl; [left; reflexivity|]. right. split; [reflexivity|].
    unfold node_repr_ok in En. destruct (n_fieldsof h n); [discriminate|]. destruct (n_collof h n); [discriminate|].
    split; [reflexivity|discriminate].
Qed.

Lemma remove_list_spec h l b items h' r : wf h -> (l < h_lnext h)%nat -> layer_remove_many h l b items = (h', r) ->
  wf h' /\ (forall m, n_fieldsof h' m = n_fieldsof h m) /\
  (forall l', l' <> l -> layer_iter h' l' = layer_iter h l') /\
  (forall c, layer_iter h l = map Some c ->
     layer_iter h' l = map Some (fst (list_remove c items)) /\
     (forall n, In n c -> ~ In n (fst (list_remove c items)) -> forall l', layer_contains h' l' n = false) /\
     (snd (list_remove c items) = true -> r = Ok tt) /\
     (snd (list_remove c items) = false -> r = Err ValueError \/ r = Err AttributeError) /\
     (snd (list_remove c items) = false -> b = false -> r = Err ValueError)).
Proof.
  intros W Hl E. pose proof (wf_layers h W l) as Hok.
  destruct (remove_many_spec h l b items h' r Hok E) as (S & Ok1 & C & D & Hr).
  assert (W' : wf h') by (eapply wf_by_shrink; eauto).
  split; [assumption|]. split; [apply S|]. split; [intros; eapply shrink_iter; eauto|].
  intros c Hc. apply iter_eq in Hc; [|assumption]. subst c.
  split; [rewrite iter_wf, C by assumption; reflexivity|].
  split; [intros n Hin Hni; apply gone; [assumption|]; apply D; [apply layer_ok_member; assumption|rewrite C; assumption]|].
  destruct (snd (list_remove (content h l) items)).
  - split; [auto|]. split; discriminate.
  - split; [discriminate|]. split.
    + intros _. destruct Hr as [-> | ->]; [auto|]. unfold value_error_repr. destruct (forallb _ _); auto.
    + intros _ ->. destruct Hr as [-> | ->]; reflexivity.
Qed.

Lemma compact_invisible h l : wf h ->
  wf (compact h l) /\ (forall l', layer_iter (compact h l) l' = layer_iter h l' /\ layer_len (compact h l) l' = layer_len h l') /\
  (forall n, n_fieldsof (compact h l) n = n_fieldsof h n) /\
  (forall l' n, layer_contains (compact h l) l' n = layer_contains h l' n) /\
  (forall p n, nth_error (layer_iter (compact h l) l) p = Some (Some n) -> node_i (compact h l) n = Ok (Z.of_nat p)).
Proof.
  intros W. pose proof (wf_layers h W l) as Hok. pose proof (wf_compact h l W) as W'.
  destruct (compact_spec h l Hok) as (F & En & Ek & Hr1 & Hr2 & Hr3).
  split; [assumption|]. split.
  { intros l'. rewrite !iter_wf by assumption. rewrite compact_content by assumption. split; [reflexivity|].
    unfold layer_len. rewrite (ok_num _ _ (wf_layers _ W' l')), (ok_num _ _ (wf_layers _ W l')), compact_content by assumption. reflexivity. }
  split; [intros n; apply Hr1|].
  split; [intros l' n; unfold layer_contains; destruct (Hr1 n) as [_ ->]; reflexivity|].
  intros p n Hp. eapply position_spec; eauto. unfold no_gaps. rewrite En. intros Hx. apply in_map_iff in Hx. destruct Hx as (? & ? & _). discriminate.
Qed.

Lemma auto_compact_bound h l : layer_ok h l ->
  zlen (l_nodesof (auto_compact h l) l) <= 16 \/ 3 * zlen (l_nodesof (auto_compact h l) l) <= 4 * layer_len (auto_compact h l) l.
Proof.
  intros Hok. unfold auto_compact. destruct ((4 * l_numof h l <? 3 * zlen (l_nodesof h l)) && (16 <? zlen (l_nodesof h l))) eqn:E.
  - right. destruct (compact_spec h l Hok) as (F & En & Ek & _). unfold layer_len. rewrite En, Ek, (ok_num _ _ Hok).
    unfold zlen. rewrite map_length. lia.
  - apply andb_false_iff in E. destruct E as [E|E]; [right|left].
    + unfold layer_len. destruct (Z.ltb_spec (4 * l_numof h l) (3 * zlen (l_nodesof h l))); [discriminate|lia].
    + destruct (Z.ltb_spec 16 (zlen (l_nodesof h l))); [discriminate|lia].
Qed.

(** slots used by a layer: its nodes and the gaps between them *)
Definition slots (h : heap) (l : lid) : Z := zlen (l_nodesof h l).

Lemma remove_bounds_gaps h l b items h' : wf h -> layer_remove_many h l b items = (h', Ok tt) ->
  slots h' l <= 16 \/ 3 * slots h' l <= 4 * layer_len h' l.
Proof.
  intros W E. unfold layer_remove_many in E.
  destruct (remove_loop h l (if b then ritem_nodes items else []) items) as [h1 r1] eqn:E1.
  destruct (remove_loop_spec l _ items h (wf_layers h W l) h1 r1 E1) as (_ & Ok1 & _).
  destruct r1 as [[]|e]; [|discriminate]. injection E as <-. apply auto_compact_bound. assumption.
Qed.
Lemma remove1_bounds_gaps h l n h' : wf h -> layer_remove h l n = (h', Ok tt) ->
  slots h' l <= 16 \/ 3 * slots h' l <= 4 * layer_len h' l.
Proof.
  intros W E. unfold layer_remove in E. destruct (layer_contains h l n) eqn:Ec; [|discriminate].
  apply contains_iff in Ec. destruct (drop_node_spec h l n (wf_layers h W l) Ec) as (h1 & E1 & _ & Ok1 & _).
  rewrite E1 in E. injection E as <-. apply auto_compact_bound. assumption.
Qed.

Lemma compile_invisible h ls : wf h -> Forall (fun l => (l < h_lnext h)%nat) ls ->
  let h' := fold_left layer_prepare ls h in
  wf h' /\ (forall l, layer_iter h' l = layer_iter h l /\ layer_len h' l = layer_len h l) /\
  (forall n, n_fieldsof h' n = n_fieldsof h n) /\
  (forall l n, layer_contains h' l n = layer_contains h l n) /\
  (forall l p n, In l ls -> nth_error (layer_iter h' l) p = Some (Some n) -> node_i h' n = Ok (Z.of_nat p)).
Proof.
  intros W Hl. destruct (prepare_all_spec ls h W Hl) as (W' & C & N1 & N2 & F & G & _). cbv zeta in *.
  split; [assumption|]. split.
  { intros l. rewrite !iter_wf by assumption. rewrite C. split; [reflexivity|].
    unfold layer_len. rewrite (ok_num _ _ (wf_layers _ W' l)), (ok_num _ _ (wf_layers _ W l)), C. reflexivity. }
  split; [intros n; apply F|].
  split; [intros l n; unfold layer_contains; destruct (F n) as [_ ->]; reflexivity|].
  intros l p n Hin Hp. eapply position_spec; eauto.
Qed.

Lemma sort_stable_spec {K} (leb : K -> K -> bool) (keyfn : nid -> res K) (key : nid -> K) h l c :
  (forall x y, leb x y = true \/ leb y x = true) ->
  (forall x y z, leb x y = true -> leb y z = true -> leb x z = true) ->
  wf h -> (l < h_lnext h)%nat -> layer_iter h l = map Some c -> (forall n, In n c -> keyfn n = Ok (key n)) ->
  exists h' c', layer_sort leb keyfn h l = (h', Ok tt) /\ wf h' /\ layer_iter h' l = map Some c' /\
    Permutation c c' /\ StronglySorted (fun x y => leb (key x) (key y) = true) c' /\
    (forall z, filter (fun x => leb (key z) (key x) && leb (key x) (key z)) c' =
               filter (fun x => leb (key z) (key x) && leb (key x) (key z)) c) /\
    (forall n, n_fieldsof h' n = n_fieldsof h n) /\
    (forall l', l' <> l -> layer_iter h' l' = layer_iter h l') /\
    (forall p n, nth_error c' p = Some n -> node_i h' n = Ok (Z.of_nat p)).
Proof.
  intros Ht Htr W Hl Hc Hk. apply iter_eq in Hc; [|assumption]. subst c. pose proof (wf_layers h W l) as Hok.
  destruct (list_sort_total leb keyfn key (content h l) Hk) as [Em Es].
  destruct (sort_spec leb keyfn h l _ Hok Em) as (h' & E & S & Ok1 & G & C & _).
  assert (W' : wf h') by (eapply wf_by_shrink; eauto).
  exists h', (ssort key leb (content h l)). rewrite Es in C.
  split; [assumption|]. split; [assumption|]. split; [rewrite iter_wf, C by assumption; reflexivity|].
  split; [apply ssort_perm|]. split; [apply ssort_sorted; assumption|].
  split; [intros z; apply (ssort_stable key leb Htr z)|]. split; [apply S|].
  split; [intros; eapply shrink_iter; eauto|].
  intros p n Hp. apply (position_spec h' l p n W' G). rewrite iter_wf, C by assumption. rewrite nth_error_map, Hp. reflexivity.
Qed.

Lemma sort_raises_spec {K} (leb : K -> K -> bool) (keyfn : nid -> res K) h l c n e h' r :
  wf h -> layer_iter h l = map Some c -> In n c -> keyfn n = Err e -> layer_sort leb keyfn h l = (h', r) ->
  wf h' /\ (exists e', r = Err e') /\ (forall l', layer_iter h' l' = layer_iter h l') /\ (forall n, n_fieldsof h' n = n_fieldsof h n).
Proof.
  intros W Hc Hin He E. apply iter_eq in Hc; [|assumption]. subst c. pose proof (wf_layers h W l) as Hok.
  assert (Hm : exists e', mapM keyfn (content h l) = Err e').
  { revert Hin. generalize (content h l). induction l0 as [|m c IH]; [intros []|]. intros Hin. simpl.
    destruct (keyfn m) as [k|e0] eqn:Ek; simpl; [|eauto]. destruct Hin as [->|Hin]; [congruence|]. destruct (IH Hin) as [e' ->]. simpl. eauto. }
  destruct Hm as [e' Hm]. rewrite (sort_raises leb keyfn h l e' Hok Hm) in E. injection E as <- <-.
  destruct (compact_invisible h l W) as (W' & I & F & _). split; [assumption|]. split; [eauto|]. split; [apply I|assumption].
Qed.

Lemma retain_keeps h l ns h' r c : wf h -> (l < h_lnext h)%nat -> no_gaps h l -> layer_iter h l = map Some c ->
  (forall n, In n ns -> In n c) -> layer_retain h l (map Some ns) = (h', r) ->
  r = Ok tt /\ wf h' /\ layer_iter h' l = map Some (filter (fun n => mem_nid n ns) c) /\
  (forall n, In n c -> ~ In n ns -> forall l', layer_contains h' l' n = false) /\
  (forall n, n_fieldsof h' n = n_fieldsof h n) /\ (forall l', l' <> l -> layer_iter h' l' = layer_iter h l') /\
  (forall p n, nth_error (layer_iter h' l) p = Some (Some n) -> node_i h' n = Ok (Z.of_nat p)).
Proof.
  intros W Hl G Hc Hin E. apply iter_eq in Hc; [|assumption]. subst c. pose proof (wf_layers h W l) as Hok.
  assert (Hin' : forall n, In (Some n) (map Some ns) -> n_collof h n = Some l).
  { intros n Hn. apply In_map_some in Hn. apply layer_ok_member; auto. }
  assert (Hnone : ~ In None (map (@Some nid) ns)) by (intros X; apply in_map_iff in X; destruct X as (? & ? & _); discriminate).
  destruct (retain_spec h l _ Hok G Hin' Hnone) as (h1 & E1 & S & Ok1 & G1 & C & D). rewrite E1 in E. injection E as <- <-.
  assert (W' : wf h1) by (eapply wf_by_shrink; eauto).
  assert (El : list_retain (content h l) (map Some ns) = filter (fun n => mem_nid n ns) (content h l)).
  { unfold list_retain. apply filter_ext. intros n. unfold mem_nid. clear. induction ns as [|m ns IH]; [reflexivity|]. simpl. rewrite (Nat.eqb_sym m n). f_equal. apply IH. }
  rewrite El in C. split; [reflexivity|]. split; [assumption|]. split; [rewrite iter_wf, C by assumption; reflexivity|].
  split; [|split; [apply S|split; [intros; eapply shrink_iter; eauto|intros; eapply position_spec; eauto]]].
  intros n Hn1 Hn2. apply gone; [assumption|]. apply D; [assumption|]. rewrite C, filter_In. intros [_ X]. apply mem_nid_In in X. contradiction.
Qed.

Lemma add_atomic h l kw h' r : wf h -> (l < h_lnext h)%nat -> NoDup (dkeys kw) -> layer_add_kw h l kw = (h', r) ->
  (exists n, r = Ok n /\ wf h' /\ (forall l', layer_contains h l' n = false) /\
     layer_iter h' l = layer_iter h l ++ [Some n] /\
     (forall k, dget (n_fieldsof h' n) k =
        match dget kw k with
        | Some v => Some v
        | None => match dget (l_fields (h_layer h l)) k with Some d => dt_default d | None => None end
        end) /\
     validate h' l n = Ok true /\
     (forall l', l' <> l -> layer_iter h' l' = layer_iter h l') /\
     (forall m, m <> n -> n_fieldsof h' m = n_fieldsof h m)) \/
  (exists e, r = Err e /\ h' = h).
Proof.
  intros W Hl Hnd E. pose proof (add_kw_spec h l kw h' r W Hl E) as S. destruct r as [n|e]; [left|right; eauto].
  destruct S as (W' & En & Ec & El & Em & Ef & Eco & Es & Ed & _ & _ & _ & Ev & _). exists n.
  split; [reflexivity|]. split; [assumption|].
  split; [intros l'; apply gone; [assumption|]; apply wf_fresh_n; [assumption|subst n; lia]|].
  split; [rewrite !iter_wf by assumption; rewrite Ec, map_app; reflexivity|]. split.
  { intros k. rewrite Ef, dget_dupdate by assumption. destruct (dget kw k); [reflexivity|].
    rewrite (wf_defaults h W), dget_defaults by (apply wf_schema; assumption). reflexivity. }
  split; [assumption|]. split.
  - intros l' Hne. rewrite !iter_wf by assumption. rewrite (content_layer h h' l') by auto. reflexivity.
  - intros m Hm. unfold n_fieldsof. rewrite Em by assumption. reflexivity.
Qed.

Lemma add_many_main h l one_shot ns df fv h' r : wf h -> (l < h_lnext h)%nat -> Forall (fun n => (n < h_nnext h)%nat) (live ns) ->
  layer_add_many h l one_shot ns df fv = (h', r) ->
  let added := fst (take_unbound (is_bound h) [] ns) in
  let ok := snd (take_unbound (is_bound h) [] ns) in
  wf h' /\ layer_iter h' l = layer_iter h l ++ map Some added /\
  (forall l', l' <> l -> layer_iter h' l' = layer_iter h l') /\
  (forall n, ~ In n added -> n_fieldsof h' n = n_fieldsof h n) /\
  match r with
  | Ok _ => ok = true /\ map Some added = ns /\
      (forall n, In n added -> forall k, dget (n_fieldsof h' n) k =
         match dget (n_fieldsof h n) k with
         | Some v => Some v
         | None => if df then match dget (l_fields (h_layer h l)) k with Some d => dt_default d | None => None end else None
         end) /\
      (fv = true -> one_shot = false -> df = false -> forall n, In n added -> validate h' l n = Ok true)
  | Err e => (forall n, n_fieldsof h' n = n_fieldsof h n) /\
      ((ok = false /\ e = AssertionError) \/
       (ok = true /\ fv = true /\ one_shot = false /\ exists n, In n added /\ validate h' l n <> Ok true))
  end.
Proof.
  intros W Hl Ha E. cbv zeta. destruct (add_many_spec h l one_shot ns df fv h' r W Hl Ha E) as (W' & F & Es & Ec & Ef & Er). cbv zeta in *.
  split; [assumption|].
  split; [rewrite !iter_wf by assumption; unfold content; rewrite Es, live_app, live_map_some, map_app; reflexivity|].
  split; [intros l' Hne; rewrite !iter_wf by assumption; rewrite (content_frame l h h') by assumption; reflexivity|].
  split; [intros n Hn; apply Ef; destruct (mem_nid n _) eqn:X; [apply mem_nid_In in X; contradiction|reflexivity]|].
  destruct r as [[]|e]; [|assumption]. destruct Er as (E1 & E2 & E3). split; [assumption|].
  split; [apply (take_unbound_all ns (is_bound h) []); rewrite <- E1; apply surjective_pairing|]. split; [|assumption].
  intros n Hn k. rewrite (E2 n Hn k). rewrite (wf_defaults h W), dget_defaults by (apply wf_schema; assumption). reflexivity.
Qed.

Lemma add_field_main h l name d init h' r : wf h -> layer_add_field h l name d init = (h', r) ->
  wf h' /\ (forall l', layer_iter h' l' = layer_iter h l') /\
  match r with
  | Ok _ => dget (l_fields (h_layer h l)) name = None /\ l_fields (h_layer h' l) = l_fields (h_layer h l) ++ [(name, d)]
  | Err _ => dget (l_fields (h_layer h l)) name <> None /\ h' = h
  end /\
  (forall n k, (n_fieldsof h' n = n_fieldsof h n \/ layer_contains h l n = true) /\
     (k <> name -> dget (n_fieldsof h' n) k = dget (n_fieldsof h n) k)) /\
  (r = Ok tt -> init = true -> forall n v, layer_contains h l n = true -> dt_default d = Some v ->
     dget (n_fieldsof h' n) name = Some v) /\
  (init = false \/ dt_default d = None -> forall n, n_fieldsof h' n = n_fieldsof h n).
Proof.
  intros W E. destruct (dget (l_fields (h_layer h l)) name) as [x|] eqn:Ek.
  - unfold layer_add_field, dmem in E. rewrite Ek in E. injection E as <- <-. split; [assumption|]. split; [auto|].
    split; [split; [discriminate|reflexivity]|]. split; [auto|]. split; [discriminate|auto].
  - destruct (add_field_spec h l name d init W Ek) as (h1 & E1 & W1 & Efs & Es & _ & _ & _ & Ei & Ef). rewrite E1 in E. injection E as <- <-.
    split; [assumption|].
    split; [intros l'; rewrite !iter_wf by assumption; unfold content; destruct (Es l') as [-> _]; reflexivity|].
    split; [auto|]. split; [|split].
    + intros n k. rewrite Ef. rewrite (contains_mem h l n) by (apply wf_layers; assumption).
      destruct init; [|simpl; auto]. simpl. destruct (mem_nid n (content h l)); [|auto]. destruct (dt_default d); [|auto].
      split; [auto|]. intros Hk. apply dget_dset_other. assumption.
    + intros _ -> n v Hn Hd. rewrite Ef. rewrite (contains_mem h l n) in Hn by (apply wf_layers; assumption). rewrite Hn, Hd. simpl.
      apply dget_dset_same.
    + intros [-> | Hd] n; rewrite Ef; [reflexivity|]. rewrite Hd. destruct (init && _); reflexivity.
Qed.

Lemma remove_field_main h l name leave h' r : wf h -> wf_keys h -> layer_remove_field h l name leave = (h', r) ->
  wf h' /\ (forall l', layer_iter h' l' = layer_iter h l') /\
  (dmem (l_fields (h_layer h l)) name = false -> r = Ok false /\ h' = h) /\
  (dmem (l_fields (h_layer h l)) name = true ->
     r = Ok true /\ dget (l_fields (h_layer h' l)) name = None /\
     (forall k, k <> name -> dget (l_fields (h_layer h' l)) k = dget (l_fields (h_layer h l)) k) /\
     (leave = true -> forall n, n_fieldsof h' n = n_fieldsof h n) /\
     (leave = false -> forall n, layer_contains h l n = true -> dget (n_fieldsof h' n) name = None)) /\
  (forall n k, (n_fieldsof h' n = n_fieldsof h n \/ layer_contains h l n = true) /\
     (k <> name -> dget (n_fieldsof h' n) k = dget (n_fieldsof h n) k)).
Proof.
  intros W Wk E. pose proof (remove_field_spec h l name leave W) as S. destruct (dmem (l_fields (h_layer h l)) name).
  - destruct S as (h1 & E1 & W1 & Efs & Es & _ & _ & _ & Ei & Ef). rewrite E1 in E. injection E as <- <-.
    split; [assumption|].
    split; [intros l'; rewrite !iter_wf by assumption; unfold content; destruct (Es l') as [-> _]; reflexivity|].
    split; [discriminate|]. split.
    + intros _. split; [reflexivity|]. rewrite Efs. split; [apply dget_ddel_same, wf_schema; assumption|].
      split; [intros k Hk; apply dget_ddel_other; assumption|].
      split; [intros -> n; rewrite Ef; reflexivity|].
      intros -> n Hn. rewrite Ef. rewrite (contains_mem h l n) in Hn by (apply wf_layers; assumption). rewrite Hn. simpl.
      apply dget_ddel_same. apply Wk.
    + intros n k. rewrite Ef. rewrite (contains_mem h l n) by (apply wf_layers; assumption).
      destruct leave; [simpl; auto|]. simpl. destruct (mem_nid n (content h l)); [|auto]. split; [auto|].
      intros Hk. apply dget_ddel_other. assumption.
  - rewrite S in E. injection E as <- <-. split; [assumption|]. split; [auto|]. split; [auto|]. split; [discriminate|auto].
Qed.

(** add_field then remove_field on a layer no node of which has that key *)
Lemma add_remove_field h l name d h1 h2 r2 : wf h -> dget (l_fields (h_layer h l)) name = None ->
  (forall n, layer_contains h l n = true -> dget (n_fieldsof h n) name = None) ->
  layer_add_field h l name d true = (h1, Ok tt) -> layer_remove_field h1 l name false = (h2, r2) ->
  r2 = Ok true /\ l_fields (h_layer h2 l) = l_fields (h_layer h l) /\
  (forall n, n_fieldsof h2 n = n_fieldsof h n) /\ (forall l', layer_iter h2 l' = layer_iter h l').
Proof.
  intros W Hno Hk E1 E2. destruct (add_field_spec h l name d true W Hno) as (h1' & E1' & W1 & Efs & Es & _ & _ & _ & Ei & Ef).
  rewrite E1 in E1'. injection E1' as <-.
  pose proof (remove_field_spec h1 l name false W1) as S.
  assert (Hm : dmem (l_fields (h_layer h1 l)) name = true).
  { unfold dmem. rewrite Efs, dget_app, Hno. simpl. rewrite str_eqb_refl. reflexivity. }
  rewrite Hm in S. destruct S as (h2' & E2' & W2 & Gfs & Gs & _ & _ & _ & Gi & Gf). rewrite E2 in E2'. injection E2' as <- ->.
  split; [reflexivity|]. split; [rewrite Gfs, Efs; apply ddel_app_absent; assumption|].
  assert (Ec : content h1 l = content h l) by (unfold content; destruct (Es l) as [-> _]; reflexivity).
  split.
  - intros n. rewrite Gf, Ef, Ec. simpl. destruct (mem_nid n (content h l)) eqn:Em; [|reflexivity].
    assert (Hn : dget (n_fieldsof h n) name = None).
    { apply Hk. rewrite (contains_mem h l n) by (apply wf_layers; assumption). assumption. }
    destruct (dt_default d).
    + rewrite dset_absent by assumption. apply ddel_app_absent. assumption.
    + apply ddel_absent. assumption.
  - intros l'. rewrite !iter_wf by assumption. unfold content. destruct (Gs l') as [-> _]. destruct (Es l') as [-> _]. reflexivity.
Qed.

(** ** sample states *)
Fixpoint ops_ok {K} (leb : K -> K -> bool) (h : heap) (os : list (@lop K)) : Prop :=
  match os with
  | [] => True
  | o :: r => op_ok h o /\ ops_ok leb (fst (exec leb h o)) r
  end.
Lemma ops_ok_hist {K} (leb : K -> K -> bool) os : forall h a, ops_ok leb h os -> exists a', hist leb h a os (exec_all leb h os) a'.
Proof.
  induction os as [|o os IH]; intros h a H; simpl in *; [exists a; constructor|]. destruct H as [H1 H2].
  destruct (exec leb h o) as [h1 ok] eqn:E. destruct (IH h1 (spec_step leb h a o ok) H2) as [a' Ha]. exists a'.
  econstructor; eauto.
Qed.
Lemma ops_ok_wf {K} (leb : K -> K -> bool) os : ops_ok leb empty_heap os -> wf (exec_all leb empty_heap os).
Proof. intros H. destruct (ops_ok_hist leb os empty_heap a_empty H) as [a Ha]. apply (reachable_wf leb). exists os, a. assumption. Qed.

(** a check of op_ok that can be run (retain and positional add left out) *)
Fixpoint nodupb {B} (d : dict B) : bool :=
  match d with [] => true | (k, _) :: r => negb (existsb (str_eqb k) (dkeys r)) && nodupb r end.
Lemma nodupb_sound {B} (d : dict B) : nodupb d = true -> NoDup (dkeys d).
Proof.
  induction d as [|[k v] d IH]; simpl; [constructor|]. intros H. apply andb_true_iff in H. destruct H as [H1 H2].
  constructor; [|auto]. intros Hin. apply negb_true_iff in H1. assert (existsb (str_eqb k) (dkeys d) = true); [|congruence].
  apply existsb_exists. exists k. split; [assumption|apply str_eqb_refl].
Qed.
Definition op_okb {K} (h : heap) (o : @lop K) : bool :=
  match o with
  | ONode f => nodupb f
  | OLayer _ fs => nodupb fs
  | OAdd l kw => (l <? h_lnext h)%nat && nodupb kw
  | OAddMany l _ ns _ _ => (l <? h_lnext h)%nat && forallb (fun n => n <? h_nnext h)%nat (live ns)
  | ORemove l _ | ORemoveMany l _ _ | OSort l _ | OCompact l | OAddField l _ _ _ | ORemoveField l _ _ => (l <? h_lnext h)%nat
  | OCompile ls => forallb (fun l => l <? h_lnext h)%nat ls
  | ODetach _ | OSetField _ _ _ | ODelField _ _ => true
  | OAddNodes _ _ | ORetain _ _ => false
  end.
Lemma ltb_all h (ls : list nat) : forallb (fun l => l <? h)%nat ls = true -> Forall (fun l => (l < h)%nat) ls.
Proof. rewrite forallb_forall, Forall_forall. intros H x Hx. apply Nat.ltb_lt. auto. Qed.
Lemma op_okb_sound {K} h (o : @lop K) : op_okb h o = true -> op_ok h o.
Proof.
  destruct o; cbn [op_okb op_ok]; intros H; try discriminate; try exact I; try (apply Nat.ltb_lt; assumption);
    try (apply nodupb_sound; assumption); try (apply ltb_all; assumption);
    apply andb_true_iff in H; destruct H as [H1 H2]; apply Nat.ltb_lt in H1; (split; [assumption|]);
    [apply nodupb_sound|apply ltb_all]; assumption.
Qed.
Fixpoint ops_okb {K} (leb : K -> K -> bool) (h : heap) (os : list (@lop K)) : bool :=
  match os with
  | [] => true
  | o :: r => op_okb h o && ops_okb leb (fst (exec leb h o)) r
  end.
Lemma ops_okb_sound {K} (leb : K -> K -> bool) os : forall h, ops_okb leb h os = true -> ops_ok leb h os.
Proof.
  induction os as [|o os IH]; intros h H; cbn [ops_ok ops_okb] in *; [exact I|]. apply andb_true_iff in H. destruct H as [H1 H2].
  split; [apply op_okb_sound; assumption|auto].
Qed.

(** a layer of tokens with one integer field, six nodes, two of them removed *)
Definition demo_ops : list (@lop Z) :=
  [ OLayer (s "token") [(s "id", T_int32 (VInt 0)); (s "w", T_string VNone)];
    OAdd 0%nat [(s "id", VInt 3)]; OAdd 0%nat [(s "id", VInt 1); (s "w", VStr (s "a"))]; OAdd 0%nat [(s "id", VInt 2)];
    OAdd 0%nat []; OAdd 0%nat [(s "id", VInt 1)]; OAdd 0%nat [(s "id", VStr [])]; OAdd 0%nat [(s "id", VInt 9)];
    ORemove 0%nat 2%nat; ORemoveMany 0%nat true [RNode 5%nat; RNone; RNode 2%nat] ].
Definition demo : heap := exec_all Z.leb empty_heap demo_ops.
Lemma demo_ok : ops_ok Z.leb empty_heap demo_ops.
Proof. apply ops_okb_sound. vm_compute. reflexivity. Qed.
Lemma demo_wf : wf demo. Proof. apply ops_ok_wf. apply demo_ok. Qed.
