(** Java's groups are Python's. *)
From Verif Require Import PyBase PyBaseFacts Model_Heap Model_Layer Model_Text Model_Types Model_Document Model_Query Model_Algorithm Model_JGroup
  Spec_Algorithm Spec_JGroup Proof_Algorithm3 Proof_Algorithm4 Proof_Algorithm5 Proof_Query Proof_JGroup.
From Coq Require Import Sorting.Sorted Sorting.Permutation.
Local Open Scope Z_scope.

Lemma str_cmp_trans a : forall b c, str_cmp a b = Lt -> str_cmp b c = Lt -> str_cmp a c = Lt.
Proof.
  induction a as [|x a IH]; intros [|y b] [|z c]; simpl; try discriminate; auto.
  destruct (N.compare_spec x y) as [->|L|L]; try discriminate; destruct (N.compare_spec y z) as [->|L'|L']; try discriminate; intros H1 H2.
  - eapply IH; eassumption.
  - reflexivity.
  - apply N.compare_lt_iff in L. rewrite L. reflexivity.
  - assert (E : (x ?= z)%N = Lt) by (apply N.compare_lt_iff; lia). rewrite E. reflexivity.
Qed.
Lemma jstr_refl x : jstr_leb x x = true.
Proof. unfold jstr_leb. rewrite str_cmp_refl. reflexivity. Qed.
Lemma jstr_lt x y : str_cmp x y = Lt -> jstr_leb x y = true.
Proof. unfold jstr_leb. intros ->. reflexivity. Qed.

(** ** TreeMap *)
Lemma tm_get {V} k (v : V) m k' : dget (tm_put k v m) k' = if str_eqb k' k then Some v else dget m k'.
Proof.
  induction m as [|[x w] m IH]; [reflexivity|]. simpl. destruct (str_cmp k x) eqn:E.
  - apply str_cmp_eq in E. subst x. simpl. destruct (str_eqb k' k); reflexivity.
  - reflexivity.
  - simpl. rewrite IH. destruct (str_eqb_spec k' x) as [->|]; [|reflexivity]. destruct (str_eqb_spec x k) as [->|]; [|reflexivity].
    rewrite str_cmp_refl in E. discriminate E.
Qed.
Lemma tm_keys {V} k (v : V) m x : In x (dkeys (tm_put k v m)) -> x = k \/ In x (dkeys m).
Proof.
  induction m as [|[y w] m IH]; simpl; [intuition|]. destruct (str_cmp k y); simpl; [auto|intros [->|[->|I]]; auto|]. intros [->|I]; [auto|]. destruct (IH I); auto.
Qed.
Lemma tm_sorted {V} k (v : V) m : StronglySorted key_lt (dkeys m) -> StronglySorted key_lt (dkeys (tm_put k v m)).
Proof.
  induction m as [|[y w] m IH]; intros H; [repeat constructor|]. simpl in *. inversion H as [|? ? Hs F]; subst. destruct (str_cmp k y) eqn:E; simpl.
  - exact H.
  - constructor; [exact H|]. constructor; [exact E|]. revert F. apply Forall_impl. intros z L. eapply str_cmp_trans; eassumption.
  - constructor; [exact (IH Hs)|]. apply Forall_forall. intros z I. apply tm_keys in I. destruct I as [->|I].
    + unfold key_lt. rewrite str_cmp_anti, E. reflexivity.
    + rewrite Forall_forall in F. exact (F z I).
Qed.
Lemma called_snoc b calls c : called b (calls ++ [c]) = add_group (called b calls) (fst c) (fst (snd c)) (snd (snd c)).
Proof. unfold called. rewrite fold_left_app. reflexivity. Qed.
Lemma called_rest b calls : bg_groups (called b calls) = bg_groups b /\ bg_field (called b calls) = bg_field b /\ bg_cover (called b calls) = bg_cover b /\ bg_empty (called b calls) = bg_empty b.
Proof. revert b. induction calls as [|c calls IH]; intros b; [auto|]. exact (IH (add_group b (fst c) (fst (snd c)) (snd (snd c)))). Qed.
Theorem called_layers b calls : bg_layers b = [] -> bg_fields b = [] ->
  StronglySorted key_lt (dkeys (bg_layers (called b calls))) /\
  (forall name, dget (bg_layers (called b calls)) name = option_map fst (last_call calls name)) /\
  (forall name, dget (bg_fields (called b calls)) name = option_map snd (last_call calls name)).
Proof.
  intros E1 E2. induction calls as [|c calls IH] using rev_ind.
  - simpl. rewrite E1, E2. repeat split; constructor.
  - rewrite called_snoc. destruct IH as (I1 & I2 & I3). unfold last_call in *. rewrite rev_app_distr. destruct c as [x [ns lf]]. simpl. split; [|split].
    + apply tm_sorted. exact I1.
    + intros name. rewrite tm_get, I2. destruct (str_eqb name x); reflexivity.
    + intros name. rewrite tm_get, I3. destruct (str_eqb name x); reflexivity.
Qed.

(** ** the points *)
Lemma order_same a c : good_type a -> good_type c ->
  (fst (snd a) = None \/ exists x y, fst (snd a) = Some x /\ fst (snd c) = Some y /\ jstr_leb x y = true) ->
  gpoint_leb a c = lex_leb (fst (conv a)) (fst (conv c)).
Proof.
  intros Ga Gc H. apply eq_true_iff_eq. rewrite lex_leb_iff. unfold gpoint_leb, conv, pytype. destruct a as [[oa ta] [la na]], c as [[oc tc] [lc nc]]. cbn [fst snd] in *.
  unfold good_type, group_type, layer_type in Ga, Gc. cbn [fst snd] in Ga, Gc.
  destruct (Z.eqb_spec oa oc) as [->|No]; [|rewrite Z.ltb_lt; lia].
  destruct H as [->|(x & y & -> & -> & L)].
  - destruct lc as [y|]; destruct Ga as [-> |[-> |[-> | ->]]], Gc as [-> |[-> |[-> | ->]]]; simpl; lia.
  - rewrite L. destruct Ga as [-> |[-> |[-> | ->]]], Gc as [-> |[-> |[-> | ->]]]; simpl; lia.
Qed.
Lemma layer_points_conv h fields ls :
  (forall k ns, In (k, ns) ls -> exists lf, dget fields k = Some lf /\ forall n, In n ns -> span_or_absent h lf n) ->
  StronglySorted key_lt (dkeys ls) ->
  exists pts, layer_points h fields ls = Ok pts /\ layers_events h (Some fields) ls = Ok (map conv pts) /\
    ForallOrdPairs (fun a c => gpoint_leb a c = lex_leb (fst (conv a)) (fst (conv c))) pts /\
    forall e, In e pts -> good_type e /\ exists k ns lf, fst (snd e) = Some k /\ In (k, ns) ls /\ In (snd (snd e)) ns /\ dget fields k = Some lf /\
      exists p, span_at h (snd (snd e)) lf p.
Proof.
  induction ls as [|[k ns] ls IH]; intros H St.
  - exists []. split; [reflexivity|]. split; [reflexivity|]. split; [constructor|]. intros e [].
  - simpl in St. inversion St as [|? ? St' F]; subst. destruct (IH (fun x xs I => H x xs (or_intror I)) St') as (pts & P1 & P2 & P3 & P4).
    destruct (H k ns (or_introl eq_refl)) as (lf & El & Hs).
    destruct (jpoints_conv h lf 1 (-1) 4 6 1 (-1) (Some k) ns Hs eq_refl eq_refl eq_refl eq_refl) as (ps & Q1 & Q2 & Q3).
    cbn [layer_points layers_events span_name]. unfold dgetE. rewrite El. cbn [rbind]. rewrite Q1, Q2, P1, P2. cbn [rbind].
    exists (ps ++ pts). split; [reflexivity|]. split; [rewrite map_app; reflexivity|].
    assert (Gp : forall e, In e ps -> good_type e).
    { intros e I. destruct (Q3 e I) as (E1 & _ & _ & E2). unfold good_type. rewrite E1. unfold layer_type. tauto. }
    split.
    + apply fop_app; [|exact P3|].
      * apply fop_all. intros a c Ia Ic. apply order_same; [auto|auto|]. right. exists k, k. rewrite (proj1 (Q3 a Ia)), (proj1 (Q3 c Ic)). split; [reflexivity|split; [reflexivity|apply jstr_refl]].
      * intros a c Ia Ic. destruct (P4 c Ic) as (Gc & k' & ns' & lf' & E1 & E2 & _). apply order_same; [auto|exact Gc|]. right. exists k, k'.
        rewrite (proj1 (Q3 a Ia)), E1. split; [reflexivity|]. split; [reflexivity|]. apply jstr_lt. rewrite Forall_forall in F. apply F. change k' with (fst (k', ns')). apply in_map. exact E2.
    + intros e I. apply in_app_or in I. destruct I as [I|I].
      * split; [auto|]. destruct (Q3 e I) as (E1 & E2 & E3 & _). exists k, ns, lf. split; [exact E1|]. split; [left; reflexivity|]. split; [exact E2|]. split; [exact El|exact E3].
      * destruct (P4 e I) as (G1 & k' & ns' & lf' & E1 & E2 & E3). split; [exact G1|]. exists k', ns', lf'. split; [exact E1|]. split; [right; exact E2|exact E3].
Qed.

Lemma cover_value og on h gs layers f lsf gl : any_order og -> any_order on -> group_input h gs layers f lsf -> gb_sweep og on h gs layers f lsf = Ok gl ->
  mapM (resolve_cover h f lsf) gl = Ok (map (fun g => (fst g, cov_obj h f lsf (fst g) (snd g))) gl).
Proof.
  intros A1 A2 input E. destruct (sweep_ok og on A1 A2 h gs layers f lsf input) as (gl0 & E0 & (N1 & M1 & S1 & C1)). assert (gl0 = gl) by congruence. subst gl0.
  assert (Sp : forall g o, In (g, o) gl -> exists p, span_at h g f p).
  { intros g o I. apply (M1 g). change g with (fst (g, o)). apply in_map. exact I. }
  apply mapM_ok_all. intros [g o] I. unfold resolve_cover. cbn [fst snd]. destruct (Sp g o I) as (p & Hp). destruct (the_span_ok _ _ _ _ Hp) as (E1 & E2).
  rewrite E1. cbn [rbind]. replace p with (gsp h f g) by exact E2.
  rewrite (mapM_ok_all _ (fun kv => (fst kv, filter (cov h f lsf g (fst kv)) (snd kv)))); [reflexivity|].
  intros [k l] J. cbn [fst snd]. rewrite covered_ok; [reflexivity|]. intros n In_. destruct (C1 g o I) as (Dk & C2).
  assert (Kk : In k (dkeys layers)) by (rewrite <- Dk; change k with (fst (k, l)); apply in_map; exact J).
  unfold dkeys in Kk. apply in_map_iff in Kk. destruct Kk as ([k' ns] & Ek & Il). cbn [fst] in Ek. subst k'.
  destruct input as (_ & _ & Nk & W). destruct (W k ns Il) as (_ & lf & Ff & _). destruct (lname_ok _ _ _ Ff) as (E3 & E4). rewrite E3, E4. split; [reflexivity|].
  destruct (C2 k ns lf Il Ff) as (l' & L1 & _ & L3). rewrite <- Dk in Nk. apply dget_nodup in J; [|exact Nk]. assert (l' = l) by congruence. subst l'.
  apply L3 in In_. destruct In_ as (_ & p' & q & _ & Hq & _). eauto.
Qed.
Lemma void_size (g : nid * dict (list nid)) : negb (group_void (snd g)) = (0 <? group_size g).
Proof.
  apply eq_true_iff_eq. rewrite group_size_pos, negb_true_iff. unfold group_void. rewrite <- not_true_iff_false, forallb_forall. split.
  - intros H. induction (snd g) as [|[k l] o IH]; [exfalso; apply H; intros x []|]. destruct l as [|n l].
    + destruct IH as (k' & l' & I & N); [|exists k', l'; split; [right; exact I|exact N]]. intros Q. apply H. intros x [<-|I]; [reflexivity|auto].
    + exists k, (n :: l). split; [left; reflexivity|discriminate].
  - intros (k & l & I & N) H. specialize (H (k, l) I). destruct l; [congruence|discriminate H].
Qed.

Theorem java_is_python og ol h b : any_order og -> any_layer_order ol ->
  group_input h (bg_groups b) (bg_layers b) (bg_field b) (Some (bg_fields b)) -> told_apart h b -> StronglySorted key_lt (dkeys (bg_layers b)) ->
  exists on, any_order on /\
    java_solve og ol h b = group_by_span og on h (bg_groups b) (bg_layers b) (if bg_cover b then s "cover" else s "intersect") (bg_field b) (Some (bg_fields b)) (bg_empty b) /\
    exists gl, java_solve og ol h b = Ok gl.
Proof.
  intros Ag Al input apart St. set (on := on_ ol b). assert (An : any_order on) by (eapply on_any; eassumption). exists on. split; [exact An|].
  destruct (sweep_ok og on Ag An _ _ _ _ _ input) as (gl & Es & _). pose proof (cover_value og on h _ _ _ _ gl Ag An input Es) as Ec.
  unfold group_by_span. rewrite Es. cbn [rbind].
  unfold gb_sweep in Es. unfold java_solve, group_points. destruct input as (Hn & Hg & Hk & Hl) eqn:Ei.
  destruct (jpoints_conv h (bg_field b) 0 (-2) 3 5 0 (-2) None (bg_groups b) Hg eq_refl eq_refl eq_refl eq_refl) as (a & A1 & A2 & A3).
  destruct (layer_points_conv h (bg_fields b) (bg_layers b)) as (c & C1 & C2 & C3 & C4); [|exact St|].
  { intros k ns I. destruct (Hl k ns I) as (_ & lf & F & S1). exists lf. split; [exact F|exact S1]. }
  rewrite A1, C1. rewrite A2, C2 in Es. cbn [rbind] in Es |- *. rewrite <- map_app in Es.
  assert (Ga : forall e, In e a -> good_type e).
  { intros e I. destruct (A3 e I) as (E1 & _ & _ & E2). unfold good_type. rewrite E1. unfold group_type. tauto. }
  assert (Sr : ssort (fun e => e) gpoint_leb (a ++ c) = ssort (fun e => fst (conv e)) lex_leb (a ++ c)).
  { apply ssort_same. apply fop_app; [apply fop_all|exact C3|].
    - intros x y Ix Iy. apply order_same; [auto|auto|]. left. exact (proj1 (A3 x Ix)).
    - intros x y Ix Iy. apply order_same; [auto|apply C4; exact Iy|]. left. exact (proj1 (A3 x Ix)). }
  rewrite (ssort_map' (fun e => fst (conv e)) fst lex_leb conv) in Es by reflexivity. rewrite <- Sr in Es.
  destruct (gb_loop og on (bg_layers b) 0 _ _) as [st|] eqn:El; [|discriminate Es]. cbn [rbind] in Es. apply Ok_inj' in Es.
  destruct (loop_sim og ol Ag Al h b input apart (ssort (fun e => e) gpoint_leb (a ++ c)) 0 (mkGB [] [] (fun _ => None) (fun _ => []) [])
    (mkJS (map (fun kv => (fst kv, [])) (bg_layers b)) [] [] (fun _ => []) []) st) as (js & J1 & J2).
  - constructor; cbn [js_nodes js_opens js_groups js_objs js_list gb_nodes gb_opens gb_groups gb_objs gb_list]; try reflexivity.
    + intros g i [].
    + intros g [].
    + intros k n [].
    + discriminate.
  - intros e I. apply (Permutation_in _ (Permutation_sym (ssort_perm (fun e => e) gpoint_leb (a ++ c)))) in I. apply in_app_or in I. destruct I as [I|I].
    + split; [auto|]. destruct (A3 e I) as (E1 & E2 & E3 & _). rewrite E1. split; [exact E2|exact E3].
    + destruct (C4 e I) as (G1 & k & ns & lf & E1 & E2 & E3 & E4 & E5). split; [exact G1|]. rewrite E1. exists ns, lf. auto.
  - exact El.
  - rewrite J1. cbn [rbind].
    assert (Eg : map (fun gi => (fst gi, js_objs js (snd gi))) (js_list js) = if bg_cover b then map (fun g => (fst g, cov_obj h (bg_field b) (Some (bg_fields b)) (fst g) (snd g))) gl else gl).
    { rewrite <- Es. rewrite (s_list _ _ _ _ J2). destruct (bg_cover b) eqn:Eb.
      - rewrite map_map. apply map_ext_in. intros [g i] I. cbn [fst snd]. rewrite (proj1 (s_objs _ _ _ _ J2 g i I)), Eb. reflexivity.
      - apply map_ext_in. intros [g i] I. cbn [fst snd]. rewrite (proj1 (s_objs _ _ _ _ J2 g i I)), Eb. reflexivity. }
    rewrite Eg. split; [|eexists; reflexivity].
    assert (Fl : forall l : list (nid * dict (list nid)), filter (fun g => negb (group_void (snd g))) l = filter (fun g => 0 <? group_size g) l).
    { intros l. apply filter_ext. apply void_size. }
    rewrite Fl. destruct (bg_cover b).
    + change (str_eqb (s "cover") (s "cover")) with true. cbv iota. rewrite Ec. reflexivity.
    + reflexivity.
Qed.
