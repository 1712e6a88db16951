(** Proofs about group_by_span: from the nodes to the sweep and on to the result. *)
From Verif Require Import PyBase PyBaseFacts Model_Heap Model_Layer Model_Text Model_Types Model_Document Model_Algorithm Spec_Algorithm Proof_Algorithm3 Proof_Algorithm4.
From Coq Require Import Sorting.Sorted Sorting.Permutation.
Local Open Scope Z_scope.

Definition has (h : heap) (f : pystr) (n : nid) : bool := dmem (n_fieldsof h n) f.
Lemma has_span h f n : span_or_absent h f n -> has h f n = true <-> exists p, span_at h n f p.
Proof.
  unfold has, dmem. intros [E|(p & H & _)].
  - rewrite E. split; [discriminate|]. intros (p & tn & tt & H). rewrite E in H. discriminate H.
  - split; [eauto|]. intros _. destruct H as (tn & tt & H). rewrite H. reflexivity.
Qed.
Lemma nodes_events_ok h f a b layer ns : (forall n, In n ns -> span_or_absent h f n) ->
  nodes_events h f a b layer ns = Ok (flat_map (fun n => span_events a b (the_span h f n) (layer, n)) (filter (has h f) ns)).
Proof.
  induction ns as [|n ns IH]; intros H; [reflexivity|]. cbn [nodes_events filter]. fold (has h f n).
  assert (IH' := IH (fun m I => H m (or_intror I))). destruct (has h f n) eqn:E; [|exact IH'].
  apply has_span in E; [|apply H; left; reflexivity]. destruct E as (p & E). destruct (the_span_ok _ _ _ _ E) as (E1 & E2). rewrite E1. cbn [rbind]. rewrite IH'. cbn [rbind flat_map].
  rewrite E2. reflexivity.
Qed.

Section Group.
Variables (og : nat -> list nid -> list nid) (on_ : nat -> list (pystr * nid) -> list (pystr * nid)).
Hypothesis og_any : any_order og.
Hypothesis on_any : any_order on_.
Variables (h : heap) (gs : list nid) (layers : dict (list nid)) (f : pystr) (lsf : option (dict pystr)).
Definition lname (k : pystr) : pystr := match span_name lsf k with Ok x => x | Err _ => [] end.
Lemma lname_ok k x : field_for lsf k x -> span_name lsf k = Ok x /\ lname k = x.
Proof. unfold field_for, lname, span_name, dgetE. destruct lsf as [d|]; [intros ->|intros ->]; auto. Qed.
Hypothesis input : group_input h gs layers f lsf.
Definition layer_nodes (kv : pystr * list nid) : list (pystr * nid) := map (fun n => (fst kv, n)) (filter (has h (lname (fst kv))) (snd kv)).
Definition G : list nid := filter (has h f) gs.
Definition N : list (pystr * nid) := flat_map layer_nodes layers.
Definition gsp : nid -> Z * Z := the_span h f.
Definition nsp (x : pystr * nid) : Z * Z := the_span h (lname (fst x)) (snd x).
Lemma in_N k n : In (k, n) N <-> exists ns, In (k, ns) layers /\ In n ns /\ has h (lname k) n = true.
Proof.
  unfold N. rewrite in_flat_map. split.
  - intros ([k' ns] & I & J). unfold layer_nodes in J. cbn [fst snd] in J. apply in_map_iff in J. destruct J as (n' & E & J). injection E as -> ->.
    apply filter_In in J. exists ns. tauto.
  - intros (ns & I & J & E). exists (k, ns). split; [exact I|]. unfold layer_nodes. cbn [fst snd]. apply in_map. apply filter_In. auto.
Qed.
Lemma in_N_ok k n : In (k, n) N -> exists ns p, In (k, ns) layers /\ In n ns /\ field_for lsf k (lname k) /\ span_at h n (lname k) p /\ fst p <= snd p /\ nsp (k, n) = p.
Proof.
  intros I. apply in_N in I. destruct I as (ns & I & J & E). destruct input as (_ & _ & _ & W). destruct (W k ns I) as (_ & lf & F & S1).
  destruct (lname_ok k lf F) as (_ & L). rewrite L in *. specialize (S1 n J). destruct S1 as [A|(p & S1 & S2)].
  - unfold has, dmem in E. rewrite A in E. discriminate E.
  - exists ns, p. repeat split; auto. unfold nsp. cbn [fst snd]. rewrite L. apply (the_span_ok _ _ _ _ S1).
Qed.
Lemma in_G_ok g : In g G <-> In g gs /\ exists p, span_at h g f p.
Proof. unfold G. rewrite filter_In. destruct input as (_ & S1 & _). split; intros (I & E); split; auto; apply has_span; auto. Qed.
Lemma G_ok g : In g G -> fst (gsp g) <= snd (gsp g).
Proof.
  intros I. apply in_G_ok in I. destruct I as (I & p & E). destruct input as (_ & S1 & _). destruct (S1 g I) as [A|(p' & S2 & S3)].
  - destruct E as (tn & tt & E). rewrite A in E. discriminate E.
  - unfold gsp. rewrite (proj2 (the_span_ok _ _ _ _ S2)). exact S3.
Qed.
Lemma N_ok x : In x N -> fst (nsp x) <= snd (nsp x).
Proof. destruct x as [k n]. intros I. apply in_N_ok in I. destruct I as (ns & p & _ & _ & _ & _ & L & E). rewrite E. exact L. Qed.
Lemma G_nodup : NoDup G.
Proof. apply NoDup_filter. apply input. Qed.
Lemma N_nodup : NoDup N.
Proof.
  destruct input as (_ & _ & Nk & W). unfold N. clear input. revert Nk W. induction layers as [|[k ns] r IH]; intros Nk W; [constructor|]. cbn [flat_map].
  cbn [dkeys map fst] in Nk. inversion Nk as [|? ? Ni Nk']; subst. apply nodup_app.
  - unfold layer_nodes. cbn [fst snd]. destruct (W k ns (or_introl eq_refl)) as (Nn & _). apply nodup_map_in; [congruence|apply NoDup_filter; exact Nn].
  - apply IH; [exact Nk'|]. intros k' ns' I. apply W. right. exact I.
  - intros [k' n] I J. unfold layer_nodes in I. apply in_map_iff in I. destruct I as (m & E & _). cbn [fst snd] in E. injection E as <- <-.
    apply in_flat_map in J. destruct J as ([k2 ns2] & J & J2). unfold layer_nodes in J2. apply in_map_iff in J2. destruct J2 as (m2 & E & _). cbn [fst snd] in E. injection E as <- <-.
    apply Ni. change k2 with (fst (k2, ns2)). apply in_map. exact J.
Qed.
Lemma N_keys x : In x N -> In (fst x) (dkeys layers).
Proof. destruct x as [k n]. intros I. apply in_N in I. destruct I as (ns & I & _). cbn [fst]. change k with (fst (k, ns)). apply in_map. exact I. Qed.
Lemma layers_events_ok : layers_events h lsf layers = Ok (flat_map (fun x => [nst nsp x; nen nsp x]) N).
Proof.
  destruct input as (_ & _ & _ & W). unfold N. clear input. revert W. induction layers as [|[k ns] r IH]; intros W; [reflexivity|]. cbn [layers_events flat_map].
  destruct (W k ns (or_introl eq_refl)) as (_ & lf & F & S1). destruct (lname_ok k lf F) as (E1 & E2). rewrite E1. cbn [rbind].
  rewrite nodes_events_ok by exact S1. cbn [rbind]. rewrite IH by (intros k' ns' I; apply W; right; exact I). cbn [rbind]. f_equal. rewrite flat_map_app. f_equal.
  unfold layer_nodes. cbn [fst snd]. rewrite E2. rewrite flat_map_concat_map, (flat_map_concat_map _ (map _ _)), map_map. f_equal. apply map_ext. intros n.
  unfold span_events, nst, nen, empty, nsp. cbn [fst snd]. rewrite E2. destruct (fst (the_span h lf n) =? snd (the_span h lf n)); reflexivity.
Qed.
Lemma groups_events_ok : nodes_events h f 0 (-2) None gs = Ok (flat_map (fun g => [gst gsp g; gen gsp g]) G).
Proof.
  rewrite nodes_events_ok by apply input. f_equal. apply flat_map_ext. intros g. unfold span_events, gst, gen, empty, gsp.
  destruct (fst (the_span h f g) =? snd (the_span h f g)); reflexivity.
Qed.
Lemma sorted_started L0 : StronglySorted (fun a b : gb_event => lex_leb (fst a) (fst b) = true) L0 -> (forall e, In e L0 -> In e (Ls G gsp N nsp)) ->
  StronglySorted (fun a b => fst (gsp a) <= fst (gsp b)) (started L0) /\ forall g, In g (started L0) -> In (gst gsp g) L0.
Proof.
  induction L0 as [|e L0 IH]; intros St In_; [split; [constructor|intros g []]|]. inversion St as [|? ? St' F]; subst.
  destruct (IH St' (fun x I => In_ x (or_intror I))) as (IH1 & IH2). unfold started. cbn [filter]. destruct (is_gstart e) eqn:B; [|split; [exact IH1|intros g I; right; exact (IH2 g I)]].
  cbn [map]. fold (started L0). assert (Ie := In_ e (or_introl eq_refl)). apply (Ls_in G gsp N nsp) in Ie.
  destruct Ie as [(g & Ig & [-> | ->])|(x & Ix & [-> | ->])]; [|rewrite is_gstart_gen in B; discriminate B|discriminate B|discriminate B]. cbn [gst snd].
  split.
  - constructor; [exact IH1|]. apply Forall_forall. intros g' I. apply IH2 in I. rewrite Forall_forall in F. apply F in I. apply lex_leb_iff in I. unfold gst in I. cbn [fst snd] in I. lia.
  - intros g' [<-|I]; [left; reflexivity|right; exact (IH2 g' I)].
Qed.
Lemma sweep_ok : exists gl, gb_sweep og on_ h gs layers f lsf = Ok gl /\ grouped h gs layers f lsf shares gl.
Proof.
  unfold gb_sweep. rewrite groups_events_ok. cbn [rbind]. rewrite layers_events_ok. cbn [rbind].
  destruct (sweep_inv og on_ og_any on_any layers G gsp N nsp G_nodup N_nodup G_ok N_ok N_keys) as (st & E & V). unfold Ls, R in E. rewrite E. cbn [rbind].
  eexists. split; [reflexivity|]. destruct V as [_ _ Co Cn Cg Cb].
  assert (Ef : map fst (map (fun gi => (fst gi, gb_objs st (snd gi))) (gb_list st)) = started (Ls G gsp N nsp)) by (rewrite map_map, <- Co; reflexivity).
  assert (Srt : StronglySorted (fun a b : gb_event => lex_leb (fst a) (fst b) = true) (Ls G gsp N nsp)) by (apply ssort_sorted; [exact lex_total|exact lex_trans]).
  destruct (sorted_started _ Srt (fun e I => I)) as (S1 & S2).
  assert (Mem : forall g, In g (started (Ls G gsp N nsp)) <-> In g G).
  { intros g. split; intros I.
    - apply S2 in I. apply Ls_in in I. destruct I as [(g' & Ig & [J|J])|(x & _ & [J|J])]; [apply gst_inj in J; congruence|exfalso; exact (gst_ne_gen gsp _ _ J)|discriminate J|discriminate J].
    - unfold started. apply in_map_iff. exists (gst gsp g). split; [reflexivity|]. apply filter_In. split; [apply Ls_in; left; exists g; auto|apply is_gstart_gst]. }
  unfold grouped. rewrite Ef. split; [|split; [|split]].
  - unfold started. apply nodup_map_in.
    + intros e e' I I' X. apply filter_In in I, I'. destruct I as (I & B), I' as (I' & B'). apply Ls_in in I, I'.
      destruct I as [(g & Ig & [-> | ->])|(y & Iy & [-> | ->])]; [|rewrite is_gstart_gen in B; discriminate B|discriminate B|discriminate B].
      destruct I' as [(g' & Ig' & [-> | ->])|(y' & Iy' & [-> | ->])]; [|rewrite is_gstart_gen in B'; discriminate B'|discriminate B'|discriminate B'].
      cbn [gst snd] in X. congruence.
    + apply NoDup_filter. eapply Permutation_NoDup; [apply (@ssort_perm gb_event (Z * Z) fst lex_leb)|]. apply R_nodup; [exact G_nodup|exact N_nodup].
  - intros g. rewrite Mem. apply in_G_ok.
  - clear - S1. induction S1 as [|a l S1 IH F]; constructor; [exact IH|]. revert F. apply Forall_impl. intros b L p q Hp Hq.
    apply the_span_ok in Hp, Hq. destruct Hp as (_ & Hp), Hq as (_ & Hq). unfold gsp in L. rewrite Hp, Hq in L. exact L.
  - intros g o I. apply in_map_iff in I. destruct I as ([g' i] & X & I). cbn [fst snd] in X. injection X as <- <-. destruct (Cb g' i I) as (O1 & O2).
    assert (Ig : In g' G). { apply Mem. rewrite <- Co. change g' with (fst (g', i)). apply in_map. exact I. }
    split; [exact O1|]. intros k ns lf Il Ff. destruct (lname_ok _ _ Ff) as (_ & En).
    destruct (O2 k) as (l & L1 & L2 & L3). { change k with (fst (k, ns)). apply in_map. exact Il. }
    exists l. split; [exact L1|]. split; [exact L2|]. intros n. rewrite L3. split.
    + intros (X1 & X2 & X3). pose proof X1 as X1'. apply in_N_ok in X1'. destruct X1' as (ns' & q & Y1 & Y2 & Y3 & Y4 & Y5 & Y6).
      assert (ns' = ns). { destruct input as (_ & _ & Nk & _). apply dget_nodup in Y1; [|exact Nk]. apply dget_nodup in Il; [|exact Nk]. congruence. } subst ns'. split; [exact Y2|].
      apply (ov_shares G gsp N nsp G_ok N_ok g' (k, n) Ig X1) in X3. pose proof Ig as Ig'. apply in_G_ok in Ig'. destruct Ig' as (_ & p & Hp).
      exists p, q. rewrite <- En. split; [exact Hp|]. split; [exact Y4|]. rewrite Y6 in X3. unfold gsp in X3. rewrite (proj2 (the_span_ok _ _ _ _ Hp)) in X3. exact X3.
    + intros (X1 & p & q & Hp & Hq & Sh). assert (X2 : In (k, n) N).
      { apply in_N. exists ns. split; [exact Il|]. split; [exact X1|]. rewrite En. unfold has, dmem. destruct Hq as (tn & tt & Hq). rewrite Hq. reflexivity. }
      split; [exact X2|]. split; [apply Ls_in; right; exists (k, n); auto|]. apply (ov_shares G gsp N nsp G_ok N_ok g' (k, n) Ig X2).
      unfold gsp, nsp. cbn [fst snd]. rewrite En, (proj2 (the_span_ok _ _ _ _ Hp)), (proj2 (the_span_ok _ _ _ _ Hq)). exact Sh.
Qed.
Definition cov (g : nid) (k : pystr) (n : nid) : bool := is_covered_by (mkSpan [] (fst (the_span h (lname k) n)) (snd (the_span h (lname k) n))) (mkSpan [] (fst (gsp g)) (snd (gsp g))).
Definition cov_obj (g : nid) (o : dict (list nid)) : dict (list nid) := map (fun kv => (fst kv, filter (cov g (fst kv)) (snd kv))) o.
Lemma covered_ok g k ns : (forall n, In n ns -> span_name lsf k = Ok (lname k) /\ exists p, span_at h n (lname k) p) ->
  covered_nodes h lsf k (gsp g) ns = Ok (filter (cov g k) ns).
Proof.
  induction ns as [|n ns IH]; intros H; [reflexivity|]. cbn [covered_nodes filter]. destruct (H n (or_introl eq_refl)) as (E & p & Hp). rewrite E. cbn [rbind].
  destruct (the_span_ok _ _ _ _ Hp) as (E1 & E2). rewrite E1. cbn [rbind]. rewrite IH by (intros m I; apply H; right; exact I). cbn [rbind]. unfold cov. rewrite E2. reflexivity.
Qed.
Lemma dget_cov g o k : dget (cov_obj g o) k = option_map (filter (cov g k)) (dget o k).
Proof.
  induction o as [|[k' v] o IH]; [reflexivity|]. cbn [cov_obj map dget fst snd]. destruct (str_eqb_spec k k') as [->|_]; [reflexivity|exact IH].
Qed.
Lemma cover_ok gl : grouped h gs layers f lsf shares gl -> exists gl', mapM (resolve_cover h f lsf) gl = Ok gl' /\ grouped h gs layers f lsf (fun p q => shares p q /\ inside p q) gl'.
Proof.
  intros (N1 & M1 & S1 & C1). exists (map (fun g => (fst g, cov_obj (fst g) (snd g))) gl).
  assert (Sp : forall g o, In (g, o) gl -> exists p, span_at h g f p).
  { intros g o I. apply (M1 g). change g with (fst (g, o)). apply in_map. exact I. }
  split.
  - apply mapM_ok_all. intros [g o] I. unfold resolve_cover. cbn [fst snd]. destruct (Sp g o I) as (p & Hp). destruct (the_span_ok _ _ _ _ Hp) as (E1 & E2).
    rewrite E1. cbn [rbind]. replace p with (gsp g) by exact E2.
    rewrite (mapM_ok_all _ (fun kv => (fst kv, filter (cov g (fst kv)) (snd kv)))); [reflexivity|].
    intros [k l] J. cbn [fst snd]. rewrite covered_ok; [reflexivity|]. intros n In_. destruct (C1 g o I) as (Dk & C2).
    assert (Kk : In k (dkeys layers)) by (rewrite <- Dk; change k with (fst (k, l)); apply in_map; exact J).
    unfold dkeys in Kk. apply in_map_iff in Kk. destruct Kk as ([k' ns] & Ek & Il). cbn [fst] in Ek. subst k'.
    destruct input as (_ & _ & Nk & W). destruct (W k ns Il) as (_ & lf & Ff & _). destruct (lname_ok _ _ Ff) as (E3 & E4). rewrite E3, E4. split; [reflexivity|].
    destruct (C2 k ns lf Il Ff) as (l' & L1 & _ & L3). rewrite <- Dk in Nk. apply dget_nodup in J; [|exact Nk]. assert (l' = l) by congruence. subst l'.
    apply L3 in In_. destruct In_ as (_ & p' & q & _ & Hq & _). eauto.
  - assert (Em : map fst (map (fun g : nid * dict (list nid) => (fst g, cov_obj (fst g) (snd g))) gl) = map fst gl) by (rewrite map_map; reflexivity).
    unfold grouped. rewrite Em. split; [exact N1|]. split; [exact M1|]. split; [exact S1|]. intros g o I. apply in_map_iff in I. destruct I as ([g' o'] & E & I).
    cbn [fst snd] in E. injection E as <- <-. destruct (C1 g' o' I) as (Dk & C2). split; [unfold cov_obj, dkeys; rewrite map_map; exact Dk|].
    intros k ns lf Il Ff. destruct (C2 k ns lf Il Ff) as (l & L1 & L2 & L3). destruct (lname_ok _ _ Ff) as (_ & En).
    exists (filter (cov g' k) l). split; [rewrite dget_cov, L1; reflexivity|]. split; [apply NoDup_filter; exact L2|]. intros n. rewrite filter_In, L3. split.
    + intros ((X1 & p & q & Hp & Hq & Sh) & Cv). split; [exact X1|]. exists p, q. split; [exact Hp|]. split; [exact Hq|]. split; [exact Sh|].
      unfold cov, gsp, is_covered_by in Cv. rewrite En, (proj2 (the_span_ok _ _ _ _ Hp)), (proj2 (the_span_ok _ _ _ _ Hq)) in Cv. cbn [sp_start sp_stop] in Cv.
      apply andb_true_iff in Cv. unfold inside. lia.
    + intros (X1 & p & q & Hp & Hq & Sh & In_). split; [split; [exact X1|exists p, q; auto]|].
      unfold cov, gsp, is_covered_by. rewrite En, (proj2 (the_span_ok _ _ _ _ Hp)), (proj2 (the_span_ok _ _ _ _ Hq)). cbn [sp_start sp_stop].
      unfold inside in In_. apply andb_true_iff. lia.
Qed.
Lemma group_intersect : exists gl, group_by_span og on_ h gs layers (s "intersect") f lsf true = Ok gl /\ grouped h gs layers f lsf shares gl.
Proof. destruct sweep_ok as (gl & E & V). exists gl. split; [|exact V]. unfold group_by_span. rewrite E. reflexivity. Qed.
Lemma group_cover : exists gl, group_by_span og on_ h gs layers (s "cover") f lsf true = Ok gl /\ grouped h gs layers f lsf (fun p q => shares p q /\ inside p q) gl.
Proof.
  destruct sweep_ok as (gl & E & V). destruct (cover_ok gl V) as (gl' & E' & V'). exists gl'. split; [|exact V']. unfold group_by_span. rewrite E. cbn [rbind].
  change (str_eqb (s "cover") (s "cover")) with true. cbv iota. rewrite E'. reflexivity.
Qed.
End Group.
Lemma group_size_pos g : (0 <? group_size g) = true <-> exists k l, In (k, l) (snd g) /\ l <> [].
Proof.
  unfold group_size. assert (P : forall o : dict (list nid), 0 <= fold_right (fun kv k => zlen (snd kv) + k) 0 o).
  { induction o as [|[k l] o IH]; [reflexivity|]. cbn [fold_right snd]. pose proof (zlen_nonneg l). lia. }
  destruct g as [g o]. cbn [snd]. induction o as [|[k l] o IH].
  - split; [discriminate|]. intros (k & l & [] & _).
  - cbn [fold_right snd]. pose proof (P o) as Po. destruct l as [|x l].
    + change (zlen (@nil nid)) with 0. rewrite Z.add_0_l, IH. split; intros (k' & l' & I & Nn); exists k', l'; split; auto; [right; exact I|].
      destruct I as [E|I]; [injection E; congruence|exact I].
    + split; [intros _; exists k, (x :: l); split; [left; reflexivity|discriminate]|]. intros _. apply Z.ltb_lt. unfold zlen in *. cbn [length]. unfold nid in *. lia.
Qed.
Lemma group_empty og on_ h gs layers res f lsf : match group_by_span og on_ h gs layers res f lsf true with
  | Ok full => exists keep, group_by_span og on_ h gs layers res f lsf false = Ok (filter keep full) /\
      forall g o, keep (g, o) = true <-> exists layer l, In (layer, l) o /\ l <> []
  | Err e => group_by_span og on_ h gs layers res f lsf false = Err e
  end.
Proof.
  unfold group_by_span. destruct (gb_sweep og on_ h gs layers f lsf) as [gl|e]; cbn [rbind]; [|reflexivity].
  destruct (if str_eqb res (s "cover") then mapM (resolve_cover h f lsf) gl else Ok gl) as [gl1|e]; cbn [rbind]; [|reflexivity].
  eexists. split; [reflexivity|]. intros g o. apply (group_size_pos (g, o)).
Qed.
(** a node that is not empty and lies inside the group shares a position with it *)
Lemma inside_shares p q : fst q < snd q -> inside p q -> shares p q.
Proof. unfold inside, shares, on. intros H (A & B). exists (fst q). lia. Qed.
(** ** dominant_right_span *)
Lemma segments_ok h f ns : (forall n, In n ns -> dget (n_fieldsof h n) f = None \/ exists p, span_at h n f p) ->
  span_segments h f ns = Ok (map (fun n => (fst (the_span h f n), snd (the_span h f n), n)) (filter (has h f) ns)).
Proof.
  induction ns as [|n ns IH]; intros H; [reflexivity|]. cbn [span_segments filter]. fold (has h f n). assert (IH' := IH (fun m I => H m (or_intror I))).
  destruct (H n (or_introl eq_refl)) as [E|(p & Hp)].
  - assert (B : has h f n = false) by (unfold has, dmem; rewrite E; reflexivity). rewrite B. exact IH'.
  - destruct (the_span_ok _ _ _ _ Hp) as (E1 & E2). assert (B : has h f n = true) by (unfold has, dmem; destruct Hp as (a & b & Hp); rewrite Hp; reflexivity).
    rewrite B, E1. cbn [rbind]. rewrite IH'. cbn [rbind map]. rewrite E2. reflexivity.
Qed.
Lemma dominant_nodes h ns f : (forall n, In n ns -> dget (n_fieldsof h n) f = None \/ exists p, span_at h n f p) -> exists segs,
  (forall p n, In (p, n) segs -> In n ns /\ span_at h n f p) /\ map snd segs = filter (fun n => dmem (n_fieldsof h n) f) ns /\ dominant_right_span h ns f = Ok (dominant_right segs).
Proof.
  intros H. exists (map (fun n => (fst (the_span h f n), snd (the_span h f n), n)) (filter (has h f) ns)). split; [|split].
  - intros p n I. apply in_map_iff in I. destruct I as (m & E & I). injection E as <- <-. apply filter_In in I. destruct I as (I & B). split; [exact I|].
    destruct (H m I) as [E|(q & Hq)]; [unfold has, dmem in B; rewrite E in B; discriminate B|].
    rewrite (proj2 (the_span_ok _ _ _ _ Hq)), <- surjective_pairing. exact Hq.
  - rewrite map_map. apply map_id.
  - unfold dominant_right_span. rewrite segments_ok by exact H. reflexivity.
Qed.
