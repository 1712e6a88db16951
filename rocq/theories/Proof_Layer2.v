(** retain, sort, navigation. *)
From Verif Require Import PyBase PyBaseFacts Model_Heap Model_Layer Model_Types Spec_Layer Proof_Heap Proof_Layer.
Local Open Scope Z_scope.

(** ** retain *)
Definition kept (ns : list (option nid)) (n : nid) : bool :=
  existsb (fun o => match o with Some m => Nat.eqb m n | None => false end) ns.
Lemma kept_cons m ns n : kept (Some m :: ns) n = Nat.eqb m n || kept ns n. Proof. reflexivity. Qed.

Lemma retain_mark_spec l h0 : (forall n, n_collof h0 n = Some l -> 0 <= n_idof h0 n) ->
  forall ns h (M : nid -> bool),
  (forall n, n_idof h n = if M n then - (n_idof h0 n + 1) else n_idof h0 n) ->
  (forall n, n_collof h n = n_collof h0 n /\ n_fieldsof h n = n_fieldsof h0 n) -> h_layer h = h_layer h0 ->
  h_nnext h = h_nnext h0 -> h_lnext h = h_lnext h0 ->
  (forall n, In (Some n) ns -> n_collof h0 n = Some l) -> ~ In None ns ->
  exists h', retain_mark h l ns = (h', Ok tt) /\
    (forall n, n_idof h' n = if M n || kept ns n then - (n_idof h0 n + 1) else n_idof h0 n) /\
    (forall n, n_collof h' n = n_collof h0 n /\ n_fieldsof h' n = n_fieldsof h0 n) /\ h_layer h' = h_layer h0 /\
    h_nnext h' = h_nnext h0 /\ h_lnext h' = h_lnext h0.
Proof.
  intros Hpos. induction ns as [|[n|] ns IH]; intros h M Hid Hc Hl Hn1 Hn2 Hin Hnone; simpl.
  - exists h. split; [reflexivity|]. split; [intros n; rewrite orb_false_r; apply Hid|]. auto.
  - assert (Hcn : n_collof h0 n = Some l) by (apply Hin; left; reflexivity).
    assert (Ec : layer_contains h l n = true) by (apply contains_iff; destruct (Hc n) as [-> _]; assumption).
    rewrite Ec. rewrite Hid. pose proof (Hpos n Hcn) as Hp.
    destruct (M n) eqn:Em.
    + destruct (Z.leb_spec 0 (- (n_idof h0 n + 1))); [lia|].
      destruct (IH h M) as (h' & E & G1 & G2); auto.
      { intros m Hm. apply Hin. right; assumption. } { intros Hm; apply Hnone; right; assumption. }
      exists h'. split; [assumption|]. split; [|assumption]. intros m. rewrite G1.
      destruct (Nat.eqb_spec n m) as [->|]; [rewrite Em; reflexivity|reflexivity].
    + destruct (Z.leb_spec 0 (n_idof h0 n)); [|lia].
      destruct (IH (set_id h n (- (n_idof h0 n + 1))) (fun m => M m || Nat.eqb n m)) as (h' & E & G1 & G2).
      * intros m. hs. destruct (Nat.eqb_spec m n) as [->|Hne].
        -- rewrite Nat.eqb_refl, orb_true_r. reflexivity.
        -- destruct (Nat.eqb_spec n m); [congruence|]. rewrite orb_false_r. apply Hid.
      * intros m. hs. apply Hc.
      * assumption.
      * assumption.
      * assumption.
      * intros m Hm. apply Hin. right; assumption.
      * intros Hm; apply Hnone; right; assumption.
      * exists h'. split; [assumption|]. split; [|assumption]. intros m. rewrite G1, orb_assoc. reflexivity.
  - exfalso. apply Hnone. left. reflexivity.
Qed.

Lemma retain_loop_spec l c keep : NoDup c -> forall todo h i k,
  (i + todo = length c)%nat -> k = length (filter keep (firstn i c)) ->
  length (l_nodesof h l) = length c ->
  firstn k (l_nodesof h l) = map Some (filter keep (firstn i c)) ->
  skipn i (l_nodesof h l) = map Some (skipn i c) ->
  (forall n, In n (skipn i c) -> (n_idof h n < 0 <-> keep n = true)) ->
  exists h' k', retain_loop h l i k todo = (h', Ok k') /\
  frame l h h' /\ (forall n, n_fieldsof h' n = n_fieldsof h n) /\
  l_numof h' l = l_numof h l - zlen (filter (fun n => negb (keep n)) (skipn i c)) /\
  k' = length (filter keep c) /\ firstn k' (l_nodesof h' l) = map Some (filter keep c) /\
  (forall n, n_collof h' n = if mem_nid n (skipn i c) && negb (keep n) then None else n_collof h n) /\
  (forall p n, nth_error (filter keep (skipn i c)) p = Some n -> n_idof h' n = Z.of_nat (k + p)) /\
  (forall n, ~ In n (filter keep (skipn i c)) -> n_idof h' n = n_idof h n).
Proof.
  intros Hnd. induction todo as [|todo IH]; intros h i k Hi Hk Hlen Hf Hsk Hid; simpl.
  - rewrite Nat.add_0_r in Hi. subst i. rewrite firstn_all in *. rewrite skipn_all. simpl.
    exists h, k. split; [reflexivity|]. split; [apply frame_refl|]. split; [auto|].
    split; [unfold zlen; simpl; lia|]. split; [assumption|]. split; [assumption|]. split; [auto|].
    split; [intros [|p] n; discriminate|auto].
  - assert (Hil : (i < length c)%nat) by lia.
    destruct (nth_error c i) as [n|] eqn:En; [|apply nth_error_None in En; lia].
    pose proof (nth_error_skipn_cons _ _ _ En) as Ecs. rewrite Ecs in Hsk. cbn [map] in Hsk.
    destruct (skipn_cons_nth _ _ _ _ Hsk) as [Es Hsk'].
    rewrite Es.
    assert (Hki : (k <= i)%nat).
    { subst k. clear -Hil. pose proof (firstn_length i c).
      assert (length (filter keep (firstn i c)) <= length (firstn i c))%nat by (generalize (firstn i c); induction l as [|x l IH]; simpl; [lia|]; destruct (keep x); simpl; lia). lia. }
    assert (Hni : ~ In n (skipn (S i) c)).
    { rewrite <- (firstn_skipn i c), Ecs in Hnd. apply NoDup_remove_2 in Hnd. intros Hin. apply Hnd. apply in_or_app. right; assumption. }
    pose proof (Hid n ltac:(rewrite Ecs; left; reflexivity)) as Hidn.
    rewrite Ecs. cbn [filter].
    destruct (Z.leb_spec 0 (n_idof h n)) as [Hpos|Hneg].
    + assert (Ekeep : keep n = false) by (destruct (keep n); [exfalso; apply Hidn in Hpos || (destruct Hidn as [_ X]; specialize (X eq_refl); lia)|reflexivity]).
      rewrite Ekeep. simpl negb. cbv iota.
      destruct (IH (set_num (set_coll h n None) l (l_numof h l - 1)) (S i) k) as (h' & k' & E & F & G1 & G2 & G3 & G4 & G5 & G6 & G7).
      * lia.
      * rewrite (firstn_S_nth _ _ _ En), filter_app. simpl. rewrite Ekeep, app_nil_r. assumption.
      * hs. assumption.
      * hs. rewrite (firstn_S_nth _ _ _ En), filter_app. simpl. rewrite Ekeep, app_nil_r. assumption.
      * hs. assumption.
      * intros m Hm. hs. apply Hid. rewrite Ecs. right. assumption.
      * exists h', k'. hs. split; [assumption|].
        split; [eapply frame_trans; [|exact F]; eapply frame_trans; [apply frame_set_coll|apply frame_set_num]|].
        split; [intros m; rewrite G1; hs; reflexivity|].
        split; [rewrite G2; unfold zlen; simpl length; lia|]. split; [assumption|]. split; [assumption|].
        split.
        { intros m. rewrite G5. hs. rewrite mem_nid_cons. destruct (Nat.eqb_spec m n) as [->|Hne]; [|reflexivity].
          rewrite Ekeep. destruct (mem_nid n (skipn (S i) c)); reflexivity. }
        split; [assumption|]. intros m Hm. rewrite G7 by assumption. hs. reflexivity.
    + assert (Ekeep : keep n = true) by (apply Hidn; assumption).
      rewrite Ekeep. simpl negb. cbv iota.
      destruct (IH (set_id (set_nodes h l (upd_nth (l_nodesof h l) k (Some n))) n (Z.of_nat k)) (S i) (S k)) as (h' & k' & E & F & G1 & G2 & G3 & G4 & G5 & G6 & G7).
      * lia.
      * rewrite (firstn_S_nth _ _ _ En), filter_app. simpl. rewrite Ekeep, app_length. simpl. lia.
      * hs. rewrite upd_nth_length. assumption.
      * hs. rewrite firstn_upd_nth by lia. rewrite (firstn_S_nth _ _ _ En), filter_app, map_app. simpl. rewrite Ekeep, Hf. reflexivity.
      * hs. rewrite skipn_upd_nth by lia. assumption.
      * intros m Hm. hs. destruct (Nat.eqb_spec m n) as [->|]; [contradiction|]. apply Hid. rewrite Ecs. right. assumption.
      * exists h', k'. hs. split; [assumption|].
        split; [eapply frame_trans; [|exact F]; eapply frame_trans; [apply frame_set_nodes|apply frame_set_id]|].
        split; [intros m; rewrite G1; hs; reflexivity|].
        split; [assumption|]. split; [assumption|]. split; [assumption|].
        split.
        { intros m. rewrite G5. hs. rewrite mem_nid_cons. destruct (Nat.eqb_spec m n) as [->|Hne]; [|reflexivity].
          rewrite Ekeep. rewrite !andb_false_r. reflexivity. }
        assert (Hnf : ~ In n (filter keep (skipn (S i) c))) by (intros Hin; apply filter_In in Hin; tauto).
        split.
        { intros [|p] m Hp; simpl in Hp.
          - injection Hp as ->. rewrite G7 by assumption. hs. lia.
          - rewrite (G6 _ _ Hp). lia. }
        intros m Hm. rewrite G7 by (intros Hin; apply Hm; right; assumption). hs.
        destruct (Nat.eqb_spec m n) as [->|]; [exfalso; apply Hm; left; reflexivity|reflexivity].
Qed.

Lemma filter_len_split {A} (f : A -> bool) c : (length (filter f c) + length (filter (fun x => negb (f x)) c) = length c)%nat.
Proof. induction c as [|x c IH]; simpl; [reflexivity|]. destruct (f x); simpl; lia. Qed.

Lemma retain_spec h l ns : layer_ok h l -> no_gaps h l ->
  (forall n, In (Some n) ns -> n_collof h n = Some l) -> ~ In None ns ->
  exists h', layer_retain h l ns = (h', Ok tt) /\ shrink l h h' /\ layer_ok h' l /\ no_gaps h' l /\
    content h' l = list_retain (content h l) ns /\
    (forall n, In n (content h l) -> ~ In n (content h' l) -> n_collof h' n = None).
Proof.
  intros Hok Hng Hin Hnone. pose proof (live_no_none _ Hng) as Es. fold (content h l) in Es.
  pose proof (layer_ok_NoDup _ _ Hok) as Hnd.
  assert (Hpos : forall n, n_collof h n = Some l -> 0 <= n_idof h n).
  { intros n Hn. destruct (ok_coll _ _ Hok n Hn) as (i & -> & _). lia. }
  destruct (retain_mark_spec l h Hpos ns h (fun _ => false)) as (h1 & E1 & G1 & G2 & G3 & G4 & G5); auto.
  assert (Es1 : l_nodesof h1 l = map Some (content h l)) by (unfold l_nodesof at 1; rewrite G3; exact Es).
  destruct (retain_loop_spec l (content h l) (kept ns) Hnd (length (content h l)) h1 0 0) as
    (h2 & k & E2 & F & K1 & K2 & K3 & K4 & K5 & K6 & K7); auto.
  { rewrite Es1, map_length. reflexivity. }
  { intros n Hn. simpl in Hn. rewrite G1. simpl. assert (0 <= n_idof h n) by (apply Hpos; apply layer_ok_member; assumption).
    destruct (kept ns n); [split; [auto|lia]|split; [lia|discriminate]]. }
  simpl skipn in *.
  exists (set_nodes h2 l (firstn k (l_nodesof h2 l))).
  assert (Hlen1 : length (l_nodesof h1 l) = length (content h l)) by (rewrite Es1, map_length; reflexivity).
  split; [unfold layer_retain; rewrite E1, Hlen1, E2; reflexivity|].
  assert (Hsh : shrink l h (set_nodes h2 l (firstn k (l_nodesof h2 l)))).
  { split.
    - destruct F. split; intros; hs; try congruence.
      + rewrite layer_set_nodes_other, fr_layer, G3 by assumption. reflexivity.
      + rewrite fr_name. unfold l_nameof. rewrite G3. reflexivity.
      + simpl. congruence.
      + simpl. congruence.
    - intros n. hs. rewrite K1. apply G2.
    - intros n Hn. hs. destruct (mem_nid n (content h l)) eqn:Em.
      + apply mem_nid_In in Em. apply layer_ok_member in Em; [contradiction|assumption].
      + rewrite K5, Em. simpl. destruct (G2 n) as [Gc _]. split; [|assumption].
        rewrite K7; [|intros Hf; apply filter_In in Hf; apply layer_ok_member in Hn as Hn' || idtac; destruct Hf as [Hf _]; apply mem_nid_In in Hf; congruence].
        rewrite G1. simpl. destruct (kept ns n) eqn:Ek; [|reflexivity]. exfalso. apply Hn. apply Hin.
        unfold kept in Ek. apply existsb_exists in Ek. destruct Ek as ([m|] & Hm & Eq); [|discriminate]. apply Nat.eqb_eq in Eq. subst. assumption.
    - intros n Hn. hs. rewrite K5. destruct (_ && _); [right; reflexivity|left; destruct (G2 n) as [-> _]; assumption]. }
  split; [assumption|].
  assert (Ec : content (set_nodes h2 l (firstn k (l_nodesof h2 l))) l = list_retain (content h l) ns).
  { unfold content at 1. hs. rewrite K4, live_map_some. reflexivity. }
  assert (Hng' : no_gaps (set_nodes h2 l (firstn k (l_nodesof h2 l))) l).
  { unfold no_gaps. hs. rewrite K4. intros Hx. apply in_map_iff in Hx. destruct Hx as (? & ? & _). discriminate. }
  split.
  { apply (layer_ok_dense _ _ (filter (kept ns) (content h l))).
    - hs. assumption.
    - hs. rewrite K2. unfold l_numof. rewrite G3. fold (l_numof h l). rewrite (ok_num _ _ Hok).
      pose proof (filter_len_split (kept ns) (content h l)). unfold zlen. lia.
    - intros i n Hi. hs. split; [apply (K6 _ _ Hi)|]. rewrite K5. apply nth_error_In in Hi. apply filter_In in Hi.
      destruct Hi as [Hi1 ->]. rewrite andb_false_r. destruct (G2 n) as [-> _]. apply layer_ok_member; assumption.
    - intros n. hs. rewrite K5. destruct (mem_nid n (content h l)) eqn:Em; simpl.
      + destruct (kept ns n) eqn:Ek; [|discriminate]. intros _. apply filter_In. split; [apply mem_nid_In; assumption|assumption].
      + intros Hn. destruct (G2 n) as [Gc _]. rewrite Gc in Hn. apply layer_ok_member in Hn; [|assumption].
        apply mem_nid_In in Hn. congruence. }
  split; [assumption|]. split; [assumption|].
  intros n Hi Hni. rewrite Ec in Hni. hs. rewrite K5. rewrite (proj2 (mem_nid_In n (content h l)) Hi). simpl.
  destruct (kept ns n) eqn:Ek; [|reflexivity]. exfalso. apply Hni. unfold list_retain. apply filter_In. split; [assumption|exact Ek].
Qed.

(** ** renumber and sort *)
Lemma renumber_spec ns : NoDup ns -> forall h i,
  h_layer (renumber h i ns) = h_layer h /\ h_nnext (renumber h i ns) = h_nnext h /\ h_lnext (renumber h i ns) = h_lnext h /\
  (forall n, n_fieldsof (renumber h i ns) n = n_fieldsof h n /\ n_collof (renumber h i ns) n = n_collof h n) /\
  (forall p n, nth_error ns p = Some n -> n_idof (renumber h i ns) n = i + Z.of_nat p) /\
  (forall n, ~ In n ns -> n_idof (renumber h i ns) n = n_idof h n).
Proof.
  induction ns as [|x ns IH]; intros Hnd h i; simpl.
  - repeat split; auto. intros [|p] n; discriminate.
  - inversion Hnd as [|? ? Hni Hnd']; subst. destruct (IH Hnd' (set_id h x i) (i + 1)) as (G1 & G2 & G3 & G4 & G5 & G6).
    split; [assumption|]. split; [assumption|]. split; [assumption|].
    split; [intros n; destruct (G4 n); hs; split; assumption|]. split.
    + intros [|p] n Hp; simpl in Hp.
      * injection Hp as ->. rewrite G6 by assumption. hs. lia.
      * rewrite (G5 _ _ Hp). lia.
    + intros n Hn. rewrite G6 by (intros Hin; apply Hn; right; assumption). hs.
      destruct (Nat.eqb_spec n x) as [->|]; [exfalso; apply Hn; left; reflexivity|reflexivity].
Qed.

Section Sort.
Context {K : Type} (leb : K -> K -> bool) (keyfn : nid -> res K).

Lemma with_keys_spec c : with_keys keyfn (map Some c) =
  match mapM keyfn c with Ok ks => Ok (map (fun kn => (fst kn, Some (snd kn))) (combine ks c)) | Err e => Err e end.
Proof.
  induction c as [|n c IH]; simpl; [reflexivity|]. destruct (keyfn n) as [k|e]; simpl; [|reflexivity].
  rewrite IH. destruct (mapM keyfn c) as [ks|e]; reflexivity.
Qed.
Lemma mapM_length c : forall ks, mapM keyfn c = Ok ks -> length ks = length c.
Proof.
  induction c as [|n c IH]; intros ks; simpl; [intros [= <-]; reflexivity|]. destruct (keyfn n) as [k|e]; simpl; [|discriminate].
  destruct (mapM keyfn c) as [ks'|e]; simpl; [|discriminate]. intros [= <-]. simpl. f_equal. apply IH. reflexivity.
Qed.
Lemma map_snd_combine {A B} (x : list A) : forall (y : list B), length x = length y -> map snd (combine x y) = y.
Proof. induction x as [|a x IH]; intros [|b y] H; simpl in *; try discriminate; [reflexivity|]. f_equal. apply IH. lia. Qed.
Lemma list_sort_perm c : Permutation (list_sort leb keyfn c) c.
Proof.
  unfold list_sort. destruct (mapM keyfn c) as [ks|e] eqn:E; [|reflexivity].
  transitivity (map snd (combine ks c)).
  - apply Permutation_map. apply Permutation_sym. apply ssort_perm.
  - rewrite map_snd_combine; [reflexivity|]. apply mapM_length. assumption.
Qed.

Lemma sort_spec h l ks : layer_ok h l -> mapM keyfn (content h l) = Ok ks ->
  exists h', layer_sort leb keyfn h l = (h', Ok tt) /\ shrink l h h' /\ layer_ok h' l /\ no_gaps h' l /\
    content h' l = list_sort leb keyfn (content h l) /\ (forall n, n_collof h' n = n_collof h n).
Proof.
  intros Hok Hk. pose proof (compact_ok h l Hok) as Hok1. pose proof (compact_shrink h l Hok) as Hsh1.
  destruct (compact_spec h l Hok) as (F1 & En & Ek & Hr1 & Hr2 & Hr3).
  unfold layer_sort. rewrite En. rewrite with_keys_spec, Hk.
  rewrite (ssort_map fst fst leb (fun kn => (fst kn, Some (snd kn)))) by reflexivity. rewrite map_map. cbn [snd].
  rewrite <- (map_map snd (fun x => Some x)).
  pose proof (list_sort_perm (content h l)) as Hp.
  replace (map snd (ssort fst leb (combine ks (content h l)))) with (list_sort leb keyfn (content h l)) by (unfold list_sort; rewrite Hk; reflexivity).
  set (c' := list_sort leb keyfn (content h l)) in *.
  set (h2 := set_nodes (compact h l) l (map (fun x => Some x) c')).
  assert (Hnd : NoDup c') by (eapply Permutation_NoDup; [apply Permutation_sym; exact Hp|apply layer_ok_NoDup; assumption]).
  assert (Hn2 : l_numof h2 l = zlen c').
  { unfold h2. hs. rewrite Ek, (ok_num _ _ Hok). unfold zlen. f_equal. symmetry. apply Permutation_length. assumption. }
  assert (Hit : firstn (Z.to_nat (layer_len h2 l)) (live (layer_iter h2 l)) = c').
  { unfold layer_len, layer_iter. rewrite Hn2. unfold h2. hs. unfold zlen. rewrite map_length, Z.eqb_refl.
    change (map (fun x : nid => Some x) c') with (map Some c'). rewrite live_map_some, Nat2Z.id. apply firstn_all. }
  rewrite Hit. eexists. split; [reflexivity|].
  destruct (renumber_spec c' Hnd h2 0) as (G1 & G2 & G3 & G4 & G5 & G6).
  assert (Hcoll : forall n, n_collof (renumber h2 0 c') n = n_collof h n).
  { intros n. destruct (G4 n) as [_ ->]. unfold h2. hs. apply Hr1. }
  assert (Hin : forall n, In n c' <-> In n (content h l)).
  { intros n. split; apply Permutation_in; [assumption|apply Permutation_sym; assumption]. }
  assert (Hslots : l_nodesof (renumber h2 0 c') l = map Some c').
  { unfold l_nodesof. rewrite G1. fold (l_nodesof h2 l). unfold h2. hs. reflexivity. }
  split.
  { split.
    - eapply frame_trans; [exact F1|]. pose proof (frame_set_nodes l (compact h l) (map (fun x => Some x) c')) as F. fold h2 in F.
      destruct F. split; intros; unfold l_nameof in *; rewrite ?G1, ?G2, ?G3; auto.
    - intros n. destruct (G4 n) as [-> _]. unfold h2. hs. apply Hr1.
    - intros n Hn. assert (~ In n (content h l)) by (intros X; apply Hn; apply layer_ok_member; assumption).
      split; [|apply Hcoll]. rewrite G6 by (rewrite Hin; assumption). unfold h2. hs. apply Hr3. assumption.
    - intros n Hn. left. rewrite Hcoll. assumption. }
  split.
  { apply (layer_ok_dense _ _ c').
    - assumption.
    - unfold l_numof. rewrite G1. exact Hn2.
    - intros i n Hi. split; [rewrite (G5 _ _ Hi); lia|]. rewrite Hcoll. apply layer_ok_member; [assumption|].
      apply Hin. eapply nth_error_In; eauto.
    - intros n Hn. rewrite Hcoll in Hn. apply Hin. apply layer_ok_member; assumption. }
  split; [unfold no_gaps; rewrite Hslots; intros Hx; apply in_map_iff in Hx; destruct Hx as (? & ? & _); discriminate|].
  split; [unfold content at 1; rewrite Hslots, live_map_some; reflexivity|assumption].
Qed.

Lemma sort_raises h l e : layer_ok h l -> mapM keyfn (content h l) = Err e ->
  layer_sort leb keyfn h l = (compact h l, Err e).
Proof.
  intros Hok He. destruct (compact_spec h l Hok) as (F1 & En & _). unfold layer_sort. rewrite En.
  rewrite with_keys_spec, He. reflexivity.
Qed.

Lemma list_sort_total (key : nid -> K) c : (forall n, In n c -> keyfn n = Ok (key n)) ->
  mapM keyfn c = Ok (map key c) /\ list_sort leb keyfn c = ssort key leb c.
Proof.
  intros H. assert (E : mapM keyfn c = Ok (map key c)).
  { induction c as [|n c IH]; [reflexivity|]. simpl. rewrite H by (left; reflexivity). simpl.
    rewrite IH by (intros; apply H; right; assumption). reflexivity. }
  split; [assumption|]. unfold list_sort. rewrite E.
  assert (Ec : combine (map key c) c = map (fun n => (key n, n)) c) by (clear; induction c; simpl; [reflexivity|f_equal; assumption]).
  rewrite Ec, (ssort_map fst key leb (fun n => (key n, n))) by reflexivity. rewrite map_map. simpl. apply map_id.
Qed.
End Sort.

(** ** navigation *)
Definition last_opt {A} (l : list A) : option A := hd_error (rev l).

Lemma scan_left_spec slots k : (k <= length slots)%nat -> scan_left slots k = Ok (last_opt (live (firstn k slots))).
Proof.
  induction k as [|k IH]; intros Hk; [reflexivity|]. cbn [scan_left].
  destruct (nth_error slots k) as [o|] eqn:E; [|apply nth_error_None in E; lia].
  unfold py_getitem. rewrite py_index_nonneg by (unfold zlen; lia). rewrite Nat2Z.id, E. simpl rbind.
  rewrite (firstn_S_nth _ _ _ E), live_app. destruct o as [m|].
  - simpl. unfold last_opt. rewrite rev_app_distr. reflexivity.
  - simpl. rewrite app_nil_r. apply IH. lia.
Qed.
Lemma scan_right_spec slots k : (k <= length slots)%nat ->
  scan_right slots k = Ok (hd_error (live (skipn (length slots - k) slots))).
Proof.
  induction k as [|k IH]; intros Hk.
  - rewrite Nat.sub_0_r, skipn_all. reflexivity.
  - cbn [scan_right]. destruct (nth_error slots (length slots - S k)) as [o|] eqn:E; [|apply nth_error_None in E; lia].
    unfold py_getitem. rewrite py_index_nonneg by (unfold zlen; lia).
    replace (Z.to_nat (zlen slots - Z.of_nat (S k))) with (length slots - S k)%nat by (unfold zlen; lia). rewrite E. simpl rbind.
    rewrite (nth_error_skipn_cons _ _ _ E). destruct o as [m|]; [reflexivity|]. cbn [live].
    rewrite IH by lia. replace (S (length slots - S k))%nat with (length slots - k)%nat by lia. reflexivity.
Qed.

Lemma split_unique {A} (a b a' b' : list A) n : NoDup (a ++ n :: b) -> a ++ n :: b = a' ++ n :: b' -> a = a' /\ b = b'.
Proof.
  revert a'. induction a as [|x a IH]; intros a' Hnd E; destruct a' as [|x' a']; simpl in *.
  - injection E as ->. auto.
  - exfalso. injection E as -> E. subst b. inversion Hnd as [|? ? Hni _]; subst. apply Hni. apply in_or_app. right. left. reflexivity.
  - exfalso. injection E as -> E. inversion Hnd as [|? ? Hni _]; subst. apply Hni. apply in_or_app. right. left. reflexivity.
  - injection E as -> E. inversion Hnd; subst. destruct (IH a') as [-> ->]; auto.
Qed.

(** where a node sits *)
Lemma member_pos h l n a b : layer_ok h l -> content h l = a ++ n :: b ->
  exists i, n_idof h n = Z.of_nat i /\ nth_error (l_nodesof h l) i = Some (Some n) /\
    a = live (firstn i (l_nodesof h l)) /\ b = live (skipn (S i) (l_nodesof h l)).
Proof.
  intros Hok Ec. pose proof (layer_ok_NoDup _ _ Hok) as Hnd.
  assert (Hn : n_collof h n = Some l) by (apply layer_ok_member; [assumption|]; rewrite Ec; apply in_or_app; right; left; reflexivity).
  destruct (ok_coll _ _ Hok n Hn) as (i & Ei & Es). exists i. split; [assumption|]. split; [assumption|].
  destruct (live_upd_none _ _ _ Es) as [_ L]. unfold content in Ec, Hnd. rewrite Ec in *.
  apply (split_unique a b _ _ n); assumption.
Qed.

Lemma left_right_spec h l n a b : layer_ok h l -> content h l = a ++ n :: b ->
  layer_left h l n = Ok (last_opt a) /\ layer_right h l n = Ok (hd_error b).
Proof.
  intros Hok Ec. destruct (member_pos h l n a b Hok Ec) as (i & Ei & Es & Ea & Eb).
  assert (Hn : layer_contains h l n = true).
  { rewrite contains_mem by assumption. apply mem_nid_In. rewrite Ec. apply in_or_app. right. left. reflexivity. }
  assert (Hi : (i < length (l_nodesof h l))%nat) by (apply nth_error_Some; congruence).
  unfold layer_left, layer_right, node_i. rewrite Hn, Ei. destruct (Z.eqb_spec (Z.of_nat i) (-1)); [lia|]. simpl rbind.
  split.
  - rewrite Nat2Z.id, scan_left_spec by lia. rewrite Ea. reflexivity.
  - replace (Z.to_nat (zlen (l_nodesof h l) - (Z.of_nat i + 1))) with (length (l_nodesof h l) - S i)%nat by (unfold zlen; lia).
    rewrite scan_right_spec by lia. replace (length (l_nodesof h l) - (length (l_nodesof h l) - S i))%nat with (S i) by lia.
    rewrite Eb. reflexivity.
Qed.

Lemma get_range_spec slots : forall k i, (i + k <= length slots)%nat ->
  get_range slots (Z.of_nat i) k = Ok (firstn k (skipn i slots)).
Proof.
  induction k as [|k IH]; intros i Hi; [reflexivity|]. cbn [get_range].
  destruct (nth_error slots i) as [o|] eqn:E; [|apply nth_error_None in E; lia].
  unfold py_getitem. rewrite py_index_nonneg by (unfold zlen; lia). rewrite Nat2Z.id, E. simpl rbind.
  replace (Z.of_nat i + 1) with (Z.of_nat (S i)) by lia. rewrite IH by lia. simpl rbind.
  rewrite (nth_error_skipn_cons _ _ _ E). reflexivity.
Qed.

Lemma id_order h l p q x y : layer_ok h l -> nth_error (content h l) p = Some x -> nth_error (content h l) q = Some y ->
  (n_idof h x < n_idof h y <-> (p < q)%nat).
Proof.
  intros Hok Hp Hq.
  assert (Hpos : forall p x, nth_error (content h l) p = Some x ->
            exists i, n_idof h x = Z.of_nat i /\ (i < length (l_nodesof h l))%nat /\ p = length (live (firstn i (l_nodesof h l))) /\
                      nth_error (l_nodesof h l) i = Some (Some x)).
  { clear p q x y Hp Hq. intros p x Hp. destruct (nth_error_split _ _ Hp) as (a & b & Ec & Ep).
    destruct (member_pos h l x a b Hok Ec) as (i & Ei & Es & Ea & _). exists i. split; [assumption|].
    split; [apply nth_error_Some; congruence|]. split; [congruence|assumption]. }
  destruct (Hpos _ _ Hp) as (i & Ei & Hi & Epi & Si). destruct (Hpos _ _ Hq) as (j & Ej & Hj & Eqj & Sj).
  assert (Hmono : forall i j x, nth_error (l_nodesof h l) i = Some (Some x) -> (i < j)%nat ->
            (length (live (firstn i (l_nodesof h l))) < length (live (firstn j (l_nodesof h l))))%nat).
  { clear. intros i j x Hi Hij. replace j with (S i + (j - S i))%nat by lia. 
    assert (E : firstn (S i + (j - S i)) (l_nodesof h l) = firstn (S i) (l_nodesof h l) ++ firstn (j - S i) (skipn (S i) (l_nodesof h l))).
    { generalize (S i) (j - S i)%nat (l_nodesof h l). clear. intros a b l. revert a b. induction l as [|x l IH]; intros [|a] [|b]; simpl; try reflexivity.
      - f_equal. apply (IH a 0%nat). - f_equal. apply (IH a (S b)). }
    rewrite E, live_app, app_length, (firstn_S_nth _ _ _ Hi), live_app, app_length. simpl. lia. }
  rewrite Ei, Ej. destruct (lt_eq_lt_dec i j) as [[H|H]|H].
  - pose proof (Hmono _ _ _ Si H). split; lia.
  - subst. split; lia.
  - pose proof (Hmono _ _ _ Sj H). split; lia.
Qed.

Lemma live_sub_content slots i j x y : nth_error slots i = Some (Some x) -> nth_error slots j = Some (Some y) -> (i <= j)%nat ->
  live (firstn (S j - i) (skipn i slots)) =
  firstn (S (length (live (firstn j slots))) - length (live (firstn i slots))) (skipn (length (live (firstn i slots))) (live slots)).
Proof.
  intros Hi Hj Hij.
  assert (E : skipn (length (live (firstn i slots))) (live slots) = live (skipn i slots)).
  { rewrite <- (firstn_skipn i slots) at 2. rewrite live_app, skipn_app, Nat.sub_diag, skipn_all. reflexivity. }
  rewrite E.
  assert (E2 : firstn (S j) slots = firstn i slots ++ firstn (S j - i) (skipn i slots)).
  { clear -Hij. revert i j Hij. induction slots as [|a l IH]; intros [|i] j H; simpl; rewrite ?firstn_nil, ?Nat.sub_0_r; try reflexivity.
    destruct j as [|j]; [lia|]. f_equal. change (S (S j) - S i)%nat with (S j - i)%nat. apply IH. lia. }
  assert (E3 : length (live (firstn (S j) slots)) = S (length (live (firstn j slots)))).
  { rewrite (firstn_S_nth _ _ _ Hj), live_app, app_length. simpl. lia. }
  rewrite E2, live_app, app_length in E3.
  replace (S (length (live (firstn j slots))) - length (live (firstn i slots)))%nat with (length (live (firstn (S j - i) (skipn i slots)))) by lia.
  rewrite <- (firstn_skipn (S j - i) (skipn i slots)) at 3. rewrite live_app, firstn_app, Nat.sub_diag, firstn_O, app_nil_r, firstn_all. reflexivity.
Qed.

(** the run from position p to position q, inclusive *)
Definition run (c : list nid) (p q : nat) : list nid := firstn (S q - p) (skipn p c).

Lemma iter_nodespan_spec h l p q x y : layer_ok h l ->
  nth_error (content h l) p = Some x -> nth_error (content h l) q = Some y -> (p <= q)%nat ->
  iter_nodespan h l x y = Ok (run (content h l) p q).
Proof.
  intros Hok Hp Hq Hpq.
  destruct (nth_error_split _ _ Hp) as (a & b & Ec & Ep). destruct (member_pos h l x a b Hok Ec) as (i & Ei & Si & Ea & _).
  destruct (nth_error_split _ _ Hq) as (a' & b' & Ec' & Eq). destruct (member_pos h l y a' b' Hok Ec') as (j & Ej & Sj & Ea' & _).
  assert (Hij : (i <= j)%nat).
  { destruct (le_lt_dec i j); [assumption|]. exfalso. pose proof (id_order h l q p y x Hok Hq Hp) as H. rewrite Ei, Ej in H. lia. }
  assert (Hjl : (j < length (l_nodesof h l))%nat) by (apply nth_error_Some; congruence).
  assert (Cx : n_collof h x = Some l) by (apply (ok_slot _ _ Hok i); assumption).
  assert (Cy : n_collof h y = Some l) by (apply (ok_slot _ _ Hok j); assumption).
  unfold iter_nodespan, node_i. rewrite Ei, Ej.
  destruct (Z.eqb_spec (Z.of_nat i) (-1)); [lia|]. destruct (Z.eqb_spec (Z.of_nat j) (-1)); [lia|]. simpl rbind.
  destruct (Z.leb_spec (Z.of_nat i) (Z.of_nat j)); [|lia]. rewrite Cx, Cy. simpl. rewrite Nat.eqb_refl. simpl.
  replace (Z.to_nat (Z.of_nat j + 1 - Z.of_nat i)) with (S j - i)%nat by lia.
  rewrite get_range_spec by lia. cbn [rbind]. f_equal.
  rewrite (live_sub_content _ i j x y Si Sj Hij). fold (content h l). rewrite <- Ea, <- Ea'. unfold run. congruence.
Qed.

Lemma nodespan_spec h l p q x y : layer_ok h l ->
  nth_error (content h l) p = Some x -> nth_error (content h l) q = Some y -> (p <= q)%nat ->
  new_nodespan h x y = Ok (x, y) /\ nodespan_iter h x y = Ok (run (content h l) p q) /\
  nodespan_len h x y = Ok (Z.of_nat (S q - p)) /\
  iter_span h x y = Ok (run (content h l) p q) /\ iter_span h y x = Ok (run (content h l) p q).
Proof.
  intros Hok Hp Hq Hpq. pose proof (iter_nodespan_spec h l p q x y Hok Hp Hq Hpq) as Hit.
  assert (Cx : n_collof h x = Some l) by (apply layer_ok_member; [assumption|eapply nth_error_In; eauto]).
  assert (Cy : n_collof h y = Some l) by (apply layer_ok_member; [assumption|eapply nth_error_In; eauto]).
  destruct (ok_coll _ _ Hok _ Cx) as (i & Ei & Si). destruct (ok_coll _ _ Hok _ Cy) as (j & Ej & Sj).
  pose proof (id_order h l q p y x Hok Hq Hp) as Ho.
  assert (Hij : Z.of_nat i <= Z.of_nat j) by (rewrite Ei, Ej in Ho; lia).
  assert (Ix : node_i h x = Ok (Z.of_nat i)) by (unfold node_i; rewrite Ei; destruct (Z.eqb_spec (Z.of_nat i) (-1)); [lia|reflexivity]).
  assert (Iy : node_i h y = Ok (Z.of_nat j)) by (unfold node_i; rewrite Ej; destruct (Z.eqb_spec (Z.of_nat j) (-1)); [lia|reflexivity]).
  assert (Hs1 : iter_span h x y = Ok (run (content h l) p q)).
  { unfold iter_span. rewrite Ix, Iy. simpl rbind. rewrite Cx. destruct (Z.leb_spec (Z.of_nat i) (Z.of_nat j)); [assumption|lia]. }
  assert (Hni : nodespan_iter h x y = Ok (run (content h l) p q)).
  { unfold nodespan_iter. rewrite Ix, Iy. simpl rbind. destruct (Z.leb_spec (Z.of_nat i) (Z.of_nat j)); [assumption|lia]. }
  split.
  { unfold new_nodespan. rewrite Cx, Ix, Iy. simpl rbind. destruct (Z.leb_spec (Z.of_nat i) (Z.of_nat j)); [|lia].
    rewrite Cy. simpl. rewrite Nat.eqb_refl. reflexivity. }
  split; [assumption|]. split.
  { unfold nodespan_len. rewrite Hni. cbn [rbind]. f_equal. unfold zlen. f_equal. unfold run.
    assert ((q < length (content h l))%nat) by (apply nth_error_Some; congruence).
    rewrite firstn_length, skipn_length. lia. }
  split; [assumption|].
  unfold iter_span. rewrite Ix, Iy. simpl rbind. rewrite Cy. destruct (Z.leb_spec (Z.of_nat j) (Z.of_nat i)).
  - assert (i = j) by lia. subst j. assert (Some x = Some y) by congruence. injection H0 as <-. assumption.
  - assumption.
Qed.

(** layer[i], layer[a:b], first, last *)
Lemma getitem_id h l n : layer_ok h l -> n_collof h n = Some l -> layer_getitem h l (n_idof h n) = Ok (Some n).
Proof.
  intros Hok Hn. destruct (ok_coll _ _ Hok n Hn) as (i & -> & Es). unfold layer_getitem, py_getitem.
  assert ((i < length (l_nodesof h l))%nat) by (apply nth_error_Some; congruence).
  rewrite py_index_nonneg by (unfold zlen; lia). rewrite Nat2Z.id, Es. reflexivity.
Qed.
