(** The Java layer: retainAll, sort, reading. *)
From Verif Require Import PyBase PyBaseFacts Model_Heap Model_Layer Spec_Layer Model_Types Proof_Heap Proof_Layer Proof_Layer2
  Model_JLayer Spec_JLayer Proof_JLayer.
Local Open Scope Z_scope.

(** ** retainAll *)
Definition flipped (h h1 : heap) (ns : list nid) : Prop :=
  h_layer h1 = h_layer h /\ h_nnext h1 = h_nnext h /\ h_lnext h1 = h_lnext h /\
  (forall m, n_collof h1 m = n_collof h m /\ n_fieldsof h1 m = n_fieldsof h m /\
             n_idof h1 m = if Nat.odd (times m ns) then - n_idof h m else n_idof h m).
Lemma mark_spec l ns : forall h b, (forall n, In n ns -> n_collof h n = Some l) ->
  exists h1, jretain_mark h l (map RNode ns) b = (h1, Ok (match ns with [] => b | _ => true end)) /\ flipped h h1 ns.
Proof.
  induction ns as [|n ns IH]; intros h b H; cbn [map jretain_mark].
  - exists h. split; [reflexivity|]. do 3 (split; [reflexivity|]). intros m. cbn. auto.
  - assert (C : jl_contains h l n = true) by (apply contains_iff, H; left; reflexivity). rewrite C. cbn [negb].
    destruct (IH (set_id h n (- n_idof h n)) true) as (h1 & E & F1 & F2 & F3 & F4).
    { intros m I. hs. apply H. right. exact I. }
    exists h1. rewrite E. split; [destruct ns; reflexivity|]. split; [rewrite F1; reflexivity|]. split; [rewrite F2; reflexivity|]. split; [rewrite F3; reflexivity|].
    intros m. destruct (F4 m) as (A & B & D). rewrite A, B, D. hs. split; [reflexivity|]. split; [reflexivity|]. cbn [times]. rewrite (Nat.eqb_sym m n). destruct (Nat.eqb_spec n m) as [->|Ne]; [|reflexivity].
    rewrite Nat.add_1_l, Nat.odd_succ, <- Nat.negb_odd. destruct (Nat.odd (times m ns)); cbn [negb]; lia.
Qed.

(** the sweep over slots whose nodes are all different *)
Definition swept (h1 : heap) (o : option nid) : option nid :=
  match o with Some n => if 0 <=? n_idof h1 n then None else Some n | None => None end.
Lemma sweep_spec l todo : forall h i, (i + todo = length (l_nodesof h l))%nat -> NoDup (live (skipn i (l_nodesof h l))) ->
  let h' := jretain_sweep h l i todo in
  frame l h h' /\ l_nodesof h' l = firstn i (l_nodesof h l) ++ map (swept h) (skipn i (l_nodesof h l)) /\
  l_numof h' l = l_numof h l - (zlen (live (skipn i (l_nodesof h l))) - zlen (live (map (swept h) (skipn i (l_nodesof h l))))) /\
  (forall m, n_collof h' m = n_collof h m /\ n_fieldsof h' m = n_fieldsof h m) /\
  (forall m, ~ In m (live (skipn i (l_nodesof h l))) -> n_idof h' m = n_idof h m) /\
  (forall m, In m (live (skipn i (l_nodesof h l))) -> n_idof h' m = if 0 <=? n_idof h m then n_idof h m else - n_idof h m).
Proof.
  induction todo as [|k IH]; intros h i L ND; cbv zeta; cbn [jretain_sweep].
  - rewrite Nat.add_0_r in L. subst i. rewrite skipn_all, firstn_all. cbn [live map]. split; [apply frame_refl|]. split; [symmetry; apply app_nil_r|]. split; [cbn; lia|]. split; [auto|]. split; [auto|]. intros m [].
  - destruct (nth_error (l_nodesof h l) i) as [o|] eqn:E; [|apply nth_error_None in E; lia].
    pose proof (nth_error_skipn_cons _ _ _ E) as Es. rewrite Es in *. destruct o as [n|].
    + cbn [live] in ND. inversion ND as [|? ? Nn ND']; subst. cbn [map swept live]. destruct (0 <=? n_idof h n) eqn:Ez.
      * set (g := set_num (set_nodes h l (upd_nth (l_nodesof h l) i None)) l (l_numof h l - 1)).
        assert (G1 : l_nodesof g l = upd_nth (l_nodesof h l) i None) by (unfold g; hs; reflexivity).
        assert (G2 : l_numof g l = l_numof h l - 1) by (unfold g; hs; reflexivity).
        assert (G3 : forall m, n_idof g m = n_idof h m /\ n_collof g m = n_collof h m /\ n_fieldsof g m = n_fieldsof h m) by (intros m; unfold g; hs; auto).
        assert (G4 : skipn (S i) (l_nodesof g l) = skipn (S i) (l_nodesof h l)) by (rewrite G1; apply skipn_upd_nth; lia).
        assert (G5 : forall x, map (swept g) x = map (swept h) x) by (intros x; apply map_ext; intros [m|]; [|reflexivity]; cbn; destruct (G3 m) as [-> _]; reflexivity).
        destruct (IH g (S i)) as (F & S1 & S2 & S3 & S4 & S5); [rewrite G1, upd_nth_length; lia|rewrite G4; assumption|]. cbv zeta in *. rewrite G4, G5 in *. rewrite G1 in S1. rewrite G2 in S2.
        split; [eapply frame_trans; [|exact F]; unfold g; eapply frame_trans; [apply frame_set_nodes|apply frame_set_num]|].
        split; [rewrite S1, firstn_upd_nth by lia; rewrite <- app_assoc; reflexivity|]. split; [rewrite S2; unfold zlen; cbn [length]; lia|].
        split; [intros m; destruct (S3 m) as [-> ->]; destruct (G3 m) as (_ & -> & ->); auto|]. split.
        -- intros m Hm. rewrite S4 by (intros X; apply Hm; right; exact X). apply G3.
        -- intros m [->|Hm]; [|rewrite S5 by assumption; destruct (G3 m) as [-> _]; reflexivity]. rewrite S4 by assumption. destruct (G3 m) as [-> _]. rewrite Ez. reflexivity.
      * set (g := set_id h n (- n_idof h n)).
        assert (G3 : forall m, m <> n -> n_idof g m = n_idof h m) by (intros m Ne; unfold g; hs; destruct (Nat.eqb_spec m n); congruence).
        assert (G5 : map (swept g) (skipn (S i) (l_nodesof h l)) = map (swept h) (skipn (S i) (l_nodesof h l))).
        { apply map_ext_in. intros [m|] I; [|reflexivity]. cbn. rewrite G3; [reflexivity|]. intros ->. apply Nn, live_In. exact I. }
        destruct (IH g (S i)) as (F & S1 & S2 & S3 & S4 & S5); [unfold g; hs; lia|exact ND'|]. cbv zeta in *. change (l_nodesof g l) with (l_nodesof h l) in *. change (l_numof g l) with (l_numof h l) in *. rewrite G5 in *.
        split; [eapply frame_trans; [apply frame_set_id|exact F]|]. split; [rewrite S1, (firstn_S_nth _ _ _ E), <- app_assoc; reflexivity|]. split; [rewrite S2; unfold zlen; cbn [length]; lia|].
        split; [intros m; destruct (S3 m) as [-> ->]; unfold g; hs; auto|]. split.
        -- intros m Hm. rewrite S4 by (intros X; apply Hm; right; exact X). apply G3. intros ->. apply Hm. left. reflexivity.
        -- intros m [->|Hm]; [rewrite S4 by assumption; unfold g; hs; rewrite Ez; reflexivity|]. rewrite S5 by assumption. rewrite G3; [reflexivity|]. intros ->. contradiction.
    + cbn [live map swept] in *. destruct (IH h (S i)) as (F & S1 & S2 & S3 & S4 & S5); [lia|assumption|]. cbv zeta in *.
      split; [assumption|]. split; [rewrite S1, (firstn_S_nth _ _ _ E), <- app_assoc; reflexivity|]. split; [assumption|]. split; [assumption|]. split; assumption.
Qed.

Lemma live_swept h sl : live (map (swept h) sl) = filter (fun n => negb (0 <=? n_idof h n)) (live sl).
Proof. induction sl as [|[n|] sl IH]; cbn; [reflexivity| |assumption]. destruct (0 <=? n_idof h n); cbn; [assumption|f_equal; assumption]. Qed.
Lemma NoDup_filter_nid (f : nid -> bool) c : NoDup c -> NoDup (filter f c).
Proof. apply NoDup_filter. Qed.
Lemma content_id h l n : layer_ok h l -> In n (content h l) -> 0 <= n_idof h n.
Proof. intros O I. apply (layer_ok_member h l n O) in I. destruct (ok_coll _ _ O n I) as (i & -> & _). lia. Qed.

(** slots, count and ids agree; nothing is said of nodes that are in no slot *)
Definition slots_ok (h : heap) (l : lid) : Prop :=
  jl_size h l = zlen (jl_iter h l) /\ (forall n, In n (jl_iter h l) -> jl_contains h l n = true /\ jl_get h l (n_idof h n) = Ok (Some n)).
Lemma retain_spec h l ns : layer_ok h l -> ns <> [] -> (forall n, In n ns -> n_collof h n = Some l) ->
  exists h', jl_retain_all h l (map RNode ns) = (h', Ok true) /\ content h' l = odd_kept h l ns /\ slots_ok h' l /\ (forall n, n_collof h' n = n_collof h n) /\
    others_untouched l h h'.
Proof.
  intros O Ne H. unfold jl_retain_all. destruct (mark_spec l ns h false H) as (h1 & -> & F1 & F2 & F3 & F4). destruct ns as [|n0 ns0]; [congruence|]. set (ns := n0 :: ns0) in *.
  assert (N1 : l_nodesof h1 l = l_nodesof h l) by (unfold l_nodesof; rewrite F1; reflexivity).
  assert (K1 : l_numof h1 l = l_numof h l) by (unfold l_numof; rewrite F1; reflexivity).
  assert (ND : NoDup (content h l)) by (apply layer_ok_NoDup; assumption).
  destruct (sweep_spec l (length (l_nodesof h1 l)) h1 0) as (F & S1 & S2 & S3 & S4 & S5); [reflexivity|rewrite N1; exact ND|]. cbv zeta in *. cbn [skipn firstn app] in *. rewrite N1 in *. fold (content h l) in *.
  set (h2 := jretain_sweep h1 l 0 (length (l_nodesof h l))) in *.
  assert (Ec : content h2 l = odd_kept h l ns).
  { unfold content at 1. rewrite S1, live_swept. unfold odd_kept. apply filter_ext_in. intros m I. destruct (F4 m) as (_ & _ & ->). pose proof (content_id h l m O I).
    destruct (Nat.odd (times m ns)); cbn [andb]; [|destruct (Z.leb_spec 0 (n_idof h m)); [reflexivity|lia]]. destruct (Z.leb_spec 0 (- n_idof h m)), (Z.eqb_spec (n_idof h m) 0); try reflexivity; lia. }
  assert (Nk : l_numof h2 l = zlen (content h2 l)).
  { rewrite S2, K1, (ok_num _ _ O). unfold content at 3. rewrite S1. lia. }
  assert (Id : forall m, In m (content h2 l) -> n_idof h2 m = n_idof h m).
  { intros m I. rewrite Ec in I. unfold odd_kept in I. apply filter_In in I. destruct I as [I B]. rewrite S5 by assumption. destruct (F4 m) as (_ & _ & ->). apply andb_true_iff in B. destruct B as [B1 B2]. rewrite B1.
    pose proof (content_id h l m O I). destruct (Z.eqb_spec (n_idof h m) 0); [discriminate|]. destruct (Z.leb_spec 0 (- n_idof h m)); lia. }
  assert (Co : forall m, n_collof h2 m = n_collof h m) by (intros m; destruct (S3 m) as [-> _]; apply F4).
  assert (Fr : frame l h h2).
  { eapply frame_trans; [|exact F]. split; try assumption; unfold l_nameof; intros; rewrite F1; reflexivity. }
  assert (Oth : forall m, n_collof h m <> Some l -> n_idof h2 m = n_idof h m).
  { intros m C. rewrite S4; [|intros I; apply C, layer_ok_member; assumption]. destruct (F4 m) as (_ & _ & ->). destruct (Nat.odd (times m ns)) eqn:Od; [|reflexivity]. exfalso.
    destruct (in_dec Nat.eq_dec m ns) as [I|I]; [apply C, H, I|]. assert (T : times m ns = 0%nat); [|rewrite T in Od; discriminate].
    clear -I. induction ns as [|x r IH]; [reflexivity|]. cbn [times]. destruct (Nat.eqb_spec x m) as [->|]; [exfalso; apply I; left; reflexivity|]. apply IH. intros X. apply I. right. exact X. }
  assert (ND2 : NoDup (content h2 l)) by (rewrite Ec; apply NoDup_filter_nid; assumption).
  assert (Fin : forall h', (forall m, n_collof h' m = n_collof h2 m) -> frame l h2 h' -> (forall m, ~ In m (content h2 l) -> n_idof h' m = n_idof h2 m) -> others_untouched l h h').
  { intros h' C' F' I' l' Nl. split; [rewrite (fr_layer _ _ _ F' l' Nl); apply (fr_layer _ _ _ Fr l' Nl)|]. intros O'. apply (layer_ok_frame h h' l' O'); [rewrite (fr_layer _ _ _ F' l' Nl); apply (fr_layer _ _ _ Fr l' Nl)|].
    intros m Hm. rewrite C', Co in *. assert (Cm : n_collof h m <> Some l) by (destruct Hm; congruence). split; [|reflexivity]. rewrite I', Oth; [reflexivity|assumption|]. rewrite Ec. intros X. apply Cm, layer_ok_member; [assumption|]. unfold odd_kept in X. apply filter_In in X. tauto. }
  unfold jl_auto. destruct (sparse (l_numof h2 l) (zlen (l_nodesof h2 l))).
  - destruct (jcompact_gen h2 l ND2 Nk) as (h3 & -> & F3' & Nk3 & Es & R1 & R2 & R3). exists h3. split; [reflexivity|]. assert (C3 : content h3 l = content h2 l) by (unfold content at 1; rewrite Es; apply packed_live).
    split; [congruence|]. split; [|split; [intros n; destruct (R1 n) as [_ ->]; apply Co|apply Fin; auto; intros m; apply R1]].
    split; [unfold jl_size, jl_iter; fold (content h3 l); congruence|]. unfold jl_iter. fold (content h3 l). rewrite C3. intros n I. split.
    + apply contains_iff. destruct (R1 n) as [_ ->]. rewrite Co. apply layer_ok_member; [assumption|]. rewrite Ec in I. unfold odd_kept in I. apply filter_In in I. tauto.
    + destruct (In_nth_error _ _ I) as [i Hi]. rewrite (R2 i n Hi). unfold jl_get. rewrite Nat.add_0_l, java_get_nat, Es. apply (proj2 (packed_slot _ (zlen (l_nodesof h2 l)) _ _)) in Hi. rewrite Hi. reflexivity.
  - exists h2. split; [reflexivity|]. split; [assumption|]. split; [|split; [assumption|apply Fin; auto using frame_refl]].
    split; [assumption|]. unfold jl_iter. fold (content h2 l). intros n I. pose proof I as I'. rewrite Ec in I'. unfold odd_kept in I'. apply filter_In in I'. destruct I' as [I' B].
    split; [apply contains_iff; rewrite Co; apply layer_ok_member; assumption|]. rewrite (Id n I). apply (layer_ok_member h l n O) in I'. destruct (ok_coll _ _ O n I') as (i & Ei & Hi). rewrite Ei. unfold jl_get. rewrite java_get_nat, S1, nth_error_map, Hi. cbn [option_map swept].
    destruct (F4 n) as (_ & _ & Ex). rewrite Ex. apply andb_true_iff in B. destruct B as [B1 B2]. rewrite B1. rewrite Ei in *. destruct (Z.eqb_spec (Z.of_nat i) 0); [discriminate|]. destruct (Z.leb_spec 0 (- Z.of_nat i)); [lia|reflexivity].
Qed.
Lemma retain_ok_iff h l ns : layer_ok h l -> ns <> [] -> (forall n, In n ns -> n_collof h n = Some l) ->
  (layer_ok (fst (jl_retain_all h l (map RNode ns))) l <-> odd_kept h l ns = content h l).
Proof.
  intros O Ne H. destruct (retain_spec h l ns O Ne H) as (h' & E & C & [S1 S2] & Co & _). rewrite E. cbn [fst]. split.
  - intros O'. rewrite <- C. assert (A : forall n, In n (content h' l) <-> In n (content h l)).
    { intros n. rewrite <- (layer_ok_member h' l n O'), <- (layer_ok_member h l n O), Co. reflexivity. }
    assert (T : odd_kept h l ns = content h l).
    { unfold odd_kept. apply filter_all_true. intros n I. apply A in I. rewrite C in I. unfold odd_kept in I. apply filter_In in I. tauto. }
    congruence.
  - intros T. rewrite T in C. unfold jl_iter, jl_size in *. fold (content h' l) in *. split; [congruence| |].
    + intros i n Hi. assert (I : In n (content h' l)) by (eapply nth_error_live_In; eauto). destruct (S2 n I) as [Cn Gn]. split; [|apply contains_iff; assumption].
      unfold jl_get, java_get in Gn. destruct (Z.leb_spec 0 (n_idof h' n)); [|discriminate]. destruct (nth_error (l_nodesof h' l) (Z.to_nat (n_idof h' n))) as [o|] eqn:E'; [|discriminate]. injection Gn as ->.
      assert (ND : NoDup (live (l_nodesof h' l))) by (fold (content h' l); rewrite C; apply layer_ok_NoDup; assumption).
      assert (Ej : Z.to_nat (n_idof h' n) = i); [|lia]. clear -ND Hi E'. revert i Hi. generalize dependent (Z.to_nat (n_idof h' n)). induction (l_nodesof h' l) as [|x r IH]; intros j Hj i Hi; [destruct i; discriminate|].
      destruct j as [|j], i as [|i]; cbn in *; [reflexivity| | |].
      * injection Hj as ->. exfalso. cbn [live] in ND. inversion ND; subst. apply H1. eapply nth_error_live_In; eauto.
      * injection Hi as ->. exfalso. cbn [live] in ND. inversion ND; subst. apply H1. eapply nth_error_live_In; eauto.
      * f_equal. apply IH; auto. destruct x; [inversion ND; assumption|assumption].
    + intros n Hn. rewrite Co in Hn. apply (layer_ok_member h l n O) in Hn. rewrite <- C in Hn. destruct (S2 n Hn) as [_ Gn]. unfold jl_get, java_get in Gn. destruct (Z.leb_spec 0 (n_idof h' n)); [|discriminate]. exists (Z.to_nat (n_idof h' n)). split; [lia|]. destruct (nth_error _ _); congruence.
Qed.

(** ** sort *)
Lemma sort_spec leb h l : layer_ok h l -> exists h', jl_sort leb h l = (h', Ok tt) /\ content h' l = ssort (fun n => n) leb (content h l) /\ keeps l h h' /\
  (layer_ok h' l <-> ssort (fun n => n) leb (content h l) = content h l) /\ (forall i n, nth_error (content h l) i = Some n -> n_idof h' n = Z.of_nat i).
Proof.
  intros O. unfold jl_sort. destruct (jcompact_spec h l O) as (h1 & -> & S & O1 & V & Co & Es & Ei). injection V as C1 L1. rewrite (ok_num _ _ O1), C1.
  assert (En : Z.to_nat (zlen (content h l)) = length (content h l)) by (unfold zlen; lia). rewrite En.
  assert (Fp : firstn (length (content h l)) (l_nodesof h1 l) = map Some (content h l)).
  { rewrite Es. unfold packed_slots. rewrite firstn_app, map_length, Nat.sub_diag, firstn_O, app_nil_r. apply firstn_all2. rewrite map_length. lia. }
  pose proof (slots_ge h1 l) as G. rewrite C1 in G. destruct (Z.ltb_spec (zlen (l_nodesof h1 l)) (zlen (content h l))); [lia|]. rewrite Fp, live_map_some. unfold zlen at 1 2. rewrite map_length, Z.ltb_irrefl.
  set (c' := ssort (fun n : nid => n) leb (content h l)). assert (P : Permutation (content h l) c') by apply ssort_perm.
  set (tail := skipn (length (content h l)) (l_nodesof h1 l)). assert (Et : exists k, tail = repeat None k).
  { unfold tail. rewrite Es. unfold packed_slots. rewrite skipn_app, map_length, Nat.sub_diag. rewrite skipn_all2 by (rewrite map_length; lia). cbn [skipn app]. eexists. reflexivity. }
  destruct Et as [k Et]. eexists. split; [reflexivity|]. set (h' := set_nodes _ l _).
  assert (Sl : l_nodesof h' l = map Some c' ++ repeat None k) by (unfold h'; hs; rewrite Et; reflexivity).
  assert (Ec : content h' l = c') by (unfold content at 1; rewrite Sl, live_app, live_map_some, live_nulls; apply app_nil_r).
  assert (Co' : forall m, n_collof h' m = n_collof h m) by (intros m; unfold h'; hs; apply Co). assert (Id : forall m, n_idof h' m = n_idof h1 m) by (intros m; unfold h'; hs; reflexivity).
  assert (Nn : l_numof h' l = l_numof h1 l) by (unfold h'; hs; reflexivity).
  split; [exact Ec|]. split.
  { apply (keeps_trans l h h1 h'); [apply shrink_keeps; assumption|]. apply shrink_keeps. split; [apply frame_set_nodes|intros; unfold h'; hs; reflexivity|intros; unfold h'; hs; auto|intros n Hn; left; unfold h'; hs; assumption]. }
  split.
  - split.
    + intros O'. apply nth_ext with (d := 0%nat) (d' := 0%nat); [symmetry; apply Permutation_length; assumption|]. intros i Hi.
      destruct (nth_error c' i) as [m|] eqn:E; [|apply nth_error_None in E; lia]. assert (Hs : nth_error (l_nodesof h' l) i = Some (Some m)) by (rewrite Sl, nth_error_app1 by (rewrite map_length; assumption); rewrite nth_error_map, E; reflexivity).
      destruct (ok_slot _ _ O' i m Hs) as [E1 _]. rewrite Id in E1. assert (I : In m (content h l)) by (eapply Permutation_in; [apply Permutation_sym; exact P|eapply nth_error_In; eauto]). destruct (In_nth_error _ _ I) as [j Hj]. rewrite (Ei j m Hj) in E1. apply Nat2Z.inj in E1. subst j.
      rewrite (nth_error_nth _ _ _ E), (nth_error_nth _ _ _ Hj). reflexivity.
    + intros T. split; [rewrite Nn, (ok_num _ _ O1), C1, Ec; symmetry; f_equal; exact T| |].
      * intros i n Hi. rewrite Sl, T in Hi. assert (Hc : nth_error (content h l) i = Some n).
        { destruct (lt_dec i (length (content h l))) as [L|L]; [rewrite nth_error_app1 in Hi by (rewrite map_length; assumption); rewrite nth_error_map in Hi; destruct (nth_error (content h l) i); cbn in Hi; congruence|].
          rewrite nth_error_app2 in Hi by (rewrite map_length; lia). exfalso. eapply nth_nulls; exact Hi. }
        rewrite Id, Co', (Ei _ _ Hc). split; [reflexivity|]. apply layer_ok_member; [assumption|]. eapply nth_error_In; eauto.
      * intros n Hn. rewrite Co' in Hn. apply (layer_ok_member h l n O) in Hn. destruct (In_nth_error _ _ Hn) as [i Hi]. exists i. rewrite Id, (Ei _ _ Hi). split; [reflexivity|]. rewrite Sl, T, nth_error_app1 by (rewrite map_length; apply nth_error_Some; congruence). rewrite nth_error_map, Hi. reflexivity.
  - intros i n Hi. rewrite Id. apply Ei. assumption.
Qed.

(** ** reading *)
Lemma jget_range_eq sl k : forall a, 0 <= a -> jget_range sl a k = get_range sl a k.
Proof.
  induction k as [|k IH]; intros a Ha; cbn [jget_range get_range]; [reflexivity|]. rewrite IH by lia. assert (E : java_get sl a = py_getitem sl a) by (rewrite <- (Z2Nat.id a Ha), java_get_nat, py_getitem_nat; reflexivity). rewrite E. reflexivity.
Qed.
Lemma jnodespan_spec h l p q x y : layer_ok h l -> nth_error (content h l) p = Some x -> nth_error (content h l) q = Some y ->
  jl_nodespan h l x y = if (p <=? q)%nat then Ok (run (content h l) p q) else Err DataError.
Proof.
  intros O Hp Hq. pose proof (nth_error_In _ _ Hp) as Ix. pose proof (nth_error_In _ _ Hq) as Iy.
  unfold jl_nodespan. rewrite !(jcontains_mem h l _ O), !(proj2 (mem_nid_In _ _)) by assumption. cbn [negb].
  pose proof (id_order h l q p y x O Hq Hp) as Od.
  destruct (Nat.leb_spec p q) as [L|L].
  - pose proof (iter_nodespan_spec h l p q x y O Hp Hq L) as E. unfold iter_nodespan, node_i in E.
    pose proof (content_id h l x O Ix). pose proof (content_id h l y O Iy).
    destruct (Z.eqb_spec (n_idof h x) (-1)); [lia|]. destruct (Z.eqb_spec (n_idof h y) (-1)); [lia|]. cbn [rbind] in E. destruct (Z.leb_spec (n_idof h x) (n_idof h y)); cbn [negb] in E; [|discriminate].
    destruct (Z.ltb_spec (n_idof h y) (n_idof h x)); [lia|]. rewrite jget_range_eq by lia. destruct (negb _); [discriminate|]. exact E.
  - destruct (Z.ltb_spec (n_idof h y) (n_idof h x)) as [|G]; [reflexivity|]. exfalso. lia.
Qed.
Lemma reading h l : layer_ok h l ->
  jl_iter h l = content h l /\ jl_size h l = zlen (content h l) /\ jl_is_empty h l = (match content h l with [] => true | _ => false end) /\
  (forall n, jl_contains h l n = true <-> In n (content h l)) /\ jl_first h l = hd_error (content h l) /\ jl_last h l = hd_error (rev (content h l)) /\
  (forall n, In n (content h l) -> jl_get h l (n_idof h n) = Ok (Some n)) /\ (forall i n, jl_get h l i = Ok (Some n) -> In n (content h l) /\ n_idof h n = i).
Proof.
  intros O. split; [reflexivity|]. split; [apply (ok_num _ _ O)|]. split; [unfold jl_is_empty; rewrite (ok_num _ _ O); destruct (content h l); reflexivity|].
  split; [intros n; rewrite (jcontains_mem h l n O); apply mem_nid_In|]. split; [reflexivity|]. split.
  { unfold jl_last, content. f_equal. induction (l_nodesof h l) as [|[n|] r IH]; cbn [rev live]; [reflexivity| |]; rewrite live_app, IH; cbn; [reflexivity|apply app_nil_r]. }
  split.
  - intros n I. apply (layer_ok_member h l n O) in I. destruct (ok_coll _ _ O n I) as (i & -> & Hi). unfold jl_get. rewrite java_get_nat, Hi. reflexivity.
  - intros i n G. unfold jl_get, java_get in G. destruct (Z.leb_spec 0 i); [|discriminate]. destruct (nth_error (l_nodesof h l) (Z.to_nat i)) as [o|] eqn:E; [|discriminate]. injection G as ->. split; [eapply nth_error_live_In; eauto|]. destruct (ok_slot _ _ O _ _ E) as [-> _]. lia.
Qed.
Lemma jnodespan_out h l x y : layer_ok h l -> ~ In x (content h l) \/ ~ In y (content h l) -> jl_nodespan h l x y = Err DataError.
Proof.
  intros O H. unfold jl_nodespan. rewrite !(jcontains_mem h l _ O). assert (F : forall n, ~ In n (content h l) -> mem_nid n (content h l) = false).
  { intros n I. destruct (mem_nid n (content h l)) eqn:E; [|reflexivity]. exfalso. apply I, mem_nid_In. assumption. }
  destruct H as [H|H]; rewrite (F _ H); [reflexivity|]. destruct (mem_nid x (content h l)); reflexivity.
Qed.
Lemma jhistory_C93_thm : forall h l cs st t,
  layer_ok h l -> list_calls (elsewhere h l) (content h l, zlen (l_nodesof h l)) cs = Some (st, t) ->
  exists h', jl_calls h l cs = (h', t) /\ layer_ok h' l /\ jl_iter h' l = fst st /\ zlen (l_nodesof h' l) = snd st /\ others_untouched l h h'.
Proof.
  intros h l cs st t O E. destruct (jcalls_spec l cs h st t O E) as (h' & E' & K & O' & V). exists h'. unfold lview in V. subst st. split; [exact E'|].
  split; [exact O'|]. split; [reflexivity|]. split; [reflexivity|]. exact (proj1 K).
Qed.
Lemma jadd_C93_thm : forall h l n, layer_ok h l -> n_collof h n = None ->
  snd (jl_add h l n) = Ok true /\ (layer_ok (fst (jl_add h l n)) l <-> no_gaps h l).
Proof.
  intros h l n O C. split; [|exact (jadd_iff h l n O C)]. destruct (Z.eq_dec (zlen (content h l)) (zlen (l_nodesof h l))) as [E|E].
  - destruct (jadd_full h l n O C E) as (h' & -> & _). reflexivity.
  - destruct (jadd_gap h l n O C) as (h' & -> & _); [|reflexivity]. intros G. apply E, gaps_iff; assumption.
Qed.
Lemma jadd_gap_C93_thm : forall h l n, layer_ok h l -> n_collof h n = None -> ~ no_gaps h l ->
  exists h', jl_add h l n = (h', Ok true) /\ l_nodesof h' l = upd_nth (l_nodesof h l) (length (content h l)) (Some n) /\
    jl_size h' l = zlen (content h l) + 1 /\ jl_get h' l (n_idof h' n) = Err IndexError /\ snd (jl_remove h' l n) = Err IndexError /\ others_untouched l h h'.
Proof.
  intros h l n O C G. destruct (jadd_gap h l n O C G) as (h' & E & K & Es & Ek & Ei & Ec & L & _). exists h'. split; [exact E|]. split; [exact Es|]. split; [exact Ek|].
  assert (Lz : zlen (l_nodesof h l) = Z.of_nat (length (l_nodesof h l))) by reflexivity.
  split; [unfold jl_get; rewrite Ei, Lz, java_get_nat, Es, (proj2 (nth_error_None _ _)) by (rewrite PyBaseFacts.upd_nth_length; apply Nat.le_refl); reflexivity|]. split; [|exact (proj1 K)].
  unfold jl_remove, jl_contains. rewrite Ec, Nat.eqb_refl. cbn [negb]. unfold java_set, zlen. rewrite Es, PyBaseFacts.upd_nth_length, Ei. unfold zlen. rewrite Z.ltb_irrefl, Bool.andb_false_r. reflexivity.
Qed.
Lemma jclear_C93_thm : forall h l, layer_ok h l ->
  (no_gaps h l -> exists h', jl_clear h l = (h', Ok tt) /\ layer_ok h' l /\ jl_iter h' l = [] /\ (forall n, In n (content h l) -> n_collof h' n = None /\ n_idof h' n = -1) /\ others_untouched l h h') /\
  (~ no_gaps h l -> exists h', jl_clear h l = (h', Err AttributeError) /\ jl_iter h' l = jl_iter h l /\ jl_size h' l = jl_size h l /\
     exists before after, l_nodesof h l = map Some before ++ None :: after /\ (forall n, In n before -> jl_contains h' l n = false) /\ (forall n, ~ In n before -> n_collof h' n = n_collof h n /\ n_idof h' n = n_idof h n)).
Proof.
  intros h l O. split.
  - intros G. destruct (jclear_full h l O G) as (h' & E & K & O' & V & I). exists h'. split; [exact E|]. split; [exact O'|]. split; [exact (f_equal fst V)|]. split; [exact I|exact (proj1 K)].
  - intros G. assert (N : In None (l_nodesof h l)) by (destruct (in_dec (fun a b : option nid => ltac:(decide equality; apply Nat.eq_dec)) None (l_nodesof h l)) as [I|I]; [exact I|exfalso; exact (G I)]).
    destruct (first_gap _ N) as (ns & r & E). destruct (jclear_gap h l ns r E) as (h' & A & B & C & D & F). exists h'. split; [exact A|]. split; [exact B|]. split; [exact C|]. exists ns, r. auto.
Qed.
Lemma jnodespan_C94_thm : forall h l, layer_ok h l ->
  (forall p q x y, nth_error (content h l) p = Some x -> nth_error (content h l) q = Some y ->
     jl_nodespan h l x y = if (p <=? q)%nat then Ok (firstn (S q - p) (skipn p (content h l))) else Err DataError) /\
  (forall x y, ~ In x (content h l) \/ ~ In y (content h l) -> jl_nodespan h l x y = Err DataError).
Proof. intros h l O. split; [exact (fun p q x y => jnodespan_spec h l p q x y O)|exact (fun x y => jnodespan_out h l x y O)]. Qed.
Lemma jsort_C94_thm : forall leb h l, layer_ok h l -> exists h', jl_sort leb h l = (h', Ok tt) /\
  jl_iter h' l = ssort (fun n => n) leb (content h l) /\ (layer_ok h' l <-> ssort (fun n => n) leb (content h l) = content h l) /\
  (forall i n, nth_error (content h l) i = Some n -> n_idof h' n = Z.of_nat i) /\ others_untouched l h h'.
Proof. intros leb h l O. destruct (sort_spec leb h l O) as (h' & A & B & K & D & E). exists h'. split; [exact A|]. split; [exact B|]. split; [exact D|]. split; [exact E|exact (proj1 K)]. Qed.
Lemma jretain_C94_thm : forall h l ns, layer_ok h l -> ns <> [] -> (forall n, In n ns -> In n (content h l)) ->
  exists h', jl_retain_all h l (map RNode ns) = (h', Ok true) /\ jl_iter h' l = odd_kept h l ns /\ jl_size h' l = zlen (odd_kept h l ns) /\
    (forall n, In n (odd_kept h l ns) -> jl_get h' l (n_idof h' n) = Ok (Some n)) /\
    (forall n, jl_contains h' l n = jl_contains h l n) /\ (layer_ok h' l <-> odd_kept h l ns = content h l) /\ others_untouched l h h'.
Proof.
  intros h l ns O N I. assert (I' : forall n, In n ns -> n_collof h n = Some l) by (intros n X; apply (Proof_Layer.layer_ok_member h l n O), I, X).
  pose proof (retain_ok_iff h l ns O N I') as K. destruct (retain_spec h l ns O N I') as (h' & E & C & [S1 S2] & Co & Ot). rewrite E in K. exists h'. split; [exact E|]. split; [exact C|].
  unfold jl_iter in S1, S2. fold (content h' l) in S1, S2. rewrite C in S1, S2. split; [exact S1|]. split; [intros n X; exact (proj2 (S2 n X))|]. split; [intros n; unfold jl_contains; rewrite Co; reflexivity|]. split; [exact K|exact Ot].
Qed.
Lemma calls_ok h l cs st t : layer_ok h l -> list_calls (elsewhere h l) (content h l, zlen (l_nodesof h l)) cs = Some (st, t) -> layer_ok (fst (jl_calls h l cs)) l.
Proof. intros O E. destruct (jcalls_spec l cs h st t O E) as (h' & -> & _ & O' & _). exact O'. Qed.
