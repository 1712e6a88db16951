(** The Java layer: compaction, removal, addition, histories. *)
From Verif Require Import PyBase PyBaseFacts Model_Heap Model_Layer Spec_Layer Model_Types Proof_Heap Proof_Layer Proof_Layer2
  Model_JLayer Spec_JLayer.
Local Open Scope Z_scope.

Lemma live_nulls k : live (repeat None k) = [].
Proof. induction k; [reflexivity|assumption]. Qed.
Lemma java_set_nat {A} (l : list A) k x : (k < length l)%nat -> java_set l (Z.of_nat k) x = Ok (upd_nth l k x).
Proof. intros H. unfold java_set, zlen. destruct (Z.leb_spec 0 (Z.of_nat k)); [|lia]. destruct (Z.ltb_spec (Z.of_nat k) (Z.of_nat (length l))); [|lia]. cbn [andb]. rewrite Nat2Z.id. reflexivity. Qed.
Lemma java_get_nat {A} (l : list A) k : java_get l (Z.of_nat k) = match nth_error l k with Some x => Ok x | None => Err IndexError end.
Proof. unfold java_get. destruct (Z.leb_spec 0 (Z.of_nat k)); [|lia]. rewrite Nat2Z.id. reflexivity. Qed.

(** the slots after compaction *)
Definition packed_slots (c : list nid) (slots : Z) : list (option nid) :=
  map Some c ++ repeat None (Z.to_nat (snd (settle c slots)) - length c).

Lemma compact_loop_len l todo : forall h k i, length (l_nodesof (fst (compact_loop h l k i todo)) l) = length (l_nodesof h l).
Proof.
  induction todo as [|t IH]; intros h k i; cbn [compact_loop]; [reflexivity|]. destruct (nth_error (l_nodesof h l) k) as [[n|]|]; rewrite IH; try reflexivity.
  hs. apply upd_nth_length.
Qed.
(** compaction needs only that no node is in two slots and that the count is right *)
Lemma jcompact_gen h l : NoDup (content h l) -> l_numof h l = zlen (content h l) ->
  exists h', jl_compact h l = (h', Ok tt) /\ frame l h h' /\ l_numof h' l = l_numof h l /\
    l_nodesof h' l = packed_slots (content h l) (zlen (l_nodesof h l)) /\ renumbered h h' 0 (content h l).
Proof.
  intros ND En. unfold jl_compact.
  pose proof (compact_loop_spec l (l_nodesof h l) ND (length (l_nodesof h l)) h 0 0 eq_refl eq_refl eq_refl eq_refl eq_refl) as H.
  pose proof (compact_loop_len l (length (l_nodesof h l)) h 0 0) as L.
  destruct (compact_loop h l 0 0 (length (l_nodesof h l))) as [h1 i]. cbn [fst] in L. destruct H as (F & Enum & Ei & Ef & R). cbn [skipn] in R.
  rewrite Enum, En. fold (content h l) in Ei, Ef, R.
  assert (Z0 : 0 <= zlen (content h l)) by (unfold zlen; lia). destruct (Z.ltb_spec (zlen (content h l)) 0); [lia|].
  assert (En' : Z.to_nat (zlen (content h l)) = i) by (unfold zlen; lia). rewrite En'.
  assert (Le : (i <= length (l_nodesof h l))%nat) by (subst i; unfold content; apply live_length_le).
  assert (Lz : zlen (null_from (l_nodesof h1 l) i) = zlen (l_nodesof h l)) by (unfold zlen, null_from; rewrite app_length, firstn_length, repeat_length; lia).
  rewrite Lz. unfold packed_slots, settle, sparse. cbn [snd].
  destruct ((4 * zlen (content h l) <? 3 * zlen (l_nodesof h l)) && (16 <? zlen (l_nodesof h l))) eqn:E.
  - eexists. split; [reflexivity|]. split; [eapply frame_trans; [exact F|apply frame_set_nodes]|]. hs. split; [congruence|]. split.
    + rewrite En', Ei, Nat.sub_diag, app_nil_r, <- Ef. unfold null_from. rewrite firstn_app, firstn_firstn, Nat.min_id, firstn_length.
      replace (length (content h l) - Nat.min (length (content h l)) (length (l_nodesof h1 l)))%nat with 0%nat by lia. rewrite app_nil_r, Ei. reflexivity.
    + destruct R as (R1 & R2 & R3). split; [intros n; destruct (R1 n); hs; auto|]. split; intros; hs; auto.
  - eexists. split; [reflexivity|]. split; [eapply frame_trans; [exact F|apply frame_set_nodes]|]. hs. split; [congruence|]. split.
    + unfold null_from, zlen. rewrite Nat2Z.id, L, Ef, <- Ei. reflexivity.
    + destruct R as (R1 & R2 & R3). split; [intros n; destruct (R1 n); hs; auto|]. split; intros; hs; auto.
Qed.
Lemma packed_live c k : live (packed_slots c k) = c.
Proof. unfold packed_slots. rewrite live_app, live_map_some, live_nulls. apply app_nil_r. Qed.
Lemma packed_len c k : zlen c <= k -> zlen (packed_slots c k) = snd (settle c k).
Proof. intros L. unfold packed_slots, settle, zlen in *. cbn [snd]. rewrite app_length, map_length, repeat_length. destruct (_ && _); lia. Qed.
Lemma nth_nulls {A} k i (n : A) : nth_error (repeat (@None A) k) i <> Some (Some n).
Proof. revert i. induction k as [|k IH]; intros [|i]; cbn; try discriminate. apply IH. Qed.
Lemma packed_slot c k i n : nth_error (packed_slots c k) i = Some (Some n) <-> nth_error c i = Some n.
Proof.
  unfold packed_slots. destruct (lt_dec i (length c)) as [L|L].
  - rewrite nth_error_app1 by (rewrite map_length; lia). rewrite nth_error_map. destruct (nth_error c i); cbn; split; congruence.
  - rewrite nth_error_app2 by (rewrite map_length; lia). split; intros H; [exfalso; eapply nth_nulls; exact H|]. exfalso. apply L, nth_error_Some. congruence.
Qed.
Lemma slots_ge h l : zlen (content h l) <= zlen (l_nodesof h l).
Proof. unfold zlen, content. pose proof (live_length_le (l_nodesof h l)). lia. Qed.

Lemma jcompact_spec h l : layer_ok h l -> exists h', jl_compact h l = (h', Ok tt) /\ shrink l h h' /\ layer_ok h' l /\
  (content h' l, zlen (l_nodesof h' l)) = settle (content h l) (zlen (l_nodesof h l)) /\ (forall n, n_collof h' n = n_collof h n) /\
  l_nodesof h' l = packed_slots (content h l) (zlen (l_nodesof h l)) /\ (forall i n, nth_error (content h l) i = Some n -> n_idof h' n = Z.of_nat i).
Proof.
  intros O. pose proof (layer_ok_NoDup _ _ O) as ND. destruct (jcompact_gen h l ND (ok_num _ _ O)) as (h' & E & F & Enum & Es & R1 & R2 & R3).
  assert (Ec : content h' l = content h l) by (unfold content at 1; rewrite Es; apply packed_live).
  exists h'. split; [assumption|]. split.
  { split; [assumption|intros n; apply R1| |intros n Hn; left; destruct (R1 n) as [_ ->]; assumption].
    intros n Hn. split; [|apply R1]. apply R3. intros I. apply Hn, layer_ok_member; assumption. }
  split.
  { split; [rewrite Ec, Enum; apply ok_num; assumption| |].
    - intros i n Hi. rewrite Es, packed_slot in Hi. split; [apply (R2 i); assumption|]. destruct (R1 n) as [_ ->]. apply layer_ok_member; [assumption|]. eapply nth_error_In; eauto.
    - intros n Hn. destruct (R1 n) as [_ G]. rewrite G in Hn. apply (layer_ok_member h l n O) in Hn. apply In_nth_error in Hn. destruct Hn as [i Hi]. exists i. split; [apply (R2 i); assumption|]. rewrite Es. apply packed_slot. assumption. }
  split; [rewrite Ec, Es, packed_len by apply slots_ge; reflexivity|]. split; [intros n; apply R1|]. split; [assumption|]. exact R2.
Qed.
Lemma jauto_spec h l : layer_ok h l -> exists h', jl_auto h l = (h', Ok tt) /\ shrink l h h' /\ layer_ok h' l /\
  (content h' l, zlen (l_nodesof h' l)) = settle (content h l) (zlen (l_nodesof h l)) /\ (forall n, n_collof h' n = n_collof h n).
Proof.
  intros O. unfold jl_auto. destruct (sparse (l_numof h l) (zlen (l_nodesof h l))) eqn:E.
  - destruct (jcompact_spec h l O) as (h' & E' & S & O' & C & R & _). exists h'. auto.
  - exists h. split; [reflexivity|]. split; [apply shrink_refl|]. split; [assumption|]. split; [|reflexivity]. unfold settle, sparse in *. rewrite (ok_num _ _ O) in E. rewrite E. reflexivity.
Qed.

(** taking a node out *)
Lemma jdrop_spec h l n : layer_ok h l -> In n (content h l) -> exists x,
  java_set (l_nodesof h l) (n_idof h n) None = Ok x /\
  let h1 := set_num (set_coll (set_nodes h l x) n None) l (l_numof h l - 1) in
  shrink l h h1 /\ layer_ok h1 l /\ content h1 l = without n (content h l) /\ zlen (l_nodesof h1 l) = zlen (l_nodesof h l) /\
  n_collof h1 n = None /\ (forall m, m <> n -> n_collof h1 m = n_collof h m).
Proof.
  intros O I. apply (layer_ok_member h l n O) in I. destruct (drop_node_spec h l n O I) as (h1 & E & S & O1 & C & Cn & Cm & _ & L).
  unfold drop_node in E. destruct (ok_coll _ _ O n I) as (i & Ei & Es). assert (Hi : (i < length (l_nodesof h l))%nat) by (apply nth_error_Some; congruence).
  rewrite Ei, py_setitem_nat in E by assumption. injection E as E. rewrite Ei, java_set_nat by assumption. eexists. split; [reflexivity|]. cbv zeta.
  replace (set_num (set_coll (set_nodes h l (upd_nth (l_nodesof h l) i None)) n None) l (l_numof h l - 1)) with h1 by (rewrite <- E; reflexivity).
  unfold zlen. rewrite L. auto 8.
Qed.

(** ** what a call keeps *)
Definition keeps (l : lid) (h h' : heap) : Prop := others_untouched l h h' /\ (forall n, elsewhere h' l n = elsewhere h l n).
Lemma keeps_refl l h : keeps l h h. Proof. split; [intros l' _; auto|auto]. Qed.
Lemma keeps_trans l a b c : keeps l a b -> keeps l b c -> keeps l a c.
Proof. intros [A1 A2] [B1 B2]. split; [|congruence]. intros l' N. destruct (A1 l' N) as [E1 F1], (B1 l' N) as [E2 F2]. split; [congruence|auto]. Qed.
Lemma shrink_keeps l h h' : shrink l h h' -> keeps l h h'.
Proof.
  intros [F Ff Fo Fm]. split.
  - intros l' N. split; [apply (fr_layer _ _ _ F); assumption|]. intros O. apply (layer_ok_frame h h' l' O); [apply (fr_layer _ _ _ F); assumption|].
    intros n [E|E]; [apply Fo; congruence|]. destruct (n_collof h n) as [l0|] eqn:C; [|destruct (Fo n) as [A B]; [congruence|]; rewrite C in B; auto]. destruct (Nat.eq_dec l0 l) as [->|Ne]; [destruct (Fm n C); congruence|]. destruct (Fo n) as [A B]; [congruence|]. rewrite C in B. auto.
  - intros n. unfold elsewhere. destruct (n_collof h n) as [l0|] eqn:C.
    + destruct (Nat.eqb_spec l0 l) as [->|Ne]; [destruct (Fm n C) as [E|E]; rewrite E; [rewrite Nat.eqb_refl; reflexivity|reflexivity]|]. destruct (Fo n) as [_ ->]; [congruence|]. rewrite C. destruct (Nat.eqb_spec l0 l); [congruence|reflexivity].
    + destruct (Fo n) as [_ ->]; [congruence|]. rewrite C. reflexivity.
Qed.

Definition lview (h : heap) (l : lid) : jlist := (content h l, zlen (l_nodesof h l)).
Lemma jcontains_eq h l n : jl_contains h l n = layer_contains h l n. Proof. reflexivity. Qed.
Lemma jcontains_mem h l n : layer_ok h l -> jl_contains h l n = mem_nid n (content h l).
Proof. intros O. rewrite jcontains_eq. apply contains_mem. assumption. Qed.

Lemma jremove_spec h l n : layer_ok h l -> exists h' r, jl_remove h l n = (h', r) /\ keeps l h h' /\ layer_ok h' l /\
  if mem_nid n (content h l) then r = Ok tt /\ lview h' l = settle (without n (content h l)) (zlen (l_nodesof h l)) /\ n_collof h' n = None
  else r = Err RuntimeError /\ h' = h.
Proof.
  intros O. unfold jl_remove. rewrite (jcontains_mem h l n O). destruct (mem_nid n (content h l)) eqn:M; cbn [negb].
  - apply mem_nid_In in M. destruct (jdrop_spec h l n O M) as (x & -> & D). cbv zeta in D. destruct D as (S1 & O1 & C1 & L1 & N1 & _).
    destruct (jauto_spec _ l O1) as (h' & -> & S2 & O2 & V & R). exists h', (Ok tt). split; [reflexivity|]. split; [apply shrink_keeps; eapply shrink_trans; eassumption|]. split; [assumption|]. split; [reflexivity|]. split; [unfold lview; rewrite V, C1, L1; reflexivity|]. rewrite R. assumption.
  - exists h, (Err RuntimeError). split; [reflexivity|]. split; [apply keeps_refl|]. auto.
Qed.
Lemma jdiscard_spec h l x : layer_ok h l -> exists h' b, jl_discard h l x = (h', Ok b) /\ keeps l h h' /\ layer_ok h' l /\
  (lview h' l, b) = list_discard (lview h l) [x].
Proof.
  intros O. destruct x as [n| |]; [|exists h, false; split; [reflexivity|]; split; [apply keeps_refl|]; split; [assumption|]; reflexivity..].
  unfold jl_discard. rewrite (jcontains_mem h l n O). cbn [list_discard lview fst snd]. destruct (mem_nid n (content h l)) eqn:M; cbn [negb].
  - apply mem_nid_In in M. destruct (jdrop_spec h l n O M) as (y & E & D). cbv zeta in D. destruct D as (S1 & O1 & C1 & L1 & N1 & _).
    cbv zeta. change (l_nodesof (set_coll h n None) l) with (l_nodesof h l). rewrite id_set_coll, E. change (l_numof (set_coll h n None) l) with (l_numof h l).
    change (set_num (set_nodes (set_coll h n None) l y) l (l_numof h l - 1)) with (set_num (set_coll (set_nodes h l y) n None) l (l_numof h l - 1)).
    destruct (jauto_spec _ l O1) as (h' & -> & S2 & O2 & V & R). exists h', true. split; [reflexivity|]. split; [apply shrink_keeps; eapply shrink_trans; eassumption|]. split; [assumption|]. unfold lview. rewrite V, C1, L1. reflexivity.
  - exists h, false. split; [reflexivity|]. split; [apply keeps_refl|]. auto.
Qed.
Lemma list_discard_cons st x r : list_discard st (x :: r) =
  let '(st1, b) := list_discard st [x] in let '(st2, c) := list_discard st1 r in (st2, b || c).
Proof. destruct x as [n| |]; cbn [list_discard]; [destruct (mem_nid n (fst st)); cbn [fst]|..]; destruct (list_discard _ r); reflexivity. Qed.
Lemma jremove_all_spec l xs : forall h b, layer_ok h l -> exists h' b', jl_remove_all h l xs b = (h', Ok b') /\ keeps l h h' /\ layer_ok h' l /\
  lview h' l = fst (list_discard (lview h l) xs) /\ b' = b || snd (list_discard (lview h l) xs).
Proof.
  induction xs as [|x r IH]; intros h b O; cbn [jl_remove_all].
  - exists h, b. split; [reflexivity|]. split; [apply keeps_refl|]. split; [assumption|]. cbn. rewrite orb_false_r. auto.
  - destruct (jdiscard_spec h l x O) as (h1 & c & -> & K1 & O1 & V1). destruct (IH h1 (b || c) O1) as (h2 & b' & E & K2 & O2 & V2 & B2).
    exists h2, b'. split; [assumption|]. split; [eapply keeps_trans; eassumption|]. split; [assumption|]. rewrite list_discard_cons, <- V1. destruct (list_discard (lview h1 l) r) as [st2 d]. cbn [fst snd] in *. split; [assumption|]. rewrite B2, orb_assoc. reflexivity.
Qed.

(** adding *)
Lemma bound_keeps l h h' n : frame l h h' -> n_collof h n = None -> n_collof h' n = Some l ->
  (forall m, m <> n -> n_idof h' m = n_idof h m /\ n_collof h' m = n_collof h m) -> keeps l h h'.
Proof.
  intros F C C' M. split.
  - intros l' N. split; [apply (fr_layer _ _ _ F); assumption|]. intros O. apply (layer_ok_frame h h' l' O); [apply (fr_layer _ _ _ F); assumption|].
    intros m [E|E]; apply M; intros ->; congruence.
  - intros m. unfold elsewhere. destruct (Nat.eq_dec m n) as [->|Ne]; [rewrite C, C', Nat.eqb_refl; reflexivity|]. destruct (M m Ne) as [_ ->]. reflexivity.
Qed.
Lemma jadd_full h l n : layer_ok h l -> n_collof h n = None -> zlen (content h l) = zlen (l_nodesof h l) ->
  exists h', jl_add h l n = (h', Ok true) /\ keeps l h h' /\ layer_ok h' l /\ lview h' l = (content h l ++ [n], zlen (l_nodesof h l) + 1) /\
    n_collof h' n = Some l /\ n_idof h' n = zlen (content h l) /\ (forall m, m <> n -> n_idof h' m = n_idof h m /\ n_collof h' m = n_collof h m).
Proof.
  intros O C L. unfold jl_add. rewrite C, (ok_num _ _ O), L, Z.ltb_irrefl. eexists. split; [reflexivity|].
  set (h' := set_nodes _ l _).
  assert (En : l_nodesof h' l = l_nodesof h l ++ [Some n]) by (unfold h'; hs; reflexivity).
  assert (Ek : l_numof h' l = l_numof h l + 1) by (unfold h'; hs; rewrite (ok_num _ _ O), L; reflexivity).
  assert (Ei : n_idof h' n = zlen (l_nodesof h l)) by (unfold h'; hs; reflexivity).
  assert (Ec : n_collof h' n = Some l) by (unfold h'; hs; reflexivity).
  assert (M : forall m, m <> n -> n_idof h' m = n_idof h m /\ n_collof h' m = n_collof h m) by (intros m Ne; unfold h'; hs; destruct (Nat.eqb_spec m n); [congruence|auto]).
  split.
  { apply (bound_keeps l h h' n); auto. unfold h'. repeat (eapply frame_trans; [|first [apply frame_set_num|apply frame_set_nodes|apply frame_set_coll|apply frame_set_id]]). apply frame_refl. }
  split.
  { destruct O as [On Os Oc]. split.
    - unfold content. rewrite Ek, En, live_app, On. unfold content, zlen. rewrite app_length. simpl. lia.
    - intros i m Hi. rewrite En in Hi. destruct (lt_dec i (length (l_nodesof h l))) as [Hlt|Hge].
      + rewrite nth_error_app1 in Hi by assumption. destruct (Os _ _ Hi) as [E1 E2]. assert (m <> n) by congruence. destruct (M m H) as [-> ->]. auto.
      + rewrite nth_error_app2 in Hi by lia. destruct (i - length (l_nodesof h l))%nat eqn:Ed; simpl in Hi.
        * injection Hi as <-. rewrite Ei, Ec. unfold zlen. split; [f_equal; lia|reflexivity].
        * destruct n0; discriminate.
    - intros m E. destruct (Nat.eq_dec m n) as [->|Hne].
      + exists (length (l_nodesof h l)). rewrite Ei, En. split; [reflexivity|]. rewrite nth_error_app2 by lia. rewrite Nat.sub_diag. reflexivity.
      + destruct (M m Hne) as [F1 F2]. rewrite F2 in E. destruct (Oc _ E) as (i & E1 & E2). exists i. rewrite F1, En. split; [assumption|]. rewrite nth_error_app1; [assumption|]. apply nth_error_Some. congruence. }
  split; [|auto]. unfold lview, content, zlen. rewrite En, live_app, app_length. cbn. f_equal. lia.
Qed.
Lemma gaps_iff h l : layer_ok h l -> (no_gaps h l <-> zlen (content h l) = zlen (l_nodesof h l)).
Proof.
  intros O. unfold no_gaps. split; intros H.
  - rewrite (live_no_none _ H) at 1. unfold content, zlen. rewrite <- (live_no_none _ H). rewrite (live_no_none _ H) at 2. rewrite map_length. reflexivity.
  - assert (E : l_nodesof h l = map Some (content h l)) by (apply gapless_iff; [assumption|]; rewrite (ok_num _ _ O); auto). rewrite E. intros I. apply in_map_iff in I. destruct I as (x & Ex & _). discriminate.
Qed.
(** adding to a layer with gaps *)
Lemma jadd_gap h l n : layer_ok h l -> n_collof h n = None -> ~ no_gaps h l ->
  exists h', jl_add h l n = (h', Ok true) /\ keeps l h h' /\
    l_nodesof h' l = upd_nth (l_nodesof h l) (length (content h l)) (Some n) /\ jl_size h' l = zlen (content h l) + 1 /\
    n_idof h' n = zlen (l_nodesof h l) /\ n_collof h' n = Some l /\ (length (content h l) < length (l_nodesof h l))%nat /\
    (forall m, m <> n -> n_idof h' m = n_idof h m /\ n_collof h' m = n_collof h m).
Proof.
  intros O C G. assert (L : zlen (content h l) < zlen (l_nodesof h l)) by (pose proof (slots_ge h l); destruct (Z.eq_dec (zlen (content h l)) (zlen (l_nodesof h l))) as [E|]; [exfalso; apply G, gaps_iff; assumption|lia]).
  unfold jl_add. rewrite C, (ok_num _ _ O). destruct (Z.ltb_spec (zlen (content h l)) (zlen (l_nodesof h l))); [|lia].
  unfold zlen in L. rewrite (java_set_nat (l_nodesof h l) (length (content h l))) by lia. eexists. split; [reflexivity|]. set (h' := set_num _ l _).
  assert (Ei : n_idof h' n = zlen (l_nodesof h l)) by (unfold h'; hs; reflexivity).
  assert (Ec : n_collof h' n = Some l) by (unfold h'; hs; reflexivity).
  assert (M : forall m, m <> n -> n_idof h' m = n_idof h m /\ n_collof h' m = n_collof h m) by (intros m Ne; unfold h'; hs; destruct (Nat.eqb_spec m n); [congruence|auto]).
  split; [apply (bound_keeps l h h' n); auto; unfold h'; repeat (eapply frame_trans; [|first [apply frame_set_num|apply frame_set_nodes|apply frame_set_coll|apply frame_set_id]]); apply frame_refl|].
  split; [unfold h'; hs; reflexivity|]. split; [unfold jl_size, h'; hs; reflexivity|]. split; [assumption|]. split; [assumption|]. split; [lia|assumption].
Qed.
Lemma jadd_iff h l n : layer_ok h l -> n_collof h n = None -> (layer_ok (fst (jl_add h l n)) l <-> no_gaps h l).
Proof.
  intros O C. split.
  - intros O'. destruct (Z.eq_dec (zlen (content h l)) (zlen (l_nodesof h l))) as [E|E]; [apply gaps_iff; assumption|]. exfalso.
    assert (G : ~ no_gaps h l) by (intros G; apply E, gaps_iff; assumption). destruct (jadd_gap h l n O C G) as (h' & Eq & _ & Es & _ & Ei & Ec & _). rewrite Eq in O'. cbn [fst] in O'.
    destruct (ok_coll _ _ O' n Ec) as (i & Ei' & Hi). rewrite Ei in Ei'. apply Nat2Z.inj in Ei'. subst i. assert ((length (l_nodesof h l) < length (l_nodesof h' l))%nat) by (apply nth_error_Some; congruence). rewrite Es, upd_nth_length in H. lia.
  - intros G. destruct (jadd_full h l n O C) as (h' & -> & _ & O' & _); [apply gaps_iff; assumption|assumption].
Qed.

(** clearing *)
Lemma clear_loop_spec ns : forall h, let '(h', r) := clear_loop h (map Some ns) in r = Ok tt /\ h_layer h' = h_layer h /\ h_nnext h' = h_nnext h /\ h_lnext h' = h_lnext h /\
  (forall m, n_fieldsof h' m = n_fieldsof h m) /\ (forall m, In m ns -> n_collof h' m = None /\ n_idof h' m = -1) /\ (forall m, ~ In m ns -> n_collof h' m = n_collof h m /\ n_idof h' m = n_idof h m).
Proof.
  induction ns as [|n ns IH]; intros h; cbn [map clear_loop].
  - do 5 (split; [reflexivity|]). split; [intros m []|auto].
  - specialize (IH (set_id (set_coll h n None) n (-1))). destruct (clear_loop _ (map Some ns)) as [h' r]. destruct IH as (R & L & A & B & F & I & U).
    split; [assumption|]. split; [rewrite L; reflexivity|]. split; [rewrite A; reflexivity|]. split; [rewrite B; reflexivity|]. split; [intros m; rewrite F; hs; reflexivity|]. split.
    + intros m [->|H]; [|apply I, H]. destruct (in_dec Nat.eq_dec m ns) as [H|H]; [apply I, H|]. destruct (U m H) as [-> ->]. hs. auto.
    + intros m H. destruct (U m) as [-> ->]; [intros X; apply H; right; exact X|]. hs. destruct (Nat.eqb_spec m n) as [->|]; [exfalso; apply H; left; reflexivity|auto].
Qed.
Lemma jclear_full h l : layer_ok h l -> no_gaps h l -> exists h', jl_clear h l = (h', Ok tt) /\ keeps l h h' /\ layer_ok h' l /\ lview h' l = ([], 0) /\
  (forall n, In n (content h l) -> n_collof h' n = None /\ n_idof h' n = -1).
Proof.
  intros O G. unfold jl_clear. rewrite (live_no_none _ G). fold (content h l). pose proof (clear_loop_spec (content h l) h) as H.
  destruct (clear_loop h (map Some (content h l))) as [h1 r]. destruct H as (-> & L & A & B & F & I & U). eexists. split; [reflexivity|]. set (h' := set_num _ l 0).
  assert (E1 : l_nodesof h' l = []) by (unfold h'; hs; reflexivity). assert (E2 : l_numof h' l = 0) by (unfold h'; hs; reflexivity).
  assert (C : forall m, n_collof h' m = n_collof h1 m /\ n_idof h' m = n_idof h1 m) by (intros m; unfold h'; hs; auto).
  assert (S : shrink l h h').
  { split.
    - unfold h'. eapply frame_trans; [|apply frame_set_num]. eapply frame_trans; [|apply frame_set_nodes]. split; try assumption; unfold l_nameof; intros; rewrite L; reflexivity.
    - intros m. unfold h'. hs. apply F.
    - intros m Hm. destruct (C m) as [-> ->]. destruct (U m) as [-> ->]; [|auto]. intros X. apply Hm, layer_ok_member; assumption.
    - intros m Hm. right. destruct (C m) as [-> _]. apply I. apply layer_ok_member; assumption. }
  split; [apply shrink_keeps; assumption|]. split.
  { split; [unfold content; rewrite E1, E2; reflexivity|rewrite E1; intros [|i] m; discriminate|]. intros m Hm. exfalso. destruct (C m) as [Cm _]. rewrite Cm in Hm.
    destruct (in_dec Nat.eq_dec m (content h l)) as [X|X]; [destruct (I m X); congruence|]. destruct (U m X) as [E _]. apply X, layer_ok_member; congruence. }
  split; [unfold lview, content; rewrite E1; reflexivity|]. intros n X. destruct (C n) as [-> ->]. apply I, X.
Qed.
Lemma clear_gap ns : forall h r, clear_loop h (map Some ns ++ None :: r) = (fst (clear_loop h (map Some ns)), Err AttributeError).
Proof. induction ns as [|n ns IH]; intros h r; cbn [map app clear_loop fst]; [reflexivity|apply IH]. Qed.
Lemma first_gap (sl : list (option nid)) : In None sl -> exists ns r, sl = map Some ns ++ None :: r.
Proof.
  induction sl as [|[n|] sl IH]; intros H; [destruct H| |exists [], sl; reflexivity].
  destruct H as [E|I]; [discriminate|]. destruct (IH I) as (ns & r & ->). exists (n :: ns), r. reflexivity.
Qed.
(** with a gap: the nodes before it are cut off, the slots stay as they are *)
Lemma jclear_gap h l ns r : l_nodesof h l = map Some ns ++ None :: r -> exists h', jl_clear h l = (h', Err AttributeError) /\
  jl_iter h' l = jl_iter h l /\ jl_size h' l = jl_size h l /\ (forall n, In n ns -> jl_contains h' l n = false) /\ (forall n, ~ In n ns -> n_collof h' n = n_collof h n /\ n_idof h' n = n_idof h n).
Proof.
  intros E. unfold jl_clear. rewrite E, clear_gap. pose proof (clear_loop_spec ns h) as H. destruct (clear_loop h (map Some ns)) as [h' x]. cbn [fst]. destruct H as (_ & L & _ & _ & _ & I & U).
  exists h'. split; [reflexivity|]. unfold jl_iter, jl_size, l_nodesof, l_numof. rewrite L. split; [reflexivity|]. split; [reflexivity|]. split; [|assumption]. intros n X. unfold jl_contains. destruct (I n X) as [-> _]. reflexivity.
Qed.

(** ** any sequence of calls *)
Lemma jcall_spec h l c st a : layer_ok h l -> list_call (elsewhere h l) (lview h l) c = Some (st, a) ->
  exists h', jl_call h l c = (h', a) /\ keeps l h h' /\ layer_ok h' l /\ lview h' l = st.
Proof.
  intros O E. unfold list_call in E. change (fst (lview h l)) with (content h l) in E. change (snd (lview h l)) with (zlen (l_nodesof h l)) in E. cbv zeta in E. destruct c as [n|n|x|xs| |]; cbn [jl_call].
  - destruct (mem_nid n (content h l) || elsewhere h l n) eqn:B.
    + injection E as <- <-. exists h. unfold jl_add. destruct (n_collof h n) as [l'|] eqn:C; [split; [reflexivity|]; split; [apply keeps_refl|]; auto|].
      exfalso. apply orb_true_iff in B. destruct B as [B|B]; [apply mem_nid_In, (layer_ok_member h l n O) in B; congruence|unfold elsewhere in B; rewrite C in B; discriminate].
    + destruct (Z.eqb_spec (zlen (content h l)) (zlen (l_nodesof h l))) as [L|]; [|discriminate]. injection E as <- <-. apply orb_false_iff in B. destruct B as [B1 B2].
      assert (C : n_collof h n = None).
      { destruct (n_collof h n) as [l'|] eqn:C; [|reflexivity]. exfalso. unfold elsewhere in B2. rewrite C in B2. destruct (Nat.eqb_spec l' l) as [El|]; [|discriminate]. rewrite El in C. apply (layer_ok_member h l n O) in C. apply mem_nid_In in C. congruence. }
      destruct (jadd_full h l n O C L) as (h' & -> & K & O' & V & _). exists h'. cbn [janswer_bool]. auto.
  - destruct (jremove_spec h l n O) as (h' & r & -> & K & O' & R). destruct (mem_nid n (content h l)); injection E as <- <-.
    + destruct R as (-> & V & _). exists h'. cbn. auto.
    + destruct R as (-> & ->). exists h. cbn. auto.
  - destruct (jdiscard_spec h l x O) as (h' & b & -> & K & O' & V). rewrite <- V in E. injection E as <- <-. exists h'. cbn. auto.
  - destruct (jremove_all_spec l xs h false O) as (h' & b & -> & K & O' & V & B). destruct (list_discard _ xs) as [st' b']. cbn [fst snd orb] in *. injection E as <- <-. subst b'. exists h'. cbn. auto.
  - injection E as <- <-. destruct (jcompact_spec h l O) as (h' & -> & S & O' & V & _). exists h'. cbn. split; [reflexivity|]. split; [apply shrink_keeps; assumption|]. split; assumption.
  - destruct (Z.eqb_spec (zlen (content h l)) (zlen (l_nodesof h l))) as [L|]; [|discriminate]. injection E as <- <-. destruct (jclear_full h l O) as (h' & -> & K & O' & V & _); [apply gaps_iff; assumption|]. exists h'. cbn. auto.
Qed.
Lemma list_calls_ext t1 t2 cs : (forall n, t1 n = t2 n) -> forall st, list_calls t1 st cs = list_calls t2 st cs.
Proof.
  intros E. induction cs as [|c r IH]; intros st; cbn [list_calls]; [reflexivity|]. assert (X : list_call t1 st c = list_call t2 st c) by (unfold list_call; destruct c; try reflexivity; rewrite E; reflexivity).
  rewrite X. destruct (list_call t2 st c) as [[st1 a]|]; [|reflexivity]. rewrite IH. reflexivity.
Qed.
Lemma jcalls_spec l cs : forall h st t, layer_ok h l -> list_calls (elsewhere h l) (lview h l) cs = Some (st, t) ->
  exists h', jl_calls h l cs = (h', t) /\ keeps l h h' /\ layer_ok h' l /\ lview h' l = st.
Proof.
  induction cs as [|c r IH]; intros h st t O E; cbn [list_calls jl_calls] in *.
  - injection E as <- <-. exists h. split; [reflexivity|]. split; [apply keeps_refl|]. auto.
  - destruct (list_call (elsewhere h l) (lview h l) c) as [[st1 a]|] eqn:E1; [|discriminate]. destruct (jcall_spec h l c st1 a O E1) as (h1 & -> & K1 & O1 & V1).
    destruct (list_calls (elsewhere h l) st1 r) as [[st2 t2]|] eqn:E2; [|discriminate]. injection E as <- <-.
    rewrite <- V1, (list_calls_ext _ (elsewhere h1 l)) in E2 by (intros n; symmetry; apply K1). destruct (IH h1 st2 t2 O1 E2) as (h2 & -> & K2 & O2 & V2).
    exists h2. split; [reflexivity|]. split; [eapply keeps_trans; eassumption|]. auto.
Qed.
