(** Allocation, add, add_many, schema changes, compilation of a layer. *)
From Verif Require Import PyBase PyBaseFacts Model_Heap Model_Layer Model_Types Spec_Layer Proof_Heap Proof_Layer Proof_Layer2.
Local Open Scope Z_scope.

(** ** pointwise equal heaps *)
Record heq (h h' : heap) : Prop := {
  hq_node : forall n, h_node h' n = h_node h n;
  hq_layer : forall l, h_layer h' l = h_layer h l;
  hq_nn : h_nnext h' = h_nnext h;
  hq_ln : h_lnext h' = h_lnext h }.

Lemma content_layer h h' l : h_layer h' l = h_layer h l -> content h' l = content h l.
Proof. intros E. unfold content, l_nodesof. rewrite E. reflexivity. Qed.

(** layers and bindings equal, fields and schema free *)
Lemma wf_same_slots h h' : wf h ->
  (forall n, n_idof h' n = n_idof h n /\ n_collof h' n = n_collof h n) ->
  (forall l, l_nodesof h' l = l_nodesof h l /\ l_numof h' l = l_numof h l) ->
  (h_nnext h <= h_nnext h')%nat -> h_lnext h' = h_lnext h ->
  (forall l, l_defaults (h_layer h' l) = defaults_of (l_fields (h_layer h' l))) ->
  (forall l, NoDup (dkeys (l_fields (h_layer h' l)))) -> wf h'.
Proof.
  intros [Wl Wn Wf Wd Ws] Hn Hl En El Hd Hk. split; auto.
  - intros l. destruct (Wl l) as [A B C]. destruct (Hl l) as [E1 E2]. split; unfold content in *; rewrite ?E1, ?E2; auto.
    + intros i n Hi. destruct (Hn n) as [-> ->]. auto.
    + intros n. destruct (Hn n) as [-> ->]. auto.
  - intros n Hle. destruct (Hn n) as [_ ->]. apply Wn. lia.
  - intros l Hle. destruct (Hl l) as [-> _]. apply Wf. lia.
Qed.

Lemma wf_heq h h' : heq h h' -> wf h -> wf h'.
Proof.
  intros [Hn Hl En El] W. apply (wf_same_slots h); auto.
  - intros n. unfold n_idof, n_collof. rewrite Hn. auto.
  - intros l. unfold l_nodesof, l_numof. rewrite Hl. auto.
  - lia.
  - intros l. rewrite Hl. apply wf_defaults. assumption.
  - intros l. rewrite Hl. apply wf_schema. assumption.
Qed.

(** ** new nodes and layers *)
Lemma new_node_spec h f h' n : wf h -> new_node h f = (h', n) ->
  wf h' /\ n = h_nnext h /\ h_nnext h' = S n /\ h_lnext h' = h_lnext h /\ h_layer h' = h_layer h /\
  n_fieldsof h' n = f /\ n_collof h' n = None /\ (forall m, m <> n -> h_node h' m = h_node h m).
Proof.
  intros W E. unfold new_node, alloc_node in E. injection E as <- <-.
  assert (Hm : forall m, m <> h_nnext h -> upd (h_node h) (h_nnext h) (mkNode f (-1) None) m = h_node h m).
  { intros m Hm. unfold upd. destruct (Nat.eqb_spec m (h_nnext h)); congruence. }
  assert (Hs : upd (h_node h) (h_nnext h) (mkNode f (-1) None) (h_nnext h) = mkNode f (-1) None).
  { unfold upd. rewrite Nat.eqb_refl. reflexivity. }
  split; [|repeat split; auto; unfold n_fieldsof, n_collof; simpl; rewrite Hs; reflexivity].
  destruct W as [Wl Wn Wf Wd Ws]. split; auto; simpl.
  - intros l. apply (layer_ok_frame h); auto. intros m Hm'. unfold n_collof, n_idof in *. simpl in *.
    destruct (Nat.eq_dec m (h_nnext h)) as [->|Hne]; [|rewrite Hm by assumption; auto].
    exfalso. rewrite Hs in Hm'. simpl in Hm'. pose proof (Wn (h_nnext h) (le_n _)) as X. unfold n_collof in X.
    destruct Hm'; congruence.
  - intros m Hle. unfold n_collof. simpl. rewrite Hm by lia. apply Wn. lia.
Qed.

Lemma alloc_layer_spec h name fs h' l : wf h -> NoDup (dkeys fs) -> alloc_layer h (new_layer name fs) = (h', l) ->
  wf h' /\ l = h_lnext h /\ h_lnext h' = S l /\ h_nnext h' = h_nnext h /\ h_node h' = h_node h /\
  h_layer h' l = new_layer name fs /\ (forall k, k <> l -> h_layer h' k = h_layer h k) /\
  content h' l = [] /\ content h l = [].
Proof.
  intros W Hk E. unfold alloc_layer in E. injection E as <- <-.
  assert (Hm : forall m, m <> h_lnext h -> upd (h_layer h) (h_lnext h) (new_layer name fs) m = h_layer h m).
  { intros m Hm. unfold upd. destruct (Nat.eqb_spec m (h_lnext h)); congruence. }
  assert (Hs : upd (h_layer h) (h_lnext h) (new_layer name fs) (h_lnext h) = new_layer name fs).
  { unfold upd. rewrite Nat.eqb_refl. reflexivity. }
  assert (He : l_nodesof h (h_lnext h) = []) by (apply (wf_fresh_l h W); lia).
  assert (Hno : forall n, n_collof h n <> Some (h_lnext h)).
  { intros n Hn. destruct (ok_coll _ _ (wf_layers h W (h_lnext h)) n Hn) as (i & _ & Hi). rewrite He in Hi. destruct i; discriminate. }
  split; [|repeat split; auto; simpl; [unfold content, l_nodesof; simpl; rewrite Hs; reflexivity|unfold content; rewrite He; reflexivity]].
  destruct W as [Wl Wn Wf Wd Ws]. split; auto; simpl.
  - intros l. destruct (Nat.eq_dec l (h_lnext h)) as [->|Hne].
    + split; unfold content, l_numof, l_nodesof; simpl; rewrite ?Hs; simpl.
      * reflexivity.
      * intros [|i] n; discriminate.
      * intros n Hn. exfalso. apply (Hno n). exact Hn.
    + apply (layer_ok_frame h); [auto|simpl; apply Hm; assumption|intros; split; reflexivity].
  - intros l Hle. unfold l_nodesof. simpl. rewrite Hm by lia. apply Wf. lia.
  - intros l. destruct (Nat.eq_dec l (h_lnext h)) as [->|Hne]; [rewrite Hs; reflexivity|rewrite Hm by assumption; apply Wd].
  - intros l. destruct (Nat.eq_dec l (h_lnext h)) as [->|Hne]; [rewrite Hs; exact Hk|rewrite Hm by assumption; apply Ws].
Qed.

(** ** validity only depends on bindings; it survives appending *)
Record appended (h h' : heap) : Prop := {
  ap_coll : forall n, n_collof h' n = n_collof h n;
  ap_id : forall n, n_idof h' n = n_idof h n;
  ap_name : forall l, l_nameof h' l = l_nameof h l;
  ap_nodes : forall l, exists e, l_nodesof h' l = l_nodesof h l ++ e;
  ap_pos : forall n l, n_collof h n = Some l -> 0 <= n_idof h n }.

Lemma get_range_app slots e : forall k a x, 0 <= a -> get_range slots a k = Ok x -> get_range (slots ++ e) a k = Ok x.
Proof.
  induction k as [|k IH]; intros a x Ha H; [assumption|]. cbn [get_range] in *.
  unfold py_getitem in *. unfold py_index in *. destruct (Z.ltb_spec a 0); [lia|].
  destruct (Z.ltb_spec a (zlen slots)) as [Hl|Hl]; [|discriminate].
  assert (Hl' : a < zlen (slots ++ e)) by (unfold zlen in *; rewrite app_length; lia).
  destruct (Z.ltb_spec a (zlen (slots ++ e))); [|lia].
  rewrite nth_error_app1 by (unfold zlen in *; lia).
  destruct (nth_error slots (Z.to_nat a)); [|discriminate]. cbn [rbind] in *.
  destruct (get_range slots (a + 1) k) as [r|] eqn:E; [|discriminate]. rewrite (IH (a + 1) r) by (auto; lia). assumption.
Qed.

Lemma iter_nodespan_app h h' l a b x : appended h h' -> iter_nodespan h l a b = Ok x -> iter_nodespan h' l a b = Ok x.
Proof.
  intros [Ac Ai An As Ap] H. unfold iter_nodespan, node_i in *. rewrite !Ai, !Ac.
  destruct (n_idof h a =? -1) eqn:Ea; [discriminate|]. cbn [rbind] in *.
  destruct (n_idof h b =? -1) eqn:Eb; [discriminate|]. cbn [rbind] in *.
  destruct (negb (n_idof h a <=? n_idof h b)); [discriminate|].
  destruct (negb (opt_lid_eqb (n_collof h a) (n_collof h b) && opt_lid_eqb (n_collof h b) (Some l))) eqn:Ec; [discriminate|].
  destruct (As l) as [e ->].
  destruct (get_range (l_nodesof h l) (n_idof h a) _) as [r|] eqn:Er; [|discriminate].
  rewrite (get_range_app _ e _ _ r); auto.
  apply negb_false_iff, andb_true_iff in Ec. destruct Ec as [C1 C2].
  destruct (n_collof h a) as [la|] eqn:Ela.
  - eapply Ap; eauto.
  - destruct (n_collof h b); discriminate.
Qed.
Lemma iter_span_app h h' a b x : appended h h' -> iter_span h a b = Ok x -> iter_span h' a b = Ok x.
Proof.
  intros A H. pose proof A as [Ac Ai An As Ap]. unfold iter_span, node_i in *. rewrite !Ai, !Ac.
  destruct (n_idof h a =? -1); [discriminate|]. cbn [rbind] in *.
  destruct (n_idof h b =? -1); [discriminate|]. cbn [rbind] in *.
  destruct (n_collof h a); [|discriminate]. destruct (n_idof h a <=? n_idof h b); eapply iter_nodespan_app; eauto.
Qed.
Lemma nodespan_iter_app h h' a b x : appended h h' -> nodespan_iter h a b = Ok x -> nodespan_iter h' a b = Ok x.
Proof.
  intros A H. pose proof A as [Ac Ai An As Ap]. unfold nodespan_iter, node_i in *. rewrite !Ai.
  destruct (n_idof h a =? -1); [discriminate|]. cbn [rbind] in *.
  destruct (n_idof h b =? -1); [discriminate|]. cbn [rbind] in *.
  destruct (negb (n_idof h a <=? n_idof h b)); [discriminate|]. eapply iter_span_app; eauto.
Qed.

Lemma coll_is_app h h' d n : appended h h' -> coll_is h' d n = coll_is h d n.
Proof. intros [Ac Ai An As Ap]. unfold coll_is. rewrite Ac. destruct (n_collof h n); [rewrite An|]; reflexivity. Qed.

Lemma allM_ext {A} (f g : A -> res bool) l : (forall x, f x = g x) -> allM f l = allM g l.
Proof. intros H. induction l as [|x l IH]; [reflexivity|]. simpl. rewrite H, IH. reflexivity. Qed.

Lemma is_valid_app h h' d v b : appended h h' -> is_valid h d v = Ok b -> is_valid h' d v = Ok b.
Proof.
  intros A H. pose proof A as [Ac Ai An As Ap]. unfold is_valid in *. destruct (dt_class d); try assumption.
  - destruct v; try assumption. rewrite !Ac. destruct (n_collof h left) as [la|]; [|assumption].
    destruct (n_collof h right) as [lb|]; [|assumption]. rewrite !An. unfold node_i in *. rewrite !Ai. assumption.
  - destruct v; try assumption. rewrite (coll_is_app h h') by assumption. assumption.
  - destruct (dgetE (dt_opts d) (s "layer")); [|discriminate]. cbn [rbind] in *.
    destruct v; try assumption; cbn [value_elems] in *.
    + destruct (nodespan_iter h left right) as [r|] eqn:Er; [|discriminate].
      rewrite (nodespan_iter_app h h' _ _ r) by assumption. cbn [rbind] in *. rewrite <- H.
      apply allM_ext. intros [m|]; [apply coll_is_app; assumption|reflexivity].
    + cbn [rbind] in *. rewrite <- H. apply allM_ext. intros [m|]; [apply coll_is_app; assumption|reflexivity].
Qed.

Lemma validate_fields_app h h' n fs : appended h h' -> n_fieldsof h' n = n_fieldsof h n ->
  (forall l, l_fields (h_layer h' l) = l_fields (h_layer h l)) ->
  validate_fields h fs n = Ok true -> validate_fields h' fs n = Ok true.
Proof.
  intros A Ef El. pose proof A as [Ac Ai An As Ap].
  induction fs as [|[f ty] fs IH]; intros H; [reflexivity|]. simpl in *. rewrite Ef, Ac.
  destruct (dget (n_fieldsof h n) f) as [v|]; [|auto]. destruct (n_collof h n) as [c|]; [|discriminate].
  rewrite El. destruct (dgetE (l_fields (h_layer h c)) f) as [ty'|]; [|discriminate]. cbn [rbind] in *.
  destruct (is_valid h ty' v) as [b|] eqn:Ev; [|discriminate]. cbn [rbind] in *.
  rewrite (is_valid_app h h' _ _ b) by assumption. cbn [rbind]. destruct b; [auto|].
  destruct (invalid_asserts h ty v); discriminate.
Qed.

(** ** add with keyword arguments *)
Lemma bound_pos h n l : wf h -> n_collof h n = Some l -> 0 <= n_idof h n.
Proof. intros W H. destruct (ok_coll _ _ (wf_layers h W l) n H) as (i & -> & _). lia. Qed.

Lemma add_kw_spec h l kw h' r : wf h -> (l < h_lnext h)%nat -> layer_add_kw h l kw = (h', r) ->
  match r with
  | Err _ => h' = h
  | Ok n => wf h' /\ n = h_nnext h /\ content h' l = content h l ++ [n] /\
      (forall l', l' <> l -> h_layer h' l' = h_layer h l') /\
      (forall m, m <> n -> h_node h' m = h_node h m) /\
      n_fieldsof h' n = dupdate (l_defaults (h_layer h l)) kw /\ n_collof h' n = Some l /\
      l_fields (h_layer h' l) = l_fields (h_layer h l) /\ l_defaults (h_layer h' l) = l_defaults (h_layer h l) /\
      l_nameof h' l = l_nameof h l /\
      h_nnext h' = S (h_nnext h) /\ h_lnext h' = h_lnext h /\
      validate h' l n = Ok true /\ l_nodesof h' l = l_nodesof h l ++ [Some n]
  end.
Proof.
  intros W Hl E. unfold layer_add_kw, alloc_node in E. cbv beta iota zeta in E.
  set (f := dupdate (l_defaults (h_layer h l)) kw) in *.
  set (n := h_nnext h) in *.
  match type of E with context [validate ?x l n] => set (h1 := x) in * end.
  destruct (validate h1 l n) as [[|]|e] eqn:Ev; injection E as <- <-; [|reflexivity|reflexivity].
  destruct (new_node h f) as [hU n'] eqn:EU. destruct (new_node_spec h f hU n' W EU) as (WU & -> & U1 & U2 & U3 & U4 & U5 & U6).
  fold n in U1, U4, U5, U6, EU.
  assert (Hq : heq (append_node (bind_node hU l n) l n) (append_node h1 l n)).
  { assert (Hnodes : l_nodesof hU l = l_nodesof h l) by (unfold l_nodesof; rewrite U3; reflexivity).
    unfold new_node, alloc_node in EU. fold n in EU. injection EU as EU.
    split; [| |simpl; congruence|simpl; congruence].
    - intros m. unfold append_node, bind_node, set_num, set_nodes, set_coll, set_id, set_layer, set_node. cbn [h_node n_fields n_id n_coll].
      rewrite Hnodes. rewrite <- EU. cbn [h_node]. unfold h1. cbn [h_node]. unfold upd. destruct (Nat.eqb_spec m n) as [E0|E0].
      + rewrite Nat.eqb_refl. reflexivity.
      + reflexivity.
    - intros k. unfold append_node, bind_node, set_num, set_nodes, set_coll, set_id, set_layer, set_node, l_numof, l_nodesof. cbn [h_layer].
      rewrite U3. reflexivity. }
  assert (W' : wf (append_node h1 l n)).
  { apply (wf_heq _ _ Hq). apply wf_append; auto; [lia|rewrite U2; assumption]. }
  assert (Hm : forall m, m <> n -> h_node (append_node h1 l n) m = h_node h m).
  { intros m Hm. unfold append_node. simpl. unfold upd. destruct (Nat.eqb_spec m n); [contradiction|reflexivity]. }
  assert (Hs : h_node (append_node h1 l n) n = mkNode f (zlen (l_nodesof h l)) (Some l)).
  { unfold append_node. simpl. unfold upd. rewrite Nat.eqb_refl. reflexivity. }
  assert (Hsl : l_nodesof (append_node h1 l n) l = l_nodesof h l ++ [Some n]).
  { unfold append_node. hs. reflexivity. }
  assert (Hlo : forall l', l' <> l -> h_layer (append_node h1 l n) l' = h_layer h l').
  { intros l' Hne. unfold append_node. rewrite layer_set_num_other, layer_set_nodes_other by assumption. reflexivity. }
  assert (Hfs : forall k, l_fields (h_layer (append_node h1 l n) k) = l_fields (h_layer h k)).
  { intros k. unfold append_node. hs. reflexivity. }
  split; [assumption|]. split; [reflexivity|].
  split; [unfold content; rewrite Hsl, live_app; reflexivity|]. split; [assumption|]. split; [assumption|].
  split; [unfold n_fieldsof; rewrite Hs; reflexivity|]. split; [unfold n_collof; rewrite Hs; reflexivity|].
  split; [apply Hfs|]. split; [unfold append_node; hs; reflexivity|]. split; [unfold append_node; hs; reflexivity|].
  split; [reflexivity|]. split; [reflexivity|]. split; [|assumption].
  unfold validate in *. rewrite Hfs. apply (validate_fields_app h1).
  - split.
    + intros m. reflexivity.
    + intros m. reflexivity.
    + intros k. unfold append_node. hs. reflexivity.
    + intros k. destruct (Nat.eq_dec k l) as [->|Hne]; [exists [Some n]; exact Hsl|exists []]. rewrite app_nil_r.
      unfold l_nodesof. rewrite Hlo by assumption. reflexivity.
    + intros m k Hk. unfold n_collof, n_idof in *. unfold h1 in *. simpl in *. unfold upd in *. destruct (Nat.eqb_spec m n).
      * simpl. unfold zlen. lia.
      * eapply bound_pos; eauto.
  - reflexivity.
  - intros k. rewrite Hfs. reflexivity.
  - exact Ev.
Qed.

(** the fields of the new node *)
Lemma dget_defaults fs k : NoDup (dkeys fs) ->
  dget (defaults_of fs) k = match dget fs k with Some d => dt_default d | None => None end.
Proof.
  induction fs as [|[f d] fs IH]; intros Hnd; [reflexivity|]. inversion Hnd as [|? ? Hni Hnd']; subst. simpl.
  assert (Hno : dget fs f = None) by (apply dget_None; assumption).
  destruct (str_eqb k f) eqn:E.
  - apply str_eqb_eq in E. subst k. destruct (dt_default d) as [v|] eqn:Ed; simpl.
    + rewrite str_eqb_refl. reflexivity.
    + rewrite IH, Hno by assumption. reflexivity.
  - destruct (dt_default d); simpl; rewrite ?E; apply IH; assumption.
Qed.

(** ** writing fields of many nodes *)
Lemma set_field_all_spec name v ns : forall h,
  exists h', set_field_all h name v (map Some ns) = (h', Ok tt) /\
    h_layer h' = h_layer h /\ h_nnext h' = h_nnext h /\ h_lnext h' = h_lnext h /\
    (forall n, n_idof h' n = n_idof h n /\ n_collof h' n = n_collof h n) /\
    (forall n, n_fieldsof h' n = if mem_nid n ns then dset (n_fieldsof h n) name v else n_fieldsof h n).
Proof.
  assert (Hdd : forall (d : dict value), dset (dset d name v) name v = dset d name v).
  { induction d as [|[k x] d IH]; simpl; [rewrite str_eqb_refl; reflexivity|].
    destruct (str_eqb name k) eqn:E; simpl; rewrite E; [reflexivity|f_equal; assumption]. }
  induction ns as [|n ns IH]; intros h; simpl.
  - exists h. repeat split; auto.
  - destruct (IH (set_fields h n (dset (n_fieldsof h n) name v))) as (h' & E & G1 & G2 & G3 & G4 & G5).
    exists h'. split; [assumption|]. split; [assumption|]. split; [assumption|]. split; [assumption|].
    split; [intros m; destruct (G4 m); hs; auto|]. intros m. rewrite G5. hs.
    destruct (Nat.eqb_spec m n) as [->|Hne]; [|reflexivity]. simpl. destruct (mem_nid n ns); [apply Hdd|reflexivity].
Qed.

Lemma del_field_all_spec name ns : forall h, NoDup ns ->
  exists h', del_field_all h name (map Some ns) = (h', Ok tt) /\
    h_layer h' = h_layer h /\ h_nnext h' = h_nnext h /\ h_lnext h' = h_lnext h /\
    (forall n, n_idof h' n = n_idof h n /\ n_collof h' n = n_collof h n) /\
    (forall n, n_fieldsof h' n = if mem_nid n ns then ddel (n_fieldsof h n) name else n_fieldsof h n).
Proof.
  induction ns as [|n ns IH]; intros h Hnd; simpl.
  - exists h. repeat split; auto.
  - inversion Hnd as [|? ? Hni Hnd']; subst.
    destruct (IH (set_fields h n (ddel (n_fieldsof h n) name)) Hnd') as (h' & E & G1 & G2 & G3 & G4 & G5).
    exists h'. split; [assumption|]. split; [assumption|]. split; [assumption|]. split; [assumption|].
    split; [intros m; destruct (G4 m); hs; auto|]. intros m. rewrite G5. hs.
    destruct (Nat.eqb_spec m n) as [->|Hne]; [|reflexivity]. simpl.
    destruct (mem_nid n ns) eqn:E0; [apply mem_nid_In in E0; contradiction|reflexivity].
Qed.

Lemma dget_fill_missing ds : forall f k, NoDup (dkeys ds) ->
  dget (fill_missing f ds) k = match dget f k with Some v => Some v | None => dget ds k end.
Proof.
  induction ds as [|[k0 v0] ds IH]; intros f k Hnd; simpl.
  - destruct (dget f k); reflexivity.
  - inversion Hnd as [|? ? Hni Hnd']; subst. rewrite IH by assumption. unfold dmem.
    destruct (dget f k0) as [x|] eqn:E0.
    + destruct (dget f k) as [y|] eqn:Ek; [reflexivity|]. destruct (str_eqb k k0) eqn:E; [|reflexivity].
      apply str_eqb_eq in E. congruence.
    + rewrite dget_dset. destruct (str_eqb k k0) eqn:E; [|destruct (dget f k); reflexivity].
      apply str_eqb_eq in E. subst. rewrite E0. reflexivity.
Qed.
Lemma defaults_keys_incl fs k : In k (dkeys (defaults_of fs)) -> In k (dkeys fs).
Proof.
  induction fs as [|[f d] fs IH]; simpl; [auto|]. destruct (dt_default d); simpl; [intros [H|H]; auto|auto].
Qed.
Lemma NoDup_defaults fs : NoDup (dkeys fs) -> NoDup (dkeys (defaults_of fs)).
Proof.
  induction fs as [|[f d] fs IH]; intros H; [constructor|]. inversion H as [|? ? Hni Hnd]; subst. simpl.
  destruct (dt_default d); [|auto]. simpl. constructor; [|auto]. intros Hin. apply Hni. apply defaults_keys_incl. assumption.
Qed.

Lemma fill_nodes_spec ds ns : forall h, NoDup ns ->
  exists h', fill_nodes h ds (map Some ns) = (h', Ok tt) /\
    h_layer h' = h_layer h /\ h_nnext h' = h_nnext h /\ h_lnext h' = h_lnext h /\
    (forall n, n_idof h' n = n_idof h n /\ n_collof h' n = n_collof h n) /\
    (forall n, n_fieldsof h' n = if mem_nid n ns then fill_missing (n_fieldsof h n) ds else n_fieldsof h n).
Proof.
  induction ns as [|n ns IH]; intros h Hnd; simpl.
  - exists h. repeat split; auto.
  - inversion Hnd as [|? ? Hni Hnd']; subst.
    destruct (IH (set_fields h n (fill_missing (n_fieldsof h n) ds)) Hnd') as (h' & E & G1 & G2 & G3 & G4 & G5).
    exists h'. split; [assumption|]. split; [assumption|]. split; [assumption|]. split; [assumption|].
    split; [intros m; destruct (G4 m); hs; auto|]. intros m. rewrite G5. hs.
    destruct (Nat.eqb_spec m n) as [->|Hne]; [|reflexivity]. simpl.
    destruct (mem_nid n ns) eqn:E0; [apply mem_nid_In in E0; contradiction|reflexivity].
Qed.

(** ** add_many *)
Lemma take_unbound_all ns : forall b seen a, take_unbound b seen ns = (a, true) -> map Some a = ns.
Proof.
  induction ns as [|[n|] ns IH]; intros b seen a E; simpl in E.
  - injection E as <-. reflexivity.
  - destruct (b n || mem_nid n seen); [discriminate|]. destruct (take_unbound b (n :: seen) ns) as [a' ok] eqn:E'.
    injection E as <- ->. simpl. f_equal. eapply IH; eauto.
  - discriminate.
Qed.
Lemma take_unbound_NoDup ns : forall b seen, NoDup (fst (take_unbound b seen ns)) /\
  (forall n, In n (fst (take_unbound b seen ns)) -> b n = false /\ ~ In n seen).
Proof.
  induction ns as [|[n|] ns IH]; intros b seen; simpl.
  - split; [constructor|intros ? []].
  - destruct (b n || mem_nid n seen) eqn:E; [split; [constructor|intros ? []]|].
    apply orb_false_iff in E. destruct E as [E1 E2].
    destruct (IH b (n :: seen)) as [I1 I2]. destruct (take_unbound b (n :: seen) ns) as [a ok]. simpl in *. split.
    + constructor; [|assumption]. intros Hin. apply I2 in Hin. destruct Hin as [_ Hin]. apply Hin. left. reflexivity.
    + intros m [<-|Hm]; [split; [assumption|]|].
      * intros Hin. apply mem_nid_In in Hin. congruence.
      * apply I2 in Hm. destruct Hm as [A B]. split; [assumption|]. intros Hin. apply B. right. assumption.
  - split; [constructor|intros ? []].
Qed.

Lemma validate_all_spec h l ns : forall r, validate_all h l (map Some ns) = r ->
  (r = Ok tt /\ forall n, In n ns -> validate h l n = Ok true) \/
  (exists e n, r = Err e /\ In n ns /\ validate h l n <> Ok true).
Proof.
  induction ns as [|n ns IH]; intros r E; simpl in E.
  - left. split; [congruence|intros ? []].
  - destruct (validate h l n) as [[|]|e] eqn:Ev; cbn [rbind] in E.
    + destruct (IH r E) as [[A B]|(e & m & A & B & C)].
      * left. split; [assumption|]. intros m [<-|Hm]; auto.
      * right. exists e, m. split; [assumption|]. split; [right; assumption|assumption].
    + right. exists AssertionError, n. split; [congruence|]. split; [left; reflexivity|congruence].
    + right. exists e, n. split; [congruence|]. split; [left; reflexivity|congruence].
Qed.

Lemma add_many_spec h l one_shot ns df fv h' r : wf h -> (l < h_lnext h)%nat -> alloced h (live ns) ->
  layer_add_many h l one_shot ns df fv = (h', r) ->
  let added := fst (take_unbound (is_bound h) [] ns) in
  let ok := snd (take_unbound (is_bound h) [] ns) in
  wf h' /\ frame l h h' /\ l_nodesof h' l = l_nodesof h l ++ map Some added /\
  (forall n, n_collof h' n = if mem_nid n added then Some l else n_collof h n) /\
  (forall n, mem_nid n added = false -> n_idof h' n = n_idof h n /\ n_fieldsof h' n = n_fieldsof h n) /\
  match r with
  | Ok _ => ok = true /\
      (forall n, In n added -> forall k, dget (n_fieldsof h' n) k =
         match dget (n_fieldsof h n) k with
         | Some v => Some v
         | None => if df then dget (l_defaults (h_layer h l)) k else None
         end) /\
      (fv = true -> one_shot = false -> df = false -> forall n, In n added -> validate h' l n = Ok true)
  | Err e => (forall n, n_fieldsof h' n = n_fieldsof h n) /\
      ((ok = false /\ e = AssertionError) \/
       (ok = true /\ fv = true /\ one_shot = false /\ exists n, In n added /\ validate h' l n <> Ok true))
  end.
Proof.
  intros W Hl Ha E. unfold layer_add_many in E.
  destruct (add_many_loop h l ns) as [h1 r1] eqn:E1.
  pose proof (add_many_loop_spec l ns h W Hl Ha h1 r1 E1) as G.
  pose proof (take_unbound_NoDup ns (is_bound h) []) as [Hnd _].
  destruct (take_unbound (is_bound h) [] ns) as [added ok] eqn:Et. destruct G as (W1 & Gr & Er). cbn [fst snd] in *.
  pose proof Gr as [F1 Ff Fs Fn Fc Fi].
  assert (Base : wf h1 /\ frame l h h1 /\ l_nodesof h1 l = l_nodesof h l ++ map Some added /\
    (forall n, n_collof h1 n = if mem_nid n added then Some l else n_collof h n) /\
    (forall n, mem_nid n added = false -> n_idof h1 n = n_idof h n /\ n_fieldsof h1 n = n_fieldsof h n)) by auto 8.
  destruct Base as (B1 & B2 & B3 & B4 & B5).
  destruct ok; subst r1.
  2:{ injection E as <- <-. split; [assumption|]. split; [assumption|]. split; [assumption|]. split; [assumption|]. split; [assumption|].
      split; [assumption|]. left. auto. }
  pose proof (take_unbound_all _ _ _ _ Et) as Ens.
  set (va := if fv then validate_all h1 l (if one_shot then [] else ns) else Ok tt) in *.
  destruct va as [[]|e] eqn:Eva.
  - assert (Hval : fv = true -> one_shot = false -> forall n, In n added -> validate h1 l n = Ok true).
    { intros -> ->. unfold va in Eva. rewrite <- Ens in Eva.
      destruct (validate_all_spec _ _ _ _ Eva) as [[_ X]|(e & m & X & _)]; [assumption|discriminate]. }
    assert (Hdef : l_defaults (h_layer h1 l) = l_defaults (h_layer h l)) by apply F1.
    assert (Hskip : skipn (length (l_nodesof h l)) (l_nodesof h1 l) = map Some added).
    { rewrite B3, skipn_app, Nat.sub_diag, skipn_all. reflexivity. }
    destruct (df && negb match l_defaults (h_layer h1 l) with [] => true | _ => false end) eqn:Edf.
    + apply andb_true_iff in Edf. destruct Edf as [-> Edf].
      rewrite Hskip in E. destruct (fill_nodes_spec (l_defaults (h_layer h1 l)) added h1 Hnd) as (h2 & E2 & G1 & G2 & G3 & G4 & G5).
      rewrite E2 in E. injection E as <- <-.
      assert (W2 : wf h2).
      { apply (wf_same_slots h1); auto; unfold l_nodesof, l_numof; rewrite ?G1; auto; [lia| |].
        - intros k. apply wf_defaults; assumption. - intros k. apply wf_schema; assumption. }
      split; [assumption|].
      split; [destruct B2; split; unfold l_nameof in *; rewrite ?G1, ?G2, ?G3; auto|].
      split; [unfold l_nodesof in *; rewrite G1; assumption|].
      split; [intros n; destruct (G4 n) as [_ ->]; apply B4|].
      split; [intros n Hn; destruct (G4 n) as [-> _]; rewrite G5, Hn; apply B5; assumption|].
      split; [reflexivity|]. split; [|discriminate].
      intros n Hn k. rewrite G5. rewrite (proj2 (mem_nid_In n added) Hn). rewrite Hdef.
      rewrite dget_fill_missing; [rewrite Ff; reflexivity|]. rewrite (wf_defaults h W). apply NoDup_defaults. apply wf_schema. assumption.
    + injection E as <- <-. split; [assumption|]. split; [assumption|]. split; [assumption|]. split; [assumption|]. split; [assumption|].
      split; [reflexivity|]. split; [|auto].
      intros n Hn k. rewrite Ff. destruct (dget (n_fieldsof h n) k); [reflexivity|].
      destruct df; [|reflexivity]. simpl in Edf. rewrite Hdef in Edf. destruct (l_defaults (h_layer h l)); [reflexivity|discriminate].
  - injection E as <- <-. split; [assumption|]. split; [assumption|]. split; [assumption|]. split; [assumption|]. split; [assumption|].
    split; [assumption|]. right. split; [reflexivity|].
    unfold va in Eva. destruct fv; [|discriminate]. split; [reflexivity|]. destruct one_shot; [discriminate|]. split; [reflexivity|].
    rewrite <- Ens in Eva. destruct (validate_all_spec _ _ _ _ Eva) as [[X _]|(e' & m & _ & X & Y)]; [discriminate|eauto].
Qed.

(** ** add_field / remove_field *)
Lemma wf_set_schema h l fs : wf h -> NoDup (dkeys fs) -> wf (set_schema h l fs (defaults_of fs)).
Proof.
  intros W Hnd. apply (wf_same_slots h); auto.
  - intros k. hs. auto.
  - intros k. hs. destruct (Nat.eqb k l); [reflexivity|apply wf_defaults; assumption].
  - intros k. hs. destruct (Nat.eqb k l); [assumption|apply wf_schema; assumption].
Qed.

Lemma add_field_spec h l name d init : wf h -> dget (l_fields (h_layer h l)) name = None ->
  exists h', layer_add_field h l name d init = (h', Ok tt) /\ wf h' /\
    l_fields (h_layer h' l) = l_fields (h_layer h l) ++ [(name, d)] /\
    (forall k, l_nodesof h' k = l_nodesof h k /\ l_nameof h' k = l_nameof h k) /\
    (forall k, k <> l -> h_layer h' k = h_layer h k) /\ h_nnext h' = h_nnext h /\ h_lnext h' = h_lnext h /\
    (forall n, n_idof h' n = n_idof h n /\ n_collof h' n = n_collof h n) /\
    (forall n, n_fieldsof h' n =
       match (if init && mem_nid n (content h l) then dt_default d else None) with
       | Some v => dset (n_fieldsof h n) name v
       | None => n_fieldsof h n
       end).
Proof.
  intros W Hno. unfold layer_add_field. assert (E0 : dmem (l_fields (h_layer h l)) name = false) by (unfold dmem; rewrite Hno; reflexivity).
  rewrite E0. rewrite dset_absent by assumption. set (fs := l_fields (h_layer h l) ++ [(name, d)]).
  assert (Hnd : NoDup (dkeys fs)).
  { unfold fs. rewrite <- (dset_absent _ _ d Hno). apply NoDup_dset. apply wf_schema. assumption. }
  set (h1 := set_schema h l fs (defaults_of fs)).
  assert (W1 : wf h1) by (apply wf_set_schema; assumption).
  assert (B : l_fields (h_layer h1 l) = fs /\ (forall k, l_nodesof h1 k = l_nodesof h k /\ l_nameof h1 k = l_nameof h k) /\
     (forall k, k <> l -> h_layer h1 k = h_layer h k) /\ h_nnext h1 = h_nnext h /\ h_lnext h1 = h_lnext h /\
     (forall n, n_idof h1 n = n_idof h n /\ n_collof h1 n = n_collof h n)).
  { unfold h1. split; [hs; reflexivity|]. split; [intros; hs; auto|]. split; [intros; apply layer_set_schema_other; assumption|].
    split; [reflexivity|]. split; [reflexivity|]. intros; hs; auto. }
  destruct B as (B1 & B2 & B3 & B4 & B5 & B6).
  assert (Ec : content h1 l = content h l) by (unfold content; destruct (B2 l) as [-> _]; reflexivity).
  destruct init; [destruct (dt_default d) as [v|] eqn:Ed|].
  - rewrite (iter_content h1 l) by (apply wf_layers; assumption). rewrite Ec.
    destruct (set_field_all_spec name v (content h l) h1) as (h2 & E2 & G1 & G2 & G3 & G4 & G5).
    exists h2. split; [assumption|]. split.
    { apply (wf_same_slots h1); auto; unfold l_nodesof, l_numof; rewrite ?G1; auto; [lia| |].
        - intros k. apply wf_defaults; assumption. - intros k. apply wf_schema; assumption. }
    rewrite G1. split; [assumption|]. split; [intros k; unfold l_nodesof, l_nameof; rewrite G1; apply B2|].
    split; [assumption|]. split; [congruence|]. split; [congruence|].
    split; [intros n; destruct (G4 n) as [-> ->]; apply B6|].
    intros n. rewrite G5. unfold h1. hs. destruct (mem_nid n (content h l)); reflexivity.
  - exists h1. split; [reflexivity|]. split; [assumption|]. split; [assumption|]. split; [assumption|]. split; [assumption|].
    split; [assumption|]. split; [assumption|]. split; [assumption|]. intros n. unfold h1; hs.
    destruct (true && mem_nid n (content h l)); reflexivity.
  - exists h1. split; [reflexivity|]. split; [assumption|]. split; [assumption|]. split; [assumption|]. split; [assumption|].
    split; [assumption|]. split; [assumption|]. split; [assumption|]. intros n. reflexivity.
Qed.

Lemma NoDup_ddel {A} (d : dict A) k : NoDup (dkeys d) -> NoDup (dkeys (ddel d k)).
Proof.
  induction d as [|[k' v] d IH]; intros H; [constructor|]. inversion H as [|? ? Hni Hnd]; subst. simpl.
  destruct (str_eqb k k'); [assumption|]. simpl. constructor; [|auto]. intros Hin. apply Hni. eapply dkeys_ddel_incl; eauto.
Qed.

Lemma remove_field_spec h l name leave : wf h ->
  if dmem (l_fields (h_layer h l)) name then
    exists h', layer_remove_field h l name leave = (h', Ok true) /\ wf h' /\
      l_fields (h_layer h' l) = ddel (l_fields (h_layer h l)) name /\
      (forall k, l_nodesof h' k = l_nodesof h k /\ l_nameof h' k = l_nameof h k) /\
      (forall k, k <> l -> h_layer h' k = h_layer h k) /\ h_nnext h' = h_nnext h /\ h_lnext h' = h_lnext h /\
      (forall n, n_idof h' n = n_idof h n /\ n_collof h' n = n_collof h n) /\
      (forall n, n_fieldsof h' n = if negb leave && mem_nid n (content h l) then ddel (n_fieldsof h n) name else n_fieldsof h n)
  else layer_remove_field h l name leave = (h, Ok false).
Proof.
  intros W. unfold layer_remove_field. destruct (dmem (l_fields (h_layer h l)) name) eqn:Em; [|reflexivity]. simpl negb. cbv iota.
  assert (Hnd : NoDup (dkeys (ddel (l_fields (h_layer h l)) name))) by (apply NoDup_ddel; apply wf_schema; assumption).
  destruct leave.
  - eexists. split; [reflexivity|]. split; [apply wf_set_schema; assumption|]. split; [hs; reflexivity|]. split; [intros; hs; auto|].
    split; [intros; apply layer_set_schema_other; assumption|]. split; [reflexivity|]. split; [reflexivity|]. split; [intros; hs; auto|].
    intros n. reflexivity.
  - rewrite (iter_content h l) by (apply wf_layers; assumption).
    destruct (del_field_all_spec name (content h l) h) as (h1 & E1 & G1 & G2 & G3 & G4 & G5).
    { apply layer_ok_NoDup. apply wf_layers. assumption. }
    rewrite E1, G1. eexists. split; [reflexivity|]. split.
    { apply wf_set_schema; [|assumption]. apply (wf_same_slots h); auto; unfold l_nodesof, l_numof; rewrite ?G1; auto; [lia| |].
      - intros k. apply wf_defaults; assumption. - intros k. apply wf_schema; assumption. }
    split; [hs; reflexivity|].
    split; [intros; hs; unfold l_nodesof, l_nameof; rewrite G1; auto|].
    split; [intros; rewrite layer_set_schema_other by assumption; rewrite G1; reflexivity|]. split; [exact G2|]. split; [exact G3|].
    split; [intros n; hs; apply G4|]. intros n. hs. apply G5.
Qed.

(** ** compilation of a layer *)
Lemma prepare_spec h l : layer_ok h l ->
  shrink l h (layer_prepare h l) /\ layer_ok (layer_prepare h l) l /\ no_gaps (layer_prepare h l) l /\
  content (layer_prepare h l) l = content h l /\ (forall n, n_collof (layer_prepare h l) n = n_collof h n).
Proof.
  intros Hok. unfold layer_prepare. pose proof (layer_ok_NoDup _ _ Hok) as Hnd.
  assert (Hc : firstn (Z.to_nat (layer_len h l)) (live (layer_iter h l)) = content h l).
  { rewrite iter_content by assumption. rewrite live_map_some. unfold layer_len. rewrite (ok_num _ _ Hok). unfold zlen. rewrite Nat2Z.id. apply firstn_all. }
  rewrite Hc. destruct (renumber_spec (content h l) Hnd h 0) as (R1 & R2 & R3 & R4 & R5 & R6).
  set (h1 := renumber h 0 (content h l)) in *.
  assert (Hsl : l_nodesof h1 l = l_nodesof h l) by (unfold l_nodesof; rewrite R1; reflexivity).
  assert (Hnum : l_numof h1 l = l_numof h l) by (unfold l_numof; rewrite R1; reflexivity).
  assert (G : frame l h1 (compact h1 l) /\ l_nodesof (compact h1 l) l = map Some (content h l) /\ l_numof (compact h1 l) l = l_numof h l /\
              renumbered h1 (compact h1 l) 0 (content h l)).
  { unfold compact. rewrite Hsl, Hnum. destruct (Z.eqb_spec (zlen (l_nodesof h l)) (l_numof h l)) as [E|E].
    - split; [apply frame_refl|]. rewrite Hsl, Hnum. split; [apply gapless_iff; assumption|]. split; [reflexivity|].
      split; [auto|]. split; [|auto]. intros i n Hi. rewrite (R5 _ _ Hi). lia.
    - pose proof (compact_loop_spec l (l_nodesof h l) Hnd (length (l_nodesof h l)) h1 0 0 eq_refl eq_refl) as S.
      rewrite Hsl in S. specialize (S eq_refl eq_refl eq_refl).
      destruct (compact_loop h1 l 0 0 (length (l_nodesof h l))) as [h2 i2]. destruct S as (S1 & S2 & S3 & S4 & S5).
      split; [eapply frame_trans; [exact S1|apply frame_set_nodes]|]. hs. split; [exact S4|]. split; [congruence|].
      destruct S5 as (T1 & T2 & T3). simpl in T2, T3. split; [intros n; hs; apply T1|]. split; [intros i n Hi; hs; apply T2; assumption|].
      intros n Hn. hs. apply T3. assumption. }
  destruct G as (F & En & Ek & Hr1 & Hr2 & Hr3).
  assert (Hcoll : forall n, n_collof (compact h1 l) n = n_collof h n) by (intros n; destruct (Hr1 n) as [_ ->]; apply R4).
  split.
  { split.
    - destruct F. split; intros; unfold l_nameof in *; rewrite ?R1, ?R2, ?R3 in *; auto; try congruence.
    - intros n. destruct (Hr1 n) as [-> _]. apply R4.
    - intros n Hn. assert (~ In n (content h l)) by (intros X; apply Hn; apply layer_ok_member; assumption).
      split; [|apply Hcoll]. rewrite Hr3, R6 by assumption. reflexivity.
    - intros n Hn. left. rewrite Hcoll. assumption. }
  split.
  { apply (layer_ok_dense _ _ (content h l)); auto.
    - rewrite Ek. apply ok_num. assumption.
    - intros i n Hi. split; [rewrite (Hr2 _ _ Hi); reflexivity|]. rewrite Hcoll. apply layer_ok_member; [assumption|]. eapply nth_error_In; eauto.
    - intros n Hn. rewrite Hcoll in Hn. apply layer_ok_member; assumption. }
  split; [unfold no_gaps; rewrite En; intros Hx; apply in_map_iff in Hx; destruct Hx as (? & ? & _); discriminate|].
  split; [unfold content at 1; rewrite En, live_map_some; reflexivity|assumption].
Qed.
