(** Proofs about the Java sweeps over nodes, and corollaries for groups. *)
From Verif Require Import PyBase PyBaseFacts Model_Heap Model_Layer Model_Text Model_Types Model_Document Model_Algorithm Model_JAlgorithm Model_JGroup
  Spec_Algorithm Spec_JGroup Proof_Algorithm3 Proof_Algorithm4 Proof_Algorithm5 Proof_JGroup Proof_JGroup2.
Local Open Scope Z_scope.

Lemma java_nodes h ns f : (forall n, In n ns -> exists p, span_at h n f p) -> exists segs,
  map snd segs = ns /\ (forall p n, In (p, n) segs -> span_at h n f p) /\
  java_resolve_span h ns f = Ok (java_resolve segs) /\ dominant_right_span h ns f = Ok (dominant_right segs).
Proof.
  intros H. assert (G : exists segs, map snd segs = ns /\ (forall p n, In (p, n) segs -> span_at h n f p) /\ java_segments h f ns = Ok segs /\ span_segments h f ns = Ok segs).
  { induction ns as [|n ns IH]; [exists []; split; [reflexivity|split; [intros p n []|split; reflexivity]]|].
    destruct IH as (segs & S1 & S2 & S3 & S4); [intros; apply H; right; assumption|]. destruct (H n (or_introl eq_refl)) as ([a c] & Hp).
    pose proof Hp as (tn & tt & E). cbn [fst snd] in E. exists ((a, c, n) :: segs). cbn [map snd]. rewrite S1. split; [reflexivity|]. split.
    - intros p m [I|I]; [injection I as <- <-; exact Hp|exact (S2 p m I)].
    - cbn [java_segments span_segments]. unfold dmem, node_span, dgetE. rewrite E. cbn [rbind fst snd]. rewrite S3, S4. split; reflexivity. }
  destruct G as (segs & S1 & S2 & S3 & S4). exists segs. unfold java_resolve_span, dominant_right_span. rewrite S3, S4. auto.
Qed.
Lemma java_nodes_missing h ns f n : In n ns -> (forall p, ~ span_at h n f p) -> java_resolve_span h ns f = Err NotImplementedError.
Proof.
  intros I H. unfold java_resolve_span. assert (E : java_segments h f ns = Err NotImplementedError); [|rewrite E; reflexivity].
  induction ns as [|m ns IH]; [destruct I|]. cbn [java_segments]. destruct I as [->|I].
  - destruct (dget (n_fieldsof h n) f) as [v|] eqn:E; [|reflexivity]. destruct v; try reflexivity. exfalso. eapply (H (_, _)). eexists _, _. exact E.
  - rewrite (IH I). destruct (dget _ f) as [[]|]; reflexivity.
Qed.
Lemma java_nodespans h ns f : (forall n, In n ns -> exists a b, dget (n_fieldsof h n) f = Some (VNodeSpan a b)) -> exists segs,
  map snd segs = ns /\ (forall p n, In (p, n) segs -> exists a b, dget (n_fieldsof h n) f = Some (VNodeSpan a b) /\
     forall q, n_idof h a <= n_idof h b -> on p q <-> n_idof h a <= q <= n_idof h b) /\
  java_resolve_nodespans h ns f = Ok (java_resolve segs).
Proof.
  intros H. unfold java_resolve_nodespans. assert (G : exists segs, map snd segs = ns /\ (forall p n, In (p, n) segs -> exists a b, dget (n_fieldsof h n) f = Some (VNodeSpan a b) /\
     forall q, n_idof h a <= n_idof h b -> on p q <-> n_idof h a <= q <= n_idof h b) /\ nodespan_segments h f ns = Ok segs).
  { induction ns as [|n ns IH]; [exists []; split; [reflexivity|split; [intros p n []|reflexivity]]|].
    destruct IH as (segs & S1 & S2 & S3); [intros; apply H; right; assumption|]. destruct (H n (or_introl eq_refl)) as (a & b & E).
    exists ((n_idof h a, n_idof h b + 1, n) :: segs). cbn [map snd]. rewrite S1. split; [reflexivity|]. split.
    - intros p m [I|I]; [|exact (S2 p m I)]. injection I as <- <-. exists a, b. split; [exact E|]. intros q L. unfold on. cbn [fst snd]. lia.
    - cbn [nodespan_segments]. rewrite E, S3. reflexivity. }
  destruct G as (segs & S1 & S2 & S3). exists segs. rewrite S3. auto.
Qed.

Lemma nodespans_missing h ns f n : In n ns -> (forall a b, dget (n_fieldsof h n) f <> Some (VNodeSpan a b)) -> java_resolve_nodespans h ns f = Err NotImplementedError.
Proof.
  intros I H. unfold java_resolve_nodespans. assert (E : nodespan_segments h f ns = Err NotImplementedError); [|rewrite E; reflexivity].
  induction ns as [|m ns IH]; [destruct I|]. cbn [nodespan_segments]. destruct I as [->|I].
  - destruct (dget (n_fieldsof h n) f) as [v|] eqn:E; [|reflexivity]. destruct v; try reflexivity. exfalso. eapply H. reflexivity.
  - rewrite (IH I). destruct (dget (n_fieldsof h m) f) as [[]|]; reflexivity.
Qed.

Lemma java_python og ol h b0 calls : any_order og -> any_layer_order ol -> bg_layers b0 = [] -> bg_fields b0 = [] ->
  let b := called b0 calls in
  group_input h (bg_groups b0) (bg_layers b) (bg_field b0) (Some (bg_fields b)) -> told_apart h b ->
  exists on, any_order on /\
    java_solve og ol h b = group_by_span og on h (bg_groups b0) (bg_layers b) (if bg_cover b0 then s "cover" else s "intersect") (bg_field b0) (Some (bg_fields b)) (bg_empty b0).
Proof.
  intros A1 A2 E1 E2 b In_ Ap. destruct (called_rest b0 calls) as (R1 & R2 & R3 & R4). destruct (called_layers b0 calls E1 E2) as (St & _).
  destruct (java_is_python og ol h b A1 A2) as (on & O1 & O2 & _); [unfold b; rewrite R1, R2; exact In_|exact Ap|exact St|].
  exists on. split; [exact O1|]. rewrite O2. unfold b. rewrite R1, R2, R3, R4. reflexivity.
Qed.
Lemma java_intersect og ol h b0 calls : any_order og -> any_layer_order ol -> bg_layers b0 = [] -> bg_fields b0 = [] -> bg_cover b0 = false -> bg_empty b0 = true ->
  let b := called b0 calls in
  group_input h (bg_groups b0) (bg_layers b) (bg_field b0) (Some (bg_fields b)) -> told_apart h b ->
  exists gl, java_solve og ol h b = Ok gl /\ grouped h (bg_groups b0) (bg_layers b) (bg_field b0) (Some (bg_fields b)) shares gl.
Proof.
  intros A1 A2 E1 E2 E3 E4 b In_ Ap. destruct (java_python og ol h b0 calls A1 A2 E1 E2 In_ Ap) as (on & O1 & O2). unfold b. rewrite O2, E3, E4.
  apply (group_intersect og on A1 O1). exact In_.
Qed.
Lemma java_cover og ol h b0 calls : any_order og -> any_layer_order ol -> bg_layers b0 = [] -> bg_fields b0 = [] -> bg_cover b0 = true -> bg_empty b0 = true ->
  let b := called b0 calls in
  group_input h (bg_groups b0) (bg_layers b) (bg_field b0) (Some (bg_fields b)) -> told_apart h b ->
  exists gl, java_solve og ol h b = Ok gl /\ grouped h (bg_groups b0) (bg_layers b) (bg_field b0) (Some (bg_fields b)) (fun p q => shares p q /\ inside p q) gl.
Proof.
  intros A1 A2 E1 E2 E3 E4 b In_ Ap. destruct (java_python og ol h b0 calls A1 A2 E1 E2 In_ Ap) as (on & O1 & O2). unfold b. rewrite O2, E3, E4.
  apply (group_cover og on A1 O1). exact In_.
Qed.
Lemma java_loop_flag og ol h b e es : forall k st, js_loop og ol h (set_include_empty b e) k st es = js_loop og ol h b k st es.
Proof.
  assert (Nc : forall k n nodes, new_content ol h (set_include_empty b e) k n nodes = new_content ol h b k n nodes).
  { intros k n nodes. induction nodes as [|[x l] r IH]; [reflexivity|]. cbn [new_content]. rewrite IH. reflexivity. }
  assert (Tg : forall gr x n xs o, to_groups h (set_include_empty b e) gr x n xs o = to_groups h b gr x n xs o).
  { intros gr x n xs. induction xs as [|g xs IH]; intros o; [reflexivity|]. cbn [to_groups].
    change (bg_cover (set_include_empty b e)) with (bg_cover b). change (bg_field (set_include_empty b e)) with (bg_field b). change (bg_fields (set_include_empty b e)) with (bg_fields b).
    destruct (if bg_cover b then _ else _) as [t|]; [|reflexivity]. cbn [rbind]. destruct t; [|apply IH]. destruct (node_get h gr g); [|reflexivity].
    destruct (dgetE _ x); [|reflexivity]. cbn [rbind]. apply IH. }
  induction es as [|[[off t] [layer n]] es IH]; intros k st; [reflexivity|]. cbn [js_loop]. unfold js_step. rewrite Nc.
  destruct (hashed h n); [|reflexivity]. cbn [rbind].
  destruct layer as [x|]; [rewrite Tg|];
    match goal with |- (let* _ := ?s in _) = _ => destruct s; [|reflexivity] end; cbn [rbind]; apply IH.
Qed.
Lemma void_iff (o : dict (list nid)) : negb (group_void o) = true <-> exists layer l, In (layer, l) o /\ l <> [].
Proof. change o with (snd (0%nat, o)). rewrite void_size. apply group_size_pos. Qed.
Lemma java_empty og ol h b : match java_solve og ol h (set_include_empty b true) with
  | Ok full => exists keep, java_solve og ol h (set_include_empty b false) = Ok (filter keep full) /\
      forall g o, keep (g, o) = true <-> exists layer l, In (layer, l) o /\ l <> []
  | Err e => java_solve og ol h (set_include_empty b false) = Err e
  end.
Proof.
  unfold java_solve. change (group_points h (set_include_empty b true)) with (group_points h b). change (group_points h (set_include_empty b false)) with (group_points h b).
  change (bg_fields (set_include_empty b true)) with (bg_fields b). change (bg_fields (set_include_empty b false)) with (bg_fields b).
  change (bg_layers (set_include_empty b true)) with (bg_layers b). change (bg_layers (set_include_empty b false)) with (bg_layers b).
  destruct (group_points h b) as [a|]; [|reflexivity]. cbn [rbind]. destruct (layer_points h _ _) as [c|]; [|reflexivity]. cbn [rbind].
  rewrite !java_loop_flag. destruct (js_loop _ _ _ _ _ _ _) as [st|]; [|reflexivity]. cbn [rbind bg_empty set_include_empty].
  exists (fun g => negb (group_void (snd g))). split; [reflexivity|]. intros g o. apply void_iff.
Qed.
Lemma builder_ok h l f :
  (is_span_field h l f -> builder_layer h l f = Ok (new_builder (present (layer_iter h l)) f) /\
     forall b name, add_group_layer h b name l f = Ok (add_group b name (present (layer_iter h l)) f)) /\
  (~ is_span_field h l f -> builder_layer h l f = Err ValueError /\ forall b name, add_group_layer h b name l f = Err ValueError).
Proof.
  unfold builder_layer, add_group_layer, check_span_field, is_span_field. destruct (dget (l_fields (h_layer h l)) f) as [t|] eqn:E.
  - destruct (tname_eqb (dt_name t) TSpan) eqn:T.
    + split; [auto|]. intros N. exfalso. apply N. exists t. split; [reflexivity|]. destruct (dt_name t); try discriminate T; reflexivity.
    + split; [|auto]. intros (t' & E' & Q). injection E' as <-. rewrite Q in T. discriminate T.
  - split; [|auto]. intros (t' & E' & _). discriminate E'.
Qed.
