(** What a builder starts with, and values that are no spans. *)
From Verif Require Import PyBase PyBaseFacts Model_Heap Model_Layer Model_Text Model_Types Model_Document Model_Query Model_Algorithm Model_JGroup
  Spec_Algorithm Spec_JGroup Proof_Query Proof_JGroup Proof_JGroup2.
From Coq Require Import Sorting.Permutation.
Local Open Scope Z_scope.

Lemma jspan_err h n f e : jspan h n f = Err e -> e = NotImplementedError.
Proof. unfold jspan. destruct (dget (n_fieldsof h n) f) as [[]|]; congruence. Qed.
Lemma jspan_bad h n f : no_span_value h f n -> dmem (n_fieldsof h n) f = true /\ jspan h n f = Err NotImplementedError.
Proof.
  intros (v & E & B). unfold dmem, jspan. rewrite E. split; [reflexivity|]. destruct v; try reflexivity. exfalso. apply (B (start, stop)). exists tname, ttext. exact E.
Qed.
Lemma jpoints_err h f a b c d layer ns e : jpoints h f a b c d layer ns = Err e -> e = NotImplementedError.
Proof.
  induction ns as [|n ns IH]; [discriminate|]. cbn [jpoints]. destruct (dmem (n_fieldsof h n) f); [|exact IH]. destruct (jspan h n f) as [p|e'] eqn:E; [|cbn [rbind]; intros [= <-]; eapply jspan_err; exact E].
  cbn [rbind]. destruct (jpoints h f a b c d layer ns) as [q|e'] eqn:E2; [discriminate|]. cbn [rbind]. intros [= <-]. apply IH. reflexivity.
Qed.
Lemma jpoints_bad h f a b c d layer ns n : In n ns -> no_span_value h f n -> jpoints h f a b c d layer ns = Err NotImplementedError.
Proof.
  intros Hn B. destruct (jpoints h f a b c d layer ns) as [q|e] eqn:E; [|f_equal; eapply jpoints_err; exact E]. exfalso. revert q E. induction ns as [|m ns IH]; intros q E; [destruct Hn|]. cbn [jpoints] in E.
  destruct Hn as [->|Hn].
  - destruct (jspan_bad _ _ _ B) as [M J]. rewrite M, J in E. discriminate E.
  - destruct (dmem (n_fieldsof h m) f); [|eapply IH; eassumption]. destruct (jspan h m f); [|discriminate]. cbn [rbind] in E. destruct (jpoints h f a b c d layer ns) as [q'|] eqn:E2; [|discriminate]. eapply IH; [exact Hn|reflexivity].
Qed.
Theorem group_no_span og ol h b n : In n (bg_groups b) -> no_span_value h (bg_field b) n -> java_solve og ol h b = Err NotImplementedError.
Proof. intros Hn B. unfold java_solve, group_points. rewrite (jpoints_bad _ _ _ _ _ _ _ _ _ Hn B). reflexivity. Qed.
Lemma layer_points_err h fields layers e : (forall k l, In (k, l) layers -> dget fields k <> None) -> layer_points h fields layers = Err e -> e = NotImplementedError.
Proof.
  induction layers as [|[k l] r IH]; intros H; [discriminate|]. cbn [layer_points]. unfold dgetE. pose proof (H k l (or_introl eq_refl)) as Hk. destruct (dget fields k) as [f|]; [|congruence]. cbn [rbind].
  destruct (jpoints h f 1 (-1) 4 6 (Some k) l) as [p|e'] eqn:E; [|cbn [rbind]; intros [= <-]; eapply jpoints_err; exact E]. cbn [rbind]. destruct (layer_points h fields r) as [q|e'] eqn:E2; [discriminate|]. cbn [rbind]. intros [= <-]. apply IH; [|reflexivity]. intros k' l' I. eapply H. right. exact I.
Qed.
Lemma layer_points_bad h fields layers k l f n : (forall k l, In (k, l) layers -> dget fields k <> None) -> In (k, l) layers -> dget fields k = Some f -> In n l -> no_span_value h f n ->
  layer_points h fields layers = Err NotImplementedError.
Proof.
  intros H Hk Hf Hn B. destruct (layer_points h fields layers) as [q|e] eqn:E; [|f_equal; eapply layer_points_err; [exact H|exact E]]. exfalso. clear H. revert q E. induction layers as [|[k' l'] r IH]; intros q E; [destruct Hk|]. cbn [layer_points] in E.
  destruct Hk as [Hk|Hk].
  - injection Hk as -> ->. unfold dgetE in E. rewrite Hf in E. cbn [rbind] in E. rewrite (jpoints_bad _ _ _ _ _ _ _ _ _ Hn B) in E. discriminate E.
  - destruct (dgetE fields k') as [f'|]; [|discriminate]. cbn [rbind] in E. destruct (jpoints h f' 1 (-1) 4 6 (Some k') l') as [p|]; [|discriminate]. cbn [rbind] in E. destruct (layer_points h fields r) as [q'|] eqn:E2; [|discriminate]. eapply IH; [exact Hk|reflexivity].
Qed.
Theorem layer_no_span og ol h b0 calls name ns f n : bg_layers b0 = [] -> bg_fields b0 = [] -> last_call calls name = Some (ns, f) -> In n ns -> no_span_value h f n ->
  java_solve og ol h (called b0 calls) = Err NotImplementedError.
Proof.
  intros B1 B2 L Hn B. destruct (called_layers b0 calls B1 B2) as (Sorted & Ls & Fs). set (b := called b0 calls) in *. unfold java_solve, group_points.
  destruct (jpoints h (bg_field b) 0 (-2) 3 5 None (bg_groups b)) as [a|e] eqn:E; [|cbn [rbind]; f_equal; eapply jpoints_err; exact E]. cbn [rbind].
  rewrite (layer_points_bad h (bg_fields b) (bg_layers b) name ns f n); [reflexivity| |apply dget_In; rewrite Ls, L; reflexivity|rewrite Fs, L; reflexivity|exact Hn|exact B].
  intros k l I. rewrite Fs. assert (D : In k (dkeys (bg_layers b))) by (unfold dkeys; apply in_map_iff; exists (k, l); auto). destruct (dget (bg_layers b) k) as [x|] eqn:Ex; [|apply dget_None in Ex; contradiction].
  rewrite Ls in Ex. destruct (last_call calls k); [discriminate|discriminate Ex].
Qed.
Lemma called_same b0 calls : bg_groups (called b0 calls) = bg_groups b0 /\ bg_field (called b0 calls) = bg_field b0.
Proof. unfold called. revert b0. induction calls as [|c calls IH]; intros b0; [auto|]. cbn [fold_left]. exact (IH _). Qed.
Theorem no_span_refused og ol h b0 calls n : bg_layers b0 = [] -> bg_fields b0 = [] ->
  In n (bg_groups b0) /\ no_span_value h (bg_field b0) n \/ (exists name ns f, last_call calls name = Some (ns, f) /\ In n ns /\ no_span_value h f n) ->
  java_solve og ol h (called b0 calls) = Err NotImplementedError.
Proof.
  intros B1 B2 [[I B]|(name & ns & f & L & I & B)]; [|eapply layer_no_span; eassumption]. destruct (called_same b0 calls) as [E1 E2]. apply group_no_span with n; [rewrite E1; exact I|rewrite E2; exact B].
Qed.
Theorem builder_defaults gs f : (bg_groups (new_builder gs f) = gs /\ bg_field (new_builder gs f) = f /\ bg_layers (new_builder gs f) = [] /\ bg_fields (new_builder gs f) = []) /\
  new_builder gs f = set_include_empty (set_resolution (new_builder gs f) false) false /\ builder_list gs f = new_builder gs (s "text").
Proof. repeat split. Qed.

(** ** nodes that are in no layer *)
Definition typed_point (h : heap) (b : gbuilder) (e : gpoint) : Prop :=
  let '((_, ty), (layer, n)) := e in
  match layer with
  | None => In ty [0; -2; 3; 5] /\ exists p, jspan h n (bg_field b) = Ok p
  | Some name => In ty [1; -1; 4; 6] /\ In name (dkeys (bg_layers b)) /\ exists f p, dget (bg_fields b) name = Some f /\ jspan h n f = Ok p
  end.
Lemma jpoints_typed h f a b c d layer ns q : jpoints h f a b c d layer ns = Ok q ->
  (forall e, In e q -> exists o ty n, e = ((o, ty), (layer, n)) /\ In ty [a; b; c; d] /\ exists p, jspan h n f = Ok p) /\
  forall n, In n ns -> dmem (n_fieldsof h n) f = true -> exists e, In e q /\ snd (snd e) = n.
Proof.
  revert q. induction ns as [|n ns IH]; intros q E; [injection E as <-; split; [intros e []|intros n []]|]. cbn [jpoints] in E. destruct (dmem (n_fieldsof h n) f) eqn:M.
  - destruct (jspan h n f) as [p|] eqn:J; [|discriminate]. cbn [rbind] in E. destruct (jpoints h f a b c d layer ns) as [r|]; [|discriminate]. cbn [rbind] in E. injection E as <-. destruct (IH r eq_refl) as [I1 I2]. split.
    + intros e He. apply in_app_or in He. destruct He as [He|He]; [|apply I1; exact He]. destruct (negb (fst p =? snd p)); destruct He as [<-|[<-|[]]]; eexists _, _, n; (split; [reflexivity|]); (split; [simpl; tauto|eauto]).
    + intros m [->|Hm] Mm; [|destruct (I2 m Hm Mm) as (e & He & En); exists e; split; [apply in_or_app; right; exact He|exact En]].
      destruct (negb (fst p =? snd p)); eexists; (split; [apply in_or_app; left; left; reflexivity|reflexivity]).
  - destruct (IH q E) as [I1 I2]. split; [exact I1|]. intros m [->|Hm] Mm; [congruence|]. exact (I2 m Hm Mm).
Qed.
Lemma layer_points_typed h fields layers q : layer_points h fields layers = Ok q ->
  (forall e, In e q -> exists o ty name n f, e = ((o, ty), (Some name, n)) /\ In ty [1; -1; 4; 6] /\ In name (dkeys layers) /\ dget fields name = Some f /\ exists p, jspan h n f = Ok p) /\
  forall name ns f n, In (name, ns) layers -> dget fields name = Some f -> In n ns -> dmem (n_fieldsof h n) f = true -> exists e, In e q /\ snd (snd e) = n.
Proof.
  revert q. induction layers as [|[k l] r IH]; intros q E; [injection E as <-; split; [intros e []|intros name ns f n []]|]. cbn [layer_points] in E. unfold dgetE in E. destruct (dget fields k) as [f|] eqn:Ef; [|discriminate]. cbn [rbind] in E.
  destruct (jpoints h f 1 (-1) 4 6 (Some k) l) as [a|] eqn:Ea; [|discriminate]. cbn [rbind] in E. destruct (layer_points h fields r) as [c|]; [|discriminate]. cbn [rbind] in E. injection E as <-. destruct (IH c eq_refl) as [I1 I2]. destruct (jpoints_typed _ _ _ _ _ _ _ _ _ Ea) as [J1 J2]. split.
  - intros e He. apply in_app_or in He. destruct He as [He|He].
    + destruct (J1 e He) as (o & ty & n & -> & Ht & Hp). exists o, ty, k, n, f. split; [reflexivity|]. split; [exact Ht|]. split; [left; reflexivity|]. auto.
    + destruct (I1 e He) as (o & ty & name & n & g & -> & Ht & Hk & Hg & Hp). exists o, ty, name, n, g. split; [reflexivity|]. split; [exact Ht|]. split; [right; exact Hk|]. auto.
  - intros name ns g n [E|Hin] Hg Hn M.
    + injection E as -> ->. rewrite Ef in Hg. injection Hg as ->. destruct (J2 n Hn M) as (e & He & En). exists e. split; [apply in_or_app; left; exact He|exact En].
    + destruct (I2 name ns g n Hin Hg Hn M) as (e & He & En). exists e. split; [apply in_or_app; right; exact He|exact En].
Qed.

Section Loop.
Variables (og : nat -> list nid -> list nid) (ol : nat -> pystr -> list nid -> list nid) (h : heap) (b : gbuilder).
Hypothesis Og : any_order og.
Hypothesis Ol : any_layer_order ol.
Definition spanned (layer : pystr) (n : nid) : Prop := exists f p, dget (bg_fields b) layer = Some f /\ jspan h n f = Ok p.
Definition sound (st : jstate) : Prop :=
  dkeys (js_nodes st) = dkeys (bg_layers b) /\
  (forall k l, In (k, l) (js_nodes st) -> (exists f, dget (bg_fields b) k = Some f) /\ forall n, In n l -> spanned k n) /\
  (forall g, In g (js_opens st) -> exists p, jspan h g (bg_field b) = Ok p) /\
  (forall g i, In (g, i) (js_groups st) -> dkeys (js_objs st i) = dkeys (bg_layers b)) /\
  forall g i, In (g, i) (js_groups st) -> (i < length (js_list st))%nat.
Lemma pick_ok gp f ns : (forall n, In n ns -> exists p, jspan h n f = Ok p) -> exists q, pick h gp f ns = Ok q.
Proof.
  induction ns as [|n ns IH]; intros H; [eexists; reflexivity|]. cbn [pick]. destruct (H n (or_introl eq_refl)) as [p ->]. cbn [rbind]. destruct (IH (fun m Hm => H m (or_intror Hm))) as [q ->]. eexists. reflexivity.
Qed.
Lemma new_content_ok k n nodes : (exists p, jspan h n (bg_field b) = Ok p) -> (forall k l, In (k, l) nodes -> (exists f, dget (bg_fields b) k = Some f) /\ forall m, In m l -> spanned k m) ->
  exists o, new_content ol h b k n nodes = Ok o /\ dkeys o = dkeys nodes.
Proof.
  intros [gp J]. induction nodes as [|[layer l] r IH]; intros H; [exists []; split; reflexivity|]. cbn [new_content].
  destruct (IH (fun k l I => H k l (or_intror I))) as (q & Eq & Kq). destruct (H layer l (or_introl eq_refl)) as [[f Ef] Hl].
  assert (X : exists xs, (if bg_cover b then let* gp := jspan h n (bg_field b) in let* f := dgetE (bg_fields b) layer in pick h gp f (ol k layer l) else Ok (ol k layer l)) = Ok xs).
  { destruct (bg_cover b); [|eexists; reflexivity]. rewrite J. cbn [rbind]. unfold dgetE. rewrite Ef. cbn [rbind]. apply pick_ok. intros m Hm. destruct (Hl m) as (f' & p & E' & Jp); [eapply Permutation_in; [apply Ol|exact Hm]|]. rewrite Ef in E'. injection E' as <-. eauto. }
  destruct X as [xs ->]. cbn [rbind]. rewrite Eq. cbn [rbind]. eexists. split; [reflexivity|]. cbn [dkeys map fst]. unfold dkeys in Kq. now rewrite Kq.
Qed.
Lemma node_get_in groups g i : node_get h groups g = Some i -> exists g', In (g', i) groups.
Proof. induction groups as [|[k v] r IH]; [discriminate|]. cbn [node_get]. destruct (same_node h g k); [intros [= ->]; exists k; left; reflexivity|]. intros E. destruct (IH E) as [g' I']. exists g'. right. exact I'. Qed.
Lemma to_groups_ok groups layer n gs : forall objs, In layer (dkeys (bg_layers b)) -> spanned layer n -> (forall g, In g gs -> exists p, jspan h g (bg_field b) = Ok p) ->
  (forall g i, In (g, i) groups -> dkeys (objs i) = dkeys (bg_layers b)) ->
  to_groups h b groups layer n gs objs = Err AttributeError \/
  exists objs', to_groups h b groups layer n gs objs = Ok objs' /\ forall g i, In (g, i) groups -> dkeys (objs' i) = dkeys (bg_layers b).
Proof.
  induction gs as [|g gs IH]; intros objs Hl Sp Hg Hk; [right; exists objs; auto|]. cbn [to_groups].
  assert (X : exists t, (if bg_cover b then let* gp := jspan h g (bg_field b) in let* f := dgetE (bg_fields b) layer in let* p := jspan h n f in Ok (covers gp p) else Ok true) = Ok t).
  { destruct (bg_cover b); [|eexists; reflexivity]. destruct (Hg g (or_introl eq_refl)) as [gp ->]. cbn [rbind]. destruct Sp as (f & p & Ef & Jp). unfold dgetE. rewrite Ef. cbn [rbind]. rewrite Jp. eexists. reflexivity. }
  destruct X as [t ->]. cbn [rbind]. destruct t; [|apply IH; auto; intros g' I; apply Hg; right; exact I]. destruct (node_get h groups g) as [i|] eqn:Eg; [|left; reflexivity].
  destruct (node_get_in _ _ _ Eg) as [g' Ig]. pose proof (Hk g' i Ig) as Ki. unfold dgetE. destruct (dget (objs i) layer) as [l|] eqn:El; [|apply dget_None in El; rewrite Ki in El; contradiction]. cbn [rbind].
  apply IH; auto; [intros g'' I; apply Hg; right; exact I|]. intros g'' k I. unfold upd. destruct (Nat.eqb_spec k i) as [->|]; [|eapply Hk; exact I].
  rewrite dkeys_dset. unfold dmem. rewrite El. exact Ki.
Qed.
Lemma in_set_add (eqb : nid -> nid -> bool) n l m : In m (set_add eqb n l) -> m = n \/ In m l.
Proof. unfold set_add. destruct (existsb _ l); [auto|]. intros I. apply in_app_or in I. destruct I as [I|[<-|[]]]; auto. Qed.
Lemma nodes_set (nodes : dict (list nid)) name l x : dget nodes name = Some l -> (exists f, dget (bg_fields b) name = Some f) -> (forall n, In n x -> spanned name n) ->
  (forall k l, In (k, l) nodes -> (exists f, dget (bg_fields b) k = Some f) /\ forall n, In n l -> spanned k n) ->
  dkeys (dset nodes name x) = dkeys nodes /\ forall k l, In (k, l) (dset nodes name x) -> (exists f, dget (bg_fields b) k = Some f) /\ forall n, In n l -> spanned k n.
Proof.
  intros E F X H. split; [rewrite dkeys_dset; unfold dmem; now rewrite E|]. intros k l' I. clear E. induction nodes as [|[k0 v0] r IH]; cbn [dset] in I.
  - destruct I as [[= <- <-]|[]]. auto.
  - destruct (str_eqb name k0) eqn:Ek.
    + apply str_eqb_eq in Ek. subst k0. destruct I as [I|I]; [injection I as <- <-; auto|]. apply H. right. exact I.
    + destruct I as [I|I]; [injection I as <- <-; apply H; left; reflexivity|]. apply IH; [intros k1 l1 I1; apply H; right; exact I1|exact I].
Qed.
Lemma step_sound k st e : typed_point h b e -> sound st ->
  js_step og ol h b k st e = Err AttributeError \/ exists st', js_step og ol h b k st e = Ok st' /\ sound st' /\ n_collof h (snd (snd e)) <> None.
Proof.
  destruct e as [[o ty] [layer n]]. intros Ht (S1 & S2 & S3 & S4 & S5). cbn [snd]. unfold js_step, hashed. destruct (n_collof h n) as [c|]; [|left; reflexivity]. cbn [rbind]. cbn [typed_point] in Ht.
  destruct layer as [name|].
  - destruct Ht as (Hty & Hn & f & p & Ef & Jp). assert (Sp : spanned name n) by (exists f, p; auto).
    assert (D : exists l, dget (js_nodes st) name = Some l). { destruct (dget (js_nodes st) name) as [l|] eqn:E; [eauto|]. apply dget_None in E. rewrite S1 in E. contradiction. }
    destruct D as [l El]. destruct (S2 _ _ (dget_In _ _ El)) as [Fn Fl]. unfold dgetE. rewrite El. cbn [rbind].
    destruct Hty as [<-|[<-|[<-|[<-|[]]]]]; cbn [Z.eqb Pos.eqb orb].
    1,3: destruct (to_groups_ok (js_groups st) name n (og k (js_opens st)) (js_objs st) Hn Sp) as [->|(objs & -> & Ho)]; [|exact S4|left; reflexivity|];
         [intros g Hg; apply S3; eapply Permutation_in; [apply Og|exact Hg]|]; cbn [rbind]; right; eexists; split; [reflexivity|]; split; [|discriminate];
         destruct (nodes_set (js_nodes st) name l (set_add (same_node h) n l) El Fn) as [Q1 Q2]; [intros m Hm; apply in_set_add in Hm; destruct Hm as [->|Hm]; [exact Sp|apply Fl; exact Hm]|exact S2|];
         split; [cbn [js_nodes]; rewrite Q1; exact S1|]; split; [exact Q2|]; split; [exact S3|]; split; [exact Ho|exact S5].
    all: right; eexists; split; [reflexivity|]; split; [|discriminate];
         destruct (nodes_set (js_nodes st) name l (filter (fun y => negb (same_node h n y)) l) El Fn) as [Q1 Q2]; [intros m Hm; apply filter_In in Hm; apply Fl; apply Hm|exact S2|];
         split; [cbn [js_nodes]; rewrite Q1; exact S1|]; split; [exact Q2|]; split; [exact S3|]; split; [exact S4|exact S5].
  - destruct Ht as (Hty & Jn). destruct Hty as [<-|[<-|[<-|[<-|[]]]]]; cbn [Z.eqb Pos.eqb orb].
    1,3: destruct (new_content_ok k n (js_nodes st) Jn S2) as (c0 & -> & Kc); cbn [rbind]; right; eexists; split; [reflexivity|]; split; [|discriminate];
         split; [exact S1|]; split; [exact S2|]; split; [intros g Hg; cbn [js_opens] in Hg; apply in_set_add in Hg; destruct Hg as [->|Hg]; [exact Jn|apply S3; exact Hg]|]; split;
         [intros g i Hi; cbn [js_groups js_objs] in *; unfold upd; destruct Hi as [[= <- <-]|Hi]; [rewrite Nat.eqb_refl; rewrite Kc; exact S1|];
          pose proof (S5 _ _ Hi); destruct (Nat.eqb_spec i (length (js_list st))); [lia|]; eapply S4; exact Hi
         |intros g i Hi; cbn [js_groups js_list] in *; rewrite app_length; cbn [length]; destruct Hi as [[= <- <-]|Hi]; [lia|]; pose proof (S5 _ _ Hi); lia].
    all: right; eexists; split; [reflexivity|]; split; [|discriminate]; split; [exact S1|]; split; [exact S2|]; split; [intros g Hg; cbn [js_opens] in Hg; apply filter_In in Hg; apply S3; apply Hg|]; split; [exact S4|exact S5].
Qed.
Lemma loop_sound es : forall k st, Forall (typed_point h b) es -> sound st ->
  js_loop og ol h b k st es = Err AttributeError \/ (exists st', js_loop og ol h b k st es = Ok st') /\ forall e, In e es -> n_collof h (snd (snd e)) <> None.
Proof.
  induction es as [|e es IH]; intros k st F Hs; [right; split; [eexists; reflexivity|intros e []]|]. inversion F as [|? ? F1 F2]; subst. cbn [js_loop]. destruct (step_sound k st e F1 Hs) as [->|(st1 & -> & S1 & C)]; [left; reflexivity|]. cbn [rbind].
  destruct (IH (S k) st1 F2 S1) as [E|[E Ce]]; [left; exact E|right; split; [exact E|]]. intros e' [<-|I]; [exact C|apply Ce; exact I].
Qed.
End Loop.

Lemma stable_in (l : list gpoint) e : In e (ssort (fun e => e) gpoint_leb l) <-> In e l.
Proof. split; intros H; eapply Permutation_in; try exact H; [apply Permutation_sym|]; apply ssort_perm. Qed.
Theorem no_layer og ol h b0 calls n : any_order og -> any_layer_order ol -> bg_layers b0 = [] -> bg_fields b0 = [] ->
  let b := called b0 calls in
  (forall g, In g (bg_groups b) -> ~ no_span_value h (bg_field b) g) ->
  (forall name ns f m, last_call calls name = Some (ns, f) -> In m ns -> ~ no_span_value h f m) ->
  n_collof h n = None ->
  (In n (bg_groups b) /\ (exists p, span_at h n (bg_field b) p) \/ exists name ns f p, last_call calls name = Some (ns, f) /\ In n ns /\ span_at h n f p) ->
  java_solve og ol h b = Err AttributeError.
Proof.
  intros Og Ol B1 B2 b Hg Hl Hc Hn. destruct (called_layers b0 calls B1 B2) as (Sorted & Ls & Fs). fold b in Sorted, Ls, Fs.
  assert (Good : forall f m, ~ no_span_value h f m -> dmem (n_fieldsof h m) f = true -> exists p, jspan h m f = Ok p).
  { intros f m N M. unfold dmem in M. destruct (dget (n_fieldsof h m) f) as [v|] eqn:E; [|discriminate]. destruct (jspan h m f) as [p|e] eqn:J; [eauto|]. exfalso. apply N. exists v. split; [exact E|]. intros p (tn & tt & Q). unfold jspan in J. rewrite Q in J. discriminate J. }
  assert (PO : forall f a c d e layer ns, (forall m, In m ns -> ~ no_span_value h f m) -> exists q, jpoints h f a c d e layer ns = Ok q).
  { intros f a c d e layer ns H. induction ns as [|m ns IH]; [eexists; reflexivity|]. destruct (IH (fun x Hx => H x (or_intror Hx))) as [q Eq]. cbn [jpoints]. destruct (dmem (n_fieldsof h m) f) eqn:M; [|eauto]. destruct (Good f m (H m (or_introl eq_refl)) M) as [p ->]. cbn [rbind]. rewrite Eq. eexists. reflexivity. }
  assert (Mem : forall f m p, span_at h m f p -> dmem (n_fieldsof h m) f = true) by (intros f m p (tn & tt & Q); unfold dmem; rewrite Q; reflexivity).
  assert (Nd : NoDup (dkeys (bg_layers b))).
  { clear - Sorted. induction Sorted as [|k l S IH F]; constructor; [|exact IH]. intros I. rewrite Forall_forall in F. specialize (F k I). unfold key_lt in F. rewrite str_cmp_refl in F. discriminate F. }
  assert (LC : forall k l, In (k, l) (bg_layers b) -> exists f, dget (bg_fields b) k = Some f /\ last_call calls k = Some (l, f)).
  { intros k l I. pose proof (dget_nodup _ _ _ Nd I) as E. rewrite Ls in E. destruct (last_call calls k) as [[ns f]|] eqn:L; [|discriminate E]. injection E as ->. exists f. rewrite Fs, L. split; reflexivity. }
  unfold java_solve, group_points. destruct (PO (bg_field b) 0 (-2) 3 5 None (bg_groups b) Hg) as [a Ea]. rewrite Ea. cbn [rbind].
  assert (LP : forall layers, (forall k l, In (k, l) layers -> In (k, l) (bg_layers b)) -> exists c, layer_points h (bg_fields b) layers = Ok c).
  { induction layers as [|[k l] r IH]; intros Sub; [eexists; reflexivity|]. cbn [layer_points]. destruct (LC k l (Sub k l (or_introl eq_refl))) as (f & Ef & Lf). unfold dgetE. rewrite Ef. cbn [rbind].
    destruct (PO f 1 (-1) 4 6 (Some k) l) as [q ->]; [intros m Hm; eapply Hl; eassumption|]. cbn [rbind]. destruct (IH (fun k' l' I' => Sub k' l' (or_intror I'))) as [c ->]. eexists. reflexivity. }
  destruct (LP (bg_layers b) (fun k l I => I)) as [c Ec]. rewrite Ec. cbn [rbind].
  destruct (jpoints_typed _ _ _ _ _ _ _ _ _ Ea) as [A1 A2]. destruct (layer_points_typed _ _ _ _ Ec) as [C1 C2].
  set (es := ssort (fun e => e) gpoint_leb (a ++ c)). set (st := mkJS _ _ _ _ _).
  assert (Typed : Forall (typed_point h b) es).
  { apply Forall_forall. intros e He. apply (proj1 (stable_in (a ++ c) e)) in He. apply in_app_or in He. destruct He as [He|He].
    - destruct (A1 e He) as (o & ty & m & -> & Ht & Hp). cbn [typed_point]. split; [exact Ht|exact Hp].
    - destruct (C1 e He) as (o & ty & name & m & f & -> & Ht & Hk & Hf & p & Hp). cbn [typed_point]. split; [exact Ht|]. split; [exact Hk|]. exists f, p. auto. }
  assert (Snd : sound h b st).
  { split; [unfold st, dkeys; cbn [js_nodes]; rewrite map_map; reflexivity|]. split.
    - intros k l I. unfold st in I. cbn [js_nodes] in I. apply in_map_iff in I. destruct I as ([k' l'] & E & I). injection E as <- <-. destruct (LC _ _ I) as (f & Ef & _). cbn [fst]. split; [eauto|intros m []].
    - split; [intros g []|]. split; intros g i []. }
  destruct (loop_sound og ol h b Og Ol es 0%nat st Typed Snd) as [->|[_ All]]; [reflexivity|]. exfalso.
  assert (Ev : exists e, In e (a ++ c) /\ snd (snd e) = n).
  { destruct Hn as [[I [p P]]|(name & ns & f & p & L & I & P)].
    - destruct (A2 n I (Mem _ _ _ P)) as (e & He & En). exists e. split; [apply in_or_app; left; exact He|exact En].
    - destruct (C2 name ns f n) as (e & He & En); [apply dget_In; rewrite Ls, L; reflexivity|rewrite Fs, L; reflexivity|exact I|exact (Mem _ _ _ P)|]. exists e. split; [apply in_or_app; right; exact He|exact En]. }
  destruct Ev as (e & He & En). apply (All e); [apply (proj2 (stable_in (a ++ c) e)); exact He|]. rewrite En. exact Hc.
Qed.
