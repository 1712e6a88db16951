(** The outcome of validate on values that are not admitted. *)
From Verif Require Import PyBase PyBaseFacts Model_Text Model_Heap Model_Layer Model_Types Model_Msgpack Model_Document Model_Codec Spec_Layer Spec_Types Spec_Document Spec_Exact Spec_Refusal
  Proof_Heap Proof_Layer Proof_Layer4 Proof_Types Proof_Document.
Local Open Scope Z_scope.

Lemma bound_id h n l : wf h -> n_collof h n = Some l -> exists i, n_idof h n = Z.of_nat i /\ node_i h n = Ok (Z.of_nat i).
Proof.
  intros W C. destruct (ok_coll _ _ (wf_layers _ W l) n C) as (i & E & _). exists i. split; [exact E|]. unfold node_i. rewrite E. destruct (Z.eqb_spec (Z.of_nat i) (-1)); [lia|reflexivity].
Qed.
Lemma repr_ok_spec h n : node_repr_ok h n = false <-> unprintable h n.
Proof. unfold node_repr_ok, unprintable. destruct (n_fieldsof h n), (n_collof h n); split; try discriminate; try (intros [? ?]; congruence); intros _; split; congruence. Qed.
Lemma message_spec h v : wf h -> exists e, message h v e /\ assert_msg false (value_repr h v) = Err e.
Proof.
  intros W. unfold assert_msg. destruct v; try (exists AssertionError; split; [constructor; exact I|reflexivity]); cbn [value_repr].
  - destruct (node_repr_ok h n) eqn:E; cbn [rbind].
    + exists AssertionError. split; [|reflexivity]. apply ms_node. rewrite <- repr_ok_spec. congruence.
    + exists AttributeError. split; [|reflexivity]. apply ms_node_bad. apply repr_ok_spec. exact E.
  - destruct (n_collof h left) as [l|] eqn:C; cbn [rbind].
    + destruct (bound_id h left l W C) as (i & _ & ->). cbn [rbind]. unfold node_i at 1. destruct (Z.eqb_spec (n_idof h right) (-1)) as [B|B]; cbn [rbind].
      { exists AssertionError. split; [|reflexivity]. eapply ms_span_unbound; eauto. }
      destruct (dget (l_fields (h_layer h l)) (s "text")) as [d|] eqn:Ed.
      * destruct (tname_eqb (dt_name d) TSpan) eqn:Et; cbn [rbind].
        -- assert (St : shows_text h l) by (exists d; split; [exact Ed|destruct (dt_name d); try discriminate; reflexivity]).
           unfold dgetE. destruct (dget (n_fieldsof h left) (s "text")) as [x|] eqn:Ex; cbn [rbind].
           2:{ exists KeyError. split; [|reflexivity]. eapply ms_span_missing; eauto. }
           destruct (dget (n_fieldsof h right) (s "text")) as [y|] eqn:Ey; cbn [rbind].
           2:{ exists KeyError. split; [|reflexivity]. eapply ms_span_missing; eauto. }
           unfold span_text_value.
           destruct x; try (exists AttributeError; split; [eapply ms_span_notext; eauto; intros [(? & ? & ? & ? & ?) ?]; discriminate|reflexivity]).
           destruct y; try (exists AttributeError; split; [eapply ms_span_notext; eauto; intros [? (? & ? & ? & ? & ?)]; discriminate|reflexivity]).
           exists AssertionError. split; [|reflexivity]. eapply ms_span_text; eauto; repeat eexists.
        -- exists AssertionError. split; [|reflexivity]. eapply ms_span; eauto. intros (d' & Q & Q2). rewrite Ed in Q. injection Q as <-. rewrite Q2 in Et. discriminate.
      * exists AssertionError. split; [|reflexivity]. eapply ms_span; eauto. intros (d' & Q & Q2). congruence.
    + exists AttributeError. split; [|reflexivity]. apply ms_span_out. exact C.
  - destruct (forallb _ l) eqn:E; cbn [rbind].
    + exists AssertionError. split; [|reflexivity]. apply ms_list. intros n Hn. rewrite forallb_forall in E. specialize (E _ Hn). cbn in E. rewrite <- repr_ok_spec. congruence.
    + exists AttributeError. split; [|reflexivity]. assert (X : exists n, In (Some n) l /\ node_repr_ok h n = false).
      { clear -E. induction l as [|[n|] l IH]; cbn in E; [discriminate| |].
        - destruct (node_repr_ok h n) eqn:En; cbn in E; [destruct (IH E) as (m & M & M2); exists m; split; [right; exact M|exact M2]|exists n; split; [left; reflexivity|exact En]].
        - destruct (IH E) as (m & M & M2). exists m. split; [right; exact M|exact M2]. }
      destruct X as (n & Hn & Q). apply (ms_list_bad h l n Hn). apply repr_ok_spec. exact Q.
Qed.
Lemma assert_coll_spec h d name n : dget (dt_opts d) (s "layer") = Some (VStr name) ->
  (in_named h name n /\ assert_coll h d n = Ok tt) \/ (~ in_named h name n /\ assert_coll h d n = Err AssertionError).
Proof.
  intros T. unfold assert_coll. destruct (n_collof h n) as [l|] eqn:C.
  - rewrite (opt_is_spec _ _ _ _ T). cbn [rbind]. destruct (str_eqb_spec (l_nameof h l) name) as [E|E]; [left|right]; (split; [|reflexivity]).
    + exists l. auto.
    + intros (l' & C' & E'). congruence.
  - right. split; [|reflexivity]. intros (l' & C' & _). congruence.
Qed.
Lemma coll_is_cases h d name n : dget (dt_opts d) (s "layer") = Some (VStr name) ->
  (in_named h name n /\ coll_is h d n = Ok true) \/ (~ in_named h name n /\ coll_is h d n = Ok false).
Proof.
  intros T. destruct (coll_is_spec h d name n T) as ([|] & E & X); [left|right]; (split; [|exact E]); [apply X; reflexivity|]. intros Y. apply X in Y. discriminate.
Qed.
Definition listed (h : heap) (d : dtype) (o : option nid) : res bool := match o with None => Err AttributeError | Some n => coll_is h d n end.
Lemma list_cases h d name l : dget (dt_opts d) (s "layer") = Some (VStr name) ->
  (exists ns, l = map Some ns /\ (forall x, In x ns -> in_named h name x) /\ allM (listed h d) l = Ok true) \/
  (exists ns n r, l = map Some ns ++ Some n :: r /\ (forall x, In x ns -> in_named h name x) /\ ~ in_named h name n /\ allM (listed h d) l = Ok false) \/
  (exists ns r, l = map Some ns ++ None :: r /\ (forall x, In x ns -> in_named h name x) /\ allM (listed h d) l = Err AttributeError).
Proof.
  intros T. induction l as [|[n|] l IH].
  - left. exists []. split; [reflexivity|]. split; [intros x []|reflexivity].
  - cbn [allM listed]. destruct (coll_is_cases h d name n T) as [(A & ->)|(A & ->)]; cbn [rbind].
    + destruct IH as [(ns & -> & B & C)|[(ns & m & r & -> & B & D & C)|(ns & r & -> & B & C)]].
      * left. exists (n :: ns). split; [reflexivity|]. split; [intros x [<-|Hx]; auto|exact C].
      * right. left. exists (n :: ns), m, r. split; [reflexivity|]. split; [intros x [<-|Hx]; auto|]. split; [exact D|exact C].
      * right. right. exists (n :: ns), r. split; [reflexivity|]. split; [intros x [<-|Hx]; auto|exact C].
    + right. left. exists [], n, l. split; [reflexivity|]. split; [intros x []|]. auto.
  - right. right. exists [], l. split; [reflexivity|]. split; [intros x []|reflexivity].
Qed.
Lemma in_content_split h l m : wf h -> n_collof h m = Some l -> exists c c', layer_iter h l = map Some (c ++ m :: c').
Proof.
  intros W C. rewrite (iter_wf h l W). destruct (ok_coll _ _ (wf_layers _ W l) m C) as (i & _ & I). apply nth_error_In in I.
  assert (J : In m (content h l)). { unfold content. revert I. generalize (l_nodesof h l). induction l0 as [|[x|] l0 IH]; cbn; [tauto| |]; intros [H|H]; auto; [injection H as <-; auto|discriminate]. }
  apply in_split in J. destruct J as (c & c' & ->). exists c, c'. reflexivity.
Qed.
Lemma order_le h l c x m y c' : wf h -> layer_iter h l = map Some (c ++ x :: m :: y :: c') ->
  exists i j, n_collof h x = Some l /\ n_collof h y = Some l /\ node_i h x = Ok i /\ node_i h y = Ok j /\ i < j.
Proof.
  intros W E. destruct (membership_spec h l W) as (_ & M & _ & P).
  assert (X : nth_error (layer_iter h l) (length c) = Some (Some x)) by (rewrite E, nth_error_map, nth_error_app2, Nat.sub_diag by lia; reflexivity).
  assert (Y : nth_error (layer_iter h l) (S (S (length c))) = Some (Some y)).
  { rewrite E, nth_error_map, nth_error_app2 by lia. replace (S (S (length c)) - length c)%nat with 2%nat by lia. reflexivity. }
  destruct (P _ _ x y X Y ltac:(lia)) as (i & j & I & J & L). exists i, j.
  assert (Cx : layer_contains h l x = true) by (apply M; exact (nth_error_In _ _ X)). assert (Cy : layer_contains h l y = true) by (apply M; exact (nth_error_In _ _ Y)).
  unfold layer_contains in Cx, Cy. destruct (n_collof h x) as [lx|]; [|discriminate]. destruct (n_collof h y) as [ly|]; [|discriminate]. apply Nat.eqb_eq in Cx, Cy. subst. auto.
Qed.
Definition field_outcome (h : heap) (d : dtype) (v : value) (k : res bool) : res bool :=
  let* ok := is_valid h d v in if ok then k else let* _ := invalid_asserts h d v in Ok false.
Lemma field_refusal h d name v k : wf h -> type_ok d name -> ~ admits h name (dt_class d) v -> exists r, refuses h name (dt_class d) v r /\ field_outcome h d v k = r.
Proof.
  intros W T A. assert (V : is_valid h d v <> Ok true) by (intros X; apply (is_valid_spec h d name v T) in X; contradiction).
  unfold field_outcome. destruct (message_spec h v W) as (e & Me & Ee).
  assert (S1 : In (dt_class d) [KBool; KInt32; KInt64; KFloat; KString; KBinary] -> exists r, refuses h name (dt_class d) v r /\ (let* ok := is_valid h d v in if ok then k else let* _ := invalid_asserts h d v in Ok false) = r).
  { intros I. destruct (scalar_total h d v) as ([|] & E); [cbn in I |- *; intuition auto|congruence|]. rewrite E. cbn [rbind]. exists (Err e). split.
    - apply rf_message; [cbn in I |- *; intuition auto|intros X; rewrite X in I; cbn in I; intuition discriminate|exact Me].
    - unfold invalid_asserts. unfold type_ok in T. destruct (dt_class d); try (exfalso; cbn in I; intuition discriminate); rewrite T, Ee; reflexivity. }
  unfold type_ok in T. destruct (dt_class d) eqn:K; try (apply S1; cbn; tauto).
  - exfalso. apply A. constructor.
  - (* node span *) clear S1. destruct T as [T1 T2]. unfold is_valid in *. rewrite K in *. unfold invalid_asserts. rewrite T1.
    destruct v; try (exists (Err AttributeError); split; [apply rf_notspan; discriminate|reflexivity]).
    + cbn [rbind value_left value_right node_left node_right]. destruct (n_collof h n) as [l|] eqn:C.
      2:{ unfold node_left. rewrite C. exists (Err AttributeError). split; [apply rf_span_out; exact C|reflexivity]. }
      destruct (in_content_split h l n W C) as (c & c' & E). destruct (neighbours_spec h l W) as (N1 & N2 & N3 & _).
      unfold node_left, node_right. rewrite C.
      destruct c as [|x c0] using rev_ind; [|clear IHc0]; cbn [app] in E.
      { rewrite (N2 _ _ E). cbn [rbind]. exists (Err AssertionError). split; [|reflexivity]. exact (rf_span_end h name n l c' C (or_introl E)). }
      rewrite <- app_assoc in E. cbn [app] in E. destruct c' as [|y c'].
      { destruct (N1 _ _ _ _ E) as [-> _]. cbn [rbind]. assert (E' : layer_iter h l = map Some ((c0 ++ [x]) ++ [n])) by (rewrite <- app_assoc; exact E). rewrite (N3 _ _ E'). cbn [rbind].
        exists (Err AssertionError). split; [|reflexivity]. exact (rf_span_end h name n l (c0 ++ [x]) C (or_intror E')). }
      destruct (N1 _ _ _ _ E) as [-> _]. cbn [rbind]. assert (E' : layer_iter h l = map Some ((c0 ++ [x]) ++ n :: y :: c')) by (rewrite <- app_assoc; exact E).
      destruct (N1 _ _ _ _ E') as [_ ->]. cbn [rbind]. destruct (order_le h l c0 x n y c' W E) as (i & j & Cx & Cy & I & J & L). rewrite Cx, Cy.
      unfold assert_coll. rewrite Cx, Cy, (opt_is_spec _ _ _ _ T2). cbn [rbind]. destruct (str_eqb_spec (l_nameof h l) name) as [Q|Q]; cbn [rbind].
      * rewrite I, J. cbn [rbind]. destruct (Z.leb_spec i j); [|lia]. cbn [rbind]. exists (Ok false). split; [|reflexivity]. exact (rf_span_false h name n l c0 x y c' C E Q).
      * exists (Err AssertionError). split; [|reflexivity]. exact (rf_span_other h name n l c0 x y c' C E Q).
    + exists (Err AssertionError). split; [apply rf_span|]. cbn [value_left value_right rbind] in *. destruct (n_collof h left) as [la|] eqn:Ca; [|reflexivity].
      destruct (n_collof h right) as [lb|] eqn:Cb; [|reflexivity]. unfold assert_coll. rewrite Ca, Cb, !(opt_is_spec _ _ _ _ T2) in *. cbn [rbind] in *.
      destruct (str_eqb (l_nameof h la) name); cbn [negb rbind] in *; [|reflexivity]. destruct (str_eqb (l_nameof h lb) name); cbn [negb rbind] in *; [|reflexivity].
      destruct (bound_id h left la W Ca) as (i & _ & Ei), (bound_id h right lb W Cb) as (j & _ & Ej). rewrite Ei, Ej in *. cbn [rbind] in *. destruct (_ <=? _); [congruence|reflexivity].
  - (* text span *) clear S1. destruct T as [T1 T2]. unfold is_valid in *. rewrite K in *. unfold invalid_asserts. rewrite T1.
    destruct v; try (exists (Err e); split; [apply rf_message; [cbn; tauto|intros _ (? & ? & ? & ? & X); discriminate|exact Me]|cbn [rbind]; rewrite Ee; reflexivity]).
    rewrite (opt_is_spec _ _ _ _ T2) in *. cbn [rbind]. destruct (str_eqb_spec tname name) as [Q|Q]; [congruence|]. exists (Err AssertionError). split; [apply rf_text; exact Q|reflexivity].
  - (* node *) clear S1. destruct T as [T1 T2]. unfold is_valid in *. rewrite K in *. unfold invalid_asserts. rewrite T1.
    destruct v; try (exists (Err AttributeError); split; [apply rf_notnode; discriminate|reflexivity]).
    destruct (coll_is_cases h d name n T2) as [(X & Y)|(X & Y)]; rewrite Y in *; [congruence|]. cbn [rbind]. destruct (assert_coll_spec h d name n T2) as [(Z & _)|(Z & ->)]; [contradiction|].
    exists (Err AssertionError). split; [apply rf_node; exact X|reflexivity].
  - (* list of nodes *) clear S1. destruct T as [T1 T2]. unfold is_valid in *. rewrite K in *. unfold invalid_asserts. rewrite T1. unfold dgetE in *. rewrite T2 in *. cbn [rbind] in *.
    destruct v; try (exists (Err AssertionError); split; [apply rf_notlist; discriminate|reflexivity]); cbn [value_elems rbind] in *.
    + destruct (nodespan_iter h left right) as [ns|e'] eqn:E; cbn [rbind] in *; [|exists (Err e'); split; [apply rf_coll_iter; exact E|reflexivity]].
      destruct (list_cases h d name (map Some ns) T2) as [(q & _ & _ & Q)|[(q & n & r & E1 & _ & B & Q)|(q & r & E1 & _)]]; unfold listed in *.
      * rewrite Q in V. congruence.
      * rewrite Q. cbn [rbind]. exists (Err AssertionError). split; [|reflexivity]. apply (rf_coll h name left right ns n E); [|exact B].
        assert (I : In (Some n) (map Some ns)) by (rewrite E1; apply in_or_app; right; left; reflexivity). apply in_map_iff in I. destruct I as (m & [= <-] & I). exact I.
      * exfalso. assert (I : In None (map (@Some nid) ns)) by (rewrite E1; apply in_or_app; right; left; reflexivity). apply in_map_iff in I. destruct I as (m & X & _). discriminate.
    + destruct (list_cases h d name l T2) as [(q & _ & _ & Q)|[(q & n & r & -> & B & D & Q)|(q & r & -> & B & Q)]]; unfold listed in *.
      * rewrite Q in V. congruence.
      * rewrite Q. cbn [rbind]. exists (Err AssertionError). split; [apply rf_list; auto|]. clear Q V A Me Ee. induction q as [|x q IH]; cbn [map app].
        -- destruct (assert_coll_spec h d name n T2) as [(Z & _)|(_ & ->)]; [contradiction|reflexivity].
        -- destruct (assert_coll_spec h d name x T2) as [(_ & ->)|(Z & _)]; [|exfalso; apply Z, B; left; reflexivity]. cbn [rbind]. apply IH. intros z Hz. apply B. right. exact Hz.
      * rewrite Q. exists (Err AttributeError). split; [apply rf_list_other; exact B|reflexivity].
Qed.
Lemma validate_first h l n fs : n_collof h n = Some l -> (forall f d, In (f, d) fs -> dget (l_fields (h_layer h l)) f = Some d /\ exists name, type_ok d name) ->
  forall pre f d post v, fs = pre ++ (f, d) :: post ->
  (forall g t w, In (g, t) pre -> dget (n_fieldsof h n) g = Some w -> accepts h t w) -> dget (n_fieldsof h n) f = Some v ->
  exists k, validate_fields h fs n = field_outcome h d v k.
Proof.
  intros C D pre. revert fs D. induction pre as [|[g t] pre IH]; intros fs D f d post v E P V; subst fs; cbn [app validate_fields].
  - rewrite V, C. destruct (D f d (or_introl eq_refl)) as [Q _]. unfold dgetE. rewrite Q. cbn [rbind]. eexists. reflexivity.
  - assert (IH' : exists k, validate_fields h (pre ++ (f, d) :: post) n = field_outcome h d v k).
    { exact (IH (pre ++ (f, d) :: post) (fun f' d' I => D f' d' (or_intror I)) f d post v eq_refl (fun g' t' w' I => P g' t' w' (or_intror I)) V). }
    destruct (dget (n_fieldsof h n) g) as [w|] eqn:Eg; [|exact IH']. rewrite C. destruct (D g t (or_introl eq_refl)) as [Q T]. unfold dgetE. rewrite Q. cbn [rbind].
    pose proof (P g t w (or_introl eq_refl) Eg) as Acc. apply (is_valid_accepts h t w T) in Acc. rewrite Acc. cbn [rbind]. exact IH'.
Qed.
Lemma validate_exact h l n pre f d post v name : wf h -> n_collof h n = Some l -> schema_ok h l -> l_fields (h_layer h l) = pre ++ (f, d) :: post ->
  (forall g t w, In (g, t) pre -> dget (n_fieldsof h n) g = Some w -> accepts h t w) -> dget (n_fieldsof h n) f = Some v ->
  type_ok d name -> ~ admits h name (dt_class d) v -> refuses h name (dt_class d) v (validate h l n).
Proof.
  intros W C Sc E P V T A. unfold validate.
  assert (D : forall f d, In (f, d) (l_fields (h_layer h l)) -> dget (l_fields (h_layer h l)) f = Some d /\ exists name, type_ok d name).
  { intros f' d' I. assert (Q : dget (l_fields (h_layer h l)) f' = Some d') by (apply dget_nodup; [apply (wf_schema _ W)|exact I]). split; [exact Q|exact (Sc f' d' Q)]. }
  destruct (validate_first h l n _ C D pre f d post v E P V) as (k & ->). destruct (field_refusal h d name v k W T A) as (r & R & ->). exact R.
Qed.

(** the outcome is determined *)
Lemma message_fun h v e e' : message h v e -> message h v e' -> e = e'.
Proof.
  intros A B. inversion A; subst; inversion B; subst; try reflexivity; try contradiction; try (cbn in *; contradiction); try congruence; exfalso.
  all: try match goal with H : forall n, _ |- _ => eapply H; eassumption end.
  all: try solve [intuition congruence].
  all: repeat match goal with
       | H : ?g = Some ?x, H' : ?g = Some ?y |- _ => assert (x = y) by congruence; subst; clear H'
       end; tauto.
Qed.
Lemma split_unique {A} (P : A -> Prop) ns ms (a b : A) r r' : (forall x, In x ns -> P x) -> (forall x, In x ms -> P x) -> ~ P a -> ~ P b ->
  map Some ns ++ Some a :: r = map Some ms ++ Some b :: r' -> a = b.
Proof.
  revert ms. induction ns as [|x ns IH]; intros [|y ms] Hn Hm Ha Hb E; cbn in E; injection E as E1 E2.
  - exact E1.
  - subst. exfalso. apply Ha, Hm. left. reflexivity.
  - subst. exfalso. apply Hb, Hn. left. reflexivity.
  - apply (IH ms); auto; intros z Hz; [apply Hn|apply Hm]; right; exact Hz.
Qed.
Lemma split_none {A} (P : A -> Prop) ns ms (a : A) r r' : (forall x, In x ns -> P x) -> (forall x, In x ms -> P x) -> ~ P a ->
  map Some ns ++ Some a :: r = map Some ms ++ None :: r' -> False.
Proof.
  revert ms. induction ns as [|x ns IH]; intros [|y ms] Hn Hm Ha E; cbn in E; injection E as E1 E2; try discriminate.
  - subst. apply Ha, Hm. left. reflexivity.
  - apply (IH ms); auto; intros z Hz; [apply Hn|apply Hm]; right; exact Hz.
Qed.
Lemma middle_not_end h l m c c' x y d : wf h -> layer_iter h l = map Some (c ++ x :: m :: y :: c') ->
  layer_iter h l = map Some (m :: d) \/ layer_iter h l = map Some (d ++ [m]) -> False.
Proof.
  intros W E F. destruct (membership_spec h l W) as (N & _). rewrite E in N. apply NoDup_map_inv in N. 
  assert (Inj : forall a b : list nid, map Some a = map Some b -> a = b) by (induction a as [|p a IH]; intros [|q b] Q; cbn in Q; try discriminate; [reflexivity|injection Q as -> Q; f_equal; auto]).
  assert (Q : c ++ x :: m :: y :: c' = m :: d \/ c ++ x :: m :: y :: c' = d ++ [m]) by (destruct F as [F|F]; [left|right]; apply Inj; congruence). clear F E W.
  destruct Q as [Q|Q].
  - destruct c as [|p c]; cbn in Q; injection Q as Q1 Q2; subst.
    + inversion N as [|? ? H]; subst. apply H. left. reflexivity.
    + inversion N as [|? ? H]; subst. apply H. apply in_or_app. right. right. left. reflexivity.
  - change (c ++ x :: m :: y :: c') with (c ++ [x] ++ m :: y :: c') in *. rewrite app_assoc in *. rewrite Q in N. 
    destruct (exists_last (l := y :: c') ltac:(discriminate)) as (r & z & R). rewrite R in Q. change (m :: r ++ [z]) with ((m :: r) ++ [z]) in Q. rewrite app_assoc in Q. apply app_inj_tail in Q. destruct Q as [Q ->].
    apply NoDup_remove_2 in N. apply N. rewrite app_nil_r, <- Q. apply in_or_app. right. left. reflexivity.
Qed.
Lemma refuses_fun h name c v r r' : wf h -> refuses h name c v r -> refuses h name c v r' -> r = r'.
Proof.
  intros W A B. inversion A; subst; inversion B; subst; try reflexivity;
  try solve [exfalso; match goal with H : In _ [_; _; _; _; _; _; _] |- _ => cbn in H; intuition discriminate end];
  try solve [exfalso; match goal with
    | H : forall a b, VNodeSpan ?x ?y <> _ |- _ => exact (H x y eq_refl)
    | H : forall a, VNode ?x <> _ |- _ => exact (H x eq_refl)
    | H : forall a, VNodeList ?x <> _ |- _ => exact (H x eq_refl)
    | H : ?x = ?x -> ~ is_span _ |- _ => apply H; [reflexivity|repeat eexists]
    end];
  try solve [f_equal; eapply message_fun; eassumption];
  try congruence;
  try solve [exfalso; solve [eapply (split_none (in_named h name)); [..|symmetry; eassumption]; eauto|eapply (split_none (in_named h name)); [..|eassumption]; eauto]];
  exfalso; match goal with H : n_collof h ?m = Some ?l, H' : n_collof h ?m = Some ?l0 |- _ => assert (l = l0) by congruence; subst end;
  eapply middle_not_end; eauto.
Qed.

Lemma is_true_dec (r : res bool) : r = Ok true \/ r <> Ok true.
Proof. destruct r as [[|]|]; [left|right|right]; congruence. Qed.
Lemma first_or h l n : schema_ok h l -> NoDup (dkeys (l_fields (h_layer h l))) ->
  node_valid h l n \/ exists f d v, first_refused h l n f d v.
Proof.
  intros Sc Nd.
  assert (D : forall f d, In (f, d) (l_fields (h_layer h l)) -> exists name, type_ok d name) by (intros f d I; apply (Sc f); apply dget_nodup; assumption).
  assert (G : (forall f d v, In (f, d) (l_fields (h_layer h l)) -> dget (n_fieldsof h n) f = Some v -> accepts h d v) \/ exists f d v, first_refused h l n f d v).
  { unfold first_refused. revert D. generalize (l_fields (h_layer h l)). induction d as [|[f d0] fs IH]; intros D; [left; intros f d v []|].
    assert (D' : forall f d, In (f, d) fs -> exists name, type_ok d name) by (intros f' d' I; apply (D f'); right; exact I).
    assert (Hd : (forall v, dget (n_fieldsof h n) f = Some v -> accepts h d0 v) \/ exists v, dget (n_fieldsof h n) f = Some v /\ ~ accepts h d0 v).
    { destruct (dget (n_fieldsof h n) f) as [v|]; [|left; discriminate]. pose proof (is_valid_accepts h d0 v (D f d0 (or_introl eq_refl))) as E.
      destruct (is_true_dec (is_valid h d0 v)) as [X|X]; [left; intros w [= <-]; apply E; exact X|right; exists v; split; [reflexivity|]; intros A; apply X, E, A]. }
    destruct Hd as [Hd|(v & V & A)].
    - destruct (IH D') as [L|(g & t & w & pre & post & -> & P & Q)]; [left|right].
      + intros f' d' v [[= <- <-]|I]; [apply Hd|apply L; exact I].
      + exists g, t, w, ((f, d0) :: pre), post. split; [reflexivity|]. split; [|exact Q]. intros g' t' w' [[= <- <-]|I]; [apply Hd|apply P; exact I].
    - right. exists f, d0, v, [], fs. repeat split; auto. intros ? ? ? []. }
  destruct G as [G|G]; [left|right; exact G]. intros f d v Q. apply G. apply dget_In. exact Q.
Qed.
Lemma first_unique h l n f d v f' d' v' : first_refused h l n f d v -> first_refused h l n f' d' v' -> f = f' /\ d = d' /\ v = v'.
Proof.
  intros (pre & post & E & P & V & A) (pre' & post' & E' & P' & V' & A'). rewrite E in E'. clear E.
  assert (G : (f, d) = (f', d')).
  { revert pre' P' E'. induction pre as [|[g t] pre IH]; intros [|[g' t'] pre'] P' E'; cbn in E'; injection E'.
    - congruence.
    - intros _ -> ->. exfalso. apply A, (P' g' t' v (or_introl eq_refl)). exact V.
    - intros _ -> ->. exfalso. apply A', (P f' d' v' (or_introl eq_refl)). exact V'.
    - intros E3 _ _. apply (IH (fun a b c I => P a b c (or_intror I)) pre' (fun a b c I => P' a b c (or_intror I)) E3). }
  injection G as -> ->. repeat split; congruence.
Qed.
Lemma validate_first_refused h l n f d v name : wf h -> n_collof h n = Some l -> schema_ok h l -> first_refused h l n f d v -> type_ok d name ->
  refuses h name (dt_class d) v (validate h l n) /\ node_is_valid h n = match validate h l n with Err AssertionError => Ok false | r => r end.
Proof.
  intros W C Sc (pre & post & E & P & V & A) T. split; [|unfold node_is_valid; rewrite C; reflexivity].
  apply (validate_exact h l n pre f d post v name W C Sc E P V T). intros X. apply A. exists name. auto.
Qed.
Lemma node_valid_is h l n : wf h -> n_collof h n = Some l -> schema_ok h l -> node_valid h l n -> validate h l n = Ok true /\ node_is_valid h n = Ok true.
Proof. intros W C Sc V. destruct (validate_spec h l n W C Sc) as [E _]. apply E in V. split; [exact V|]. unfold node_is_valid. rewrite C, V. reflexivity. Qed.
Lemma validate_outcomes h l n : wf h -> n_collof h n = Some l -> schema_ok h l ->
  (node_valid h l n /\ validate h l n = Ok true /\ node_is_valid h n = Ok true) \/
  (exists f d v name, first_refused h l n f d v /\ type_ok d name /\ refuses h name (dt_class d) v (validate h l n) /\
     node_is_valid h n = match validate h l n with Err AssertionError => Ok false | r => r end).
Proof.
  intros W C Sc. destruct (first_or h l n Sc (wf_schema _ W l)) as [V|(f & d & v & F)].
  - left. split; [exact V|]. exact (node_valid_is h l n W C Sc V).
  - right. assert (exists name, type_ok d name) as (name & T).
    { destruct F as (pre & post & E & _). apply (Sc f). apply dget_nodup; [apply (wf_schema _ W)|]. rewrite E. apply in_or_app. right. left. reflexivity. }
    exists f, d, v, name. split; [exact F|]. split; [exact T|]. exact (validate_first_refused h l n f d v name W C Sc F T).
Qed.
Lemma validate_false h l n : wf h -> n_collof h n = Some l -> schema_ok h l ->
  (validate h l n = Ok false <-> exists f d m lm c x y c', first_refused h l n f d (VNode m) /\ dt_class d = KNodespan /\
     dget (dt_opts d) (s "layer") = Some (VStr (l_nameof h lm)) /\ n_collof h m = Some lm /\ layer_iter h lm = map Some (c ++ x :: m :: y :: c')).
Proof.
  intros W C Sc. split.
  - intros E. destruct (validate_outcomes h l n W C Sc) as [(_ & V & _)|(f & d & v & name & F & T & R & _)]; [congruence|]. rewrite E in R. unfold type_ok in T. inversion R; subst.
    match goal with H : KNodespan = dt_class d |- _ => rewrite <- H in T end. destruct T as [_ T]. do 8 eexists. eauto.
  - intros (f & d & m & lm & c & x & y & c' & F & K & T & Cm & I). assert (To : type_ok d (l_nameof h lm)).
    { destruct F as (pre & post & E & _). destruct (Sc f d) as (nm & Q). { apply dget_nodup; [apply (wf_schema _ W)|]. rewrite E. apply in_or_app. right. left. reflexivity. }
      unfold type_ok in *. rewrite K in *. tauto. }
    destruct (validate_first_refused h l n f d (VNode m) _ W C Sc F To) as [R _]. rewrite K in R. apply (refuses_fun _ _ _ _ _ _ W R). eapply rf_span_false; eauto.
Qed.
Lemma encode_valid h d h1 b : wf h -> known h d -> msgpack_encode h d false true = (h1, Ok b) -> spans_joined h d ->
  forall k l n, doc_node h d k l n -> schema_ok h l ->
  node_valid h l n \/ exists f t m lm c x y c', first_refused h l n f t (VNode m) /\ dt_class t = KNodespan /\
     dget (dt_opts t) (s "layer") = Some (VStr (l_nameof h lm)) /\ n_collof h m = Some lm /\ layer_iter h lm = map Some (c ++ x :: m :: y :: c').
Proof.
  intros W K E0 J k l n Hn Sc. destruct (msgpack_encode_heap _ _ _ _ _ _ E0) as (o & E & Ho). destruct (Ho b eq_refl) as [y0 ->]. clear E0 Ho.
  unfold compile in E. destruct (check_refs h d) as [[]|] eqn:Er; [|discriminate]. destruct (compile_layers _ _ _ _) as [h2 [acc|]] eqn:Ec; [|discriminate]. clear E.
  destruct Hn as [Hin Hn]. destruct (compile_layers_checked _ _ _ _ _ Ec _ _ Hin) as (pre & suf & E1 & E2).
  destruct (prepared_same h pre W (known_all _ _ _ _ K E1)) as (W' & S & _). cbv zeta in *. set (h' := fold_left layer_prepare pre h) in *.
  rewrite (same_iter _ _ S) in E2. destruct (check_nodes_ok _ _ _ E2 n Hn) as [[r Hr] _].
  assert (C : n_collof h n = Some l). { destruct (membership_spec h l W) as (_ & M & _). apply M in Hn. unfold layer_contains in Hn. destruct (n_collof h n) as [l0|]; [|discriminate]. apply Nat.eqb_eq in Hn. congruence. }
  assert (C' : n_collof h' n = Some l) by (rewrite (same_coll _ _ S); exact C).
  assert (Sc' : schema_ok h' l) by (unfold schema_ok; rewrite (same_schema _ _ S); exact Sc).
  assert (Jn : forall f v, dget (n_fieldsof h n) f = Some v -> forall a b, v = VNodeSpan a b -> n_collof h a = n_collof h b) by (intros f v V a' b' ->; eapply J; [split; eassumption|exact V]).
  destruct r.
  - left. intros f t v Ht Hv. destruct (validate_spec h' l n W' C' Sc') as [V _]. apply (same_accepts h' h); [exact W'|exact W|apply looks_same_sym; exact S| |].
    + intros a' b' Q. rewrite !(same_coll _ _ S). exact (Jn f v Hv a' b' Q).
    + apply (proj1 V Hr f); [rewrite (same_schema _ _ S)|rewrite (same_fields _ _ S)]; assumption.
  - right. apply (validate_false h' l n W' C' Sc') in Hr. destruct Hr as (f & t & m & lm & c & x & y & c' & (p & q & F1 & F2 & F3 & F4) & Kt & T & Cm & I).
    exists f, t, m, lm, c, x, y, c'. rewrite (same_name _ _ S) in T. rewrite (same_coll _ _ S) in Cm. rewrite (same_iter _ _ S) in I. rewrite (same_schema _ _ S) in F1. rewrite (same_fields _ _ S) in F3.
    split; [|auto]. exists p, q. split; [exact F1|]. split; [|split; [exact F3|]].
    + intros g u w G V. apply (same_accepts h' h); [exact W'|exact W|apply looks_same_sym; exact S| |].
      * intros a' b' Q. rewrite !(same_coll _ _ S). exact (Jn g w V a' b' Q).
      * apply (F2 g u w G). rewrite (same_fields _ _ S). exact V.
    + intros A. apply F4. apply (same_accepts h h'); auto. discriminate.
Qed.

(** ** The types that the constructors make *)
Lemma made_types h v x :
  (accepts h (T_bool VNone) v <-> exists b, v = VBool b) /\
  (accepts h (T_int32 VNone) v <-> exists i, int_value v i /\ -2147483648 <= i <= 2147483647) /\
  (accepts h (T_int64 VNone) v <-> exists i, int_value v i /\ -9223372036854775808 <= i <= 9223372036854775807) /\
  (accepts h (T_float64 VNone) v <-> exists b, v = VFloat b) /\
  (accepts h (T_string VNone) v <-> exists t, v = VStr t /\ zlen t < 2147483648) /\
  (accepts h T_binary v <-> exists t, v = VBytes t /\ zlen t < 2147483648) /\
  (accepts h (T_span x) v <-> exists t a b, v = VSpan x t a b) /\
  (accepts h (T_noderef x) v <-> exists n, v = VNode n /\ in_named h x n) /\
  (accepts h (T_noderef_many x) v <-> (exists ns, v = VNodeList (map Some ns) /\ forall n, In n ns -> in_named h x n) \/
     exists a b ns, v = VNodeSpan a b /\ nodespan_iter h a b = Ok ns /\ forall n, In n ns -> in_named h x n) /\
  (accepts h (T_nodespan x) v <-> exists a b i j, v = VNodeSpan a b /\ in_named h x a /\ in_named h x b /\ node_i h a = Ok i /\ node_i h b = Ok j /\ i <= j) /\
  accepts h (T_ext x) v.
Proof.
  unfold accepts.
  split; [split; [intros (nm & T & A); inversion A; eauto|intros (b & ->); exists x; split; [reflexivity|apply ad_bool]]|].
  split; [split; [intros (nm & T & A); inversion A; eauto|intros (i & V & L); exists x; split; [reflexivity|exact (ad_i32 h x v i V L)]]|].
  split; [split; [intros (nm & T & A); inversion A; eauto|intros (i & V & L); exists x; split; [reflexivity|exact (ad_i64 h x v i V L)]]|].
  split; [split; [intros (nm & T & A); inversion A; eauto|intros (b & ->); exists x; split; [reflexivity|apply ad_float]]|].
  split; [split; [intros (nm & T & A); inversion A; eauto|intros (b & -> & L); exists x; split; [reflexivity|apply ad_string; exact L]]|].
  split; [split; [intros (nm & T & A); inversion A; eauto|intros (b & -> & L); exists x; split; [reflexivity|apply ad_binary; exact L]]|].
  assert (X : forall (y : pystr), Some (VStr x) = Some (VStr y) -> y = x) by congruence.
  split; [split; [intros (nm & [_ T] & A); apply X in T; subst nm; inversion A; subst; eauto|intros (t & a & b & ->); exists x; split; [split; reflexivity|apply ad_span]]|].
  split; [split; [intros (nm & [_ T] & A); apply X in T; subst nm; inversion A; subst; eauto|intros (n & -> & N); exists x; split; [split; reflexivity|apply ad_node; exact N]]|].
  split; [split; [intros (nm & [_ T] & A); apply X in T; subst nm; inversion A; subst; [left|right]; eauto 6|
    intros [(ns & -> & N)|(a & b & ns & -> & E & N)]; exists x; (split; [split; reflexivity|]); [apply ad_nodelist; exact N|exact (ad_nodecoll h x a b ns E N)]]|].
  split; [split; [intros (nm & [_ T] & A); apply X in T; subst nm; inversion A; subst; do 4 eexists; eauto 8|
    intros (a & b & i & j & -> & A & B & Ei & Ej & L); exists x; (split; [split; reflexivity|]); exact (ad_nodespan h x a b i j A B Ei Ej L)]|].
  exists x. split; [exact I|apply ad_any].
Qed.
