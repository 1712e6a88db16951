(** Documents built from any parsed data: what they hold, and why building can fail. *)
From Verif Require Import PyBase PyBaseFacts Model_Text Model_Heap Model_Layer Model_Types Model_Msgpack Model_Document Model_Codec
  Spec_Layer Spec_Types Spec_Msgpack Spec_Document Spec_Codec Spec_Decode Proof_Layer4 Proof_Document Proof_Msgpack Proof_Layout Proof_Codec Proof_Codec5 Proof_Xml Proof_Decode.
Local Open Scope Z_scope.

(** ** Lookups *)
Lemma bases_keys sch : forall first nums, length nums = length sch -> map fst (layer_bases first sch nums) = map fst sch.
Proof.
  induction sch as [|[k fs] sch IH]; intros first [|n nums] H; try discriminate; [reflexivity|]. cbn [layer_bases map fst]. rewrite IH by (cbn in H; lia). reflexivity.
Qed.
Lemma bases_nth sch : forall first nums i k b, nth_error (layer_bases first sch nums) i = Some (k, b) ->
  exists fs n, nth_error sch i = Some (k, fs) /\ nth_error nums i = Some n /\ snd b = Z.to_nat n.
Proof.
  induction sch as [|[k0 fs] sch IH]; intros first nums i k b H; [destruct i; discriminate|]. destruct nums as [|n nums]; [destruct i; discriminate|].
  cbn [layer_bases] in H. destruct i as [|i]; cbn [nth_error] in H |- *.
  - injection H as <- <-. exists fs, n. auto.
  - apply IH in H. exact H.
Qed.
Lemma dget_nth {A} (d : dict A) k v : dget d k = Some v -> exists i, nth_error d i = Some (k, v).
Proof. intros H. apply dget_In in H. apply In_nth_error in H. exact H. Qed.
Lemma nth_dget {A} (d : dict A) i k v : NoDup (dkeys d) -> nth_error d i = Some (k, v) -> dget d k = Some v.
Proof. intros N H. apply nth_error_In in H. apply dget_nodup; assumption. Qed.
Lemma nodup_nth {A} (d : dict A) i j k v w : NoDup (dkeys d) -> nth_error d i = Some (k, v) -> nth_error d j = Some (k, w) -> i = j.
Proof.
  intros N Hi Hj. rewrite NoDup_nth_error in N. apply N.
  - unfold dkeys. rewrite map_length. apply nth_error_Some. congruence.
  - unfold dkeys. rewrite !nth_error_map, Hi, Hj. reflexivity.
Qed.
Lemma parsed_length p : parsed p -> length (pd_layers p) = length (pd_schema p).
Proof. intros P. symmetry. eapply Forall2_length. exact (pa_layers p P). Qed.
Lemma parsed_nth p i k fs : parsed p -> nth_error (pd_schema p) i = Some (k, fs) -> exists n cols, nth_error (pd_layers p) i = Some (n, cols) /\ length cols = length fs /\ Forall (Forall python_value) cols.
Proof.
  intros P. pose proof (pa_layers p P) as F. revert i. induction F as [|kf nc a b Hx F IH]; intros i H; [destruct i; discriminate|].
  destruct i as [|i]; cbn [nth_error] in H |- *; [|apply IH; assumption]. injection H as ->. destruct nc as [n cols]. exists n, cols. split; [reflexivity|exact Hx].
Qed.

(** ** Rows *)
Lemma row_cells texts bs q fs : forall cols row, decode_row texts bs fs cols q = Ok row -> forall j f t col, nth_error fs j = Some (f, t) -> nth_error cols j = Some col ->
  exists o, decode_cell texts bs t col q = Ok o.
Proof.
  induction fs as [|[f0 t0] fs IH]; intros cols row H j f t col Hf Hc; [destruct j; discriminate|]. destruct cols as [|c0 cols]; [destruct j; discriminate|].
  cbn [decode_row] in H. step H o. step H qq. destruct j as [|j]; cbn [nth_error] in Hf, Hc.
  - injection Hf as <- <-. injection Hc as <-. eauto.
  - eapply IH; eassumption.
Qed.
Lemma row_get texts bs q fs : forall cols row, decode_row texts bs fs cols q = Ok row -> NoDup (dkeys fs) ->
  incl (dkeys row) (dkeys fs) /\ NoDup (dkeys row) /\
  forall f v, dget row f = Some v -> exists j t col, nth_error fs j = Some (f, t) /\ nth_error cols j = Some col /\ decode_cell texts bs t col q = Ok (Some v).
Proof.
  induction fs as [|[f0 t0] fs IH]; intros cols row H N.
  - cbn [decode_row] in H. assert (row = []) by congruence. subst. split; [intros x []|]. split; [constructor|]. discriminate.
  - destruct cols as [|c0 cols]; cbn [decode_row] in H.
    { assert (row = []) by congruence. subst. split; [intros x []|]. split; [constructor|]. discriminate. }
    step H o. step H r. inversion N as [|? ? N1 N2]; subst. match goal with E : decode_row _ _ _ _ _ = Ok r |- _ => apply IH in E; [destruct E as (I1 & I2 & I3)|assumption] end.
    assert (Step : forall f v, dget r f = Some v -> exists j t col, nth_error ((f0, t0) :: fs) j = Some (f, t) /\ nth_error (c0 :: cols) j = Some col /\ decode_cell texts bs t col q = Ok (Some v)).
    { intros f v Hd. destruct (I3 f v Hd) as (j & t & col & A). exists (S j), t, col. exact A. }
    destruct o as [v0|].
    + assert (row = (f0, v0) :: r) by congruence. subst row. split; [|split].
      * intros x [<-|Hx]; [left; reflexivity|right; apply I1; assumption].
      * constructor; [|assumption]. intros Hin. apply N1, I1. assumption.
      * intros f v Hd. cbn [dget] in Hd. destruct (str_eqb_spec f f0) as [->|Hne].
        -- exists 0%nat, t0, c0. injection Hd as <-. auto.
        -- apply Step. assumption.
    + assert (row = r) by congruence. subst row. split; [|split]; [|assumption|exact Step]. intros x Hx. right. apply I1. assumption.
Qed.
Lemma row_err texts bs q fs : forall cols e, decode_row texts bs fs cols q = Err e -> exists j f t col, nth_error fs j = Some (f, t) /\ nth_error cols j = Some col /\ decode_cell texts bs t col q = Err e.
Proof.
  induction fs as [|[f0 t0] fs IH]; intros cols e H; [discriminate|]. destruct cols as [|c0 cols]; [discriminate|]. cbn [decode_row] in H.
  destruct (decode_cell texts bs t0 c0 q) as [o|e'] eqn:E; cbn [rbind] in H.
  - destruct (decode_row texts bs fs cols q) as [r|e'] eqn:E'; cbn [rbind] in H; [discriminate|]. assert (e' = e) by congruence. subst. apply IH in E'.
    destruct E' as (j & f & t & col & A). exists (S j), f, t, col. exact A.
  - assert (e' = e) by congruence. subst. exists 0%nat, f0, t0, c0. auto.
Qed.
Lemma mapM_err {A B} (f : A -> res B) l : forall e, mapM f l = Err e -> exists x, In x l /\ f x = Err e.
Proof.
  induction l as [|x l IH]; intros e H; [discriminate|]. cbn [mapM] in H. destruct (f x) as [y|e'] eqn:E; cbn [rbind] in H.
  - destruct (mapM f l) as [ys|e'] eqn:E'; cbn [rbind] in H; [discriminate|]. assert (e' = e) by congruence. subst. destruct (IH e eq_refl) as (z & Hz & Ez). exists z. split; [right|]; assumption.
  - exists x. split; [left; reflexivity|congruence].
Qed.
Lemma mapM_each {A B} (f : A -> res B) l r : mapM f l = Ok r -> forall x, In x l -> exists y, f x = Ok y.
Proof.
  intros H x Hx. apply mapM_Forall2 in H. induction H as [|a b l r Hab H IH]; [contradiction|]. destruct Hx as [<-|Hx]; [eauto|auto].
Qed.
Lemma nodes_err texts bs sch : forall l data e, build_nodes texts bs l sch data = Err e -> exists i k fs n cols q j f t col,
  nth_error sch i = Some (k, fs) /\ nth_error data i = Some (n, cols) /\ Z.of_nat q < n /\ nth_error fs j = Some (f, t) /\ nth_error cols j = Some col /\ decode_cell texts bs t col q = Err e.
Proof.
  induction sch as [|[k fs] sch IH]; intros l data e H; [discriminate|]. destruct data as [|nc data]; [discriminate|]. cbn [build_nodes] in H.
  destruct (decode_nodes texts bs l fs nc) as [ns|e'] eqn:E; cbn [rbind] in H.
  - destruct (build_nodes texts bs (S l) sch data) as [r|e'] eqn:E'; cbn [rbind] in H; [discriminate|]. assert (e' = e) by congruence. subst. apply IH in E'.
    destruct E' as (i & E'). exists (S i). exact E'.
  - assert (e' = e) by congruence. subst. unfold decode_nodes in E. apply mapM_err in E. destruct E as (q & Hq & E). apply in_seq in Hq.
    destruct (decode_row texts bs fs (snd nc) q) as [row|e'] eqn:Er; cbn [rbind] in E; [discriminate|]. assert (e' = e) by congruence. subst.
    apply row_err in Er. destruct Er as (j & f & t & col & A & B & C). destruct nc as [n cols]. exists 0%nat, k, fs, n, cols, q, j, f, t, col. cbn [fst snd nth_error] in *.
    repeat split; try assumption. lia.
Qed.

(** ** Indices *)
Lemma py_index_at m i k : 0 <= m -> py_index m i = Some k -> indexes m i (Z.of_nat k).
Proof. unfold py_index, indexes. intros Hm H. destruct (Z.ltb_spec i 0), (Z.leb_spec 0 (i + m)), (Z.ltb_spec i m); try discriminate; injection H as <-; lia. Qed.
Lemma py_index_out m i : 0 <= m -> py_index m i = None <-> outside m i.
Proof. unfold py_index, outside. intros Hm. destruct (Z.ltb_spec i 0), (Z.leb_spec 0 (i + m)), (Z.ltb_spec i m); split; intros H'; try discriminate; try reflexivity; try lia; exfalso; apply H'; lia. Qed.
Lemma indexes_unique m i a b : indexes m i a -> indexes m i b -> a = b.
Proof. unfold indexes. lia. Qed.
Lemma offset_at_int segs i : offset_at (seg_offsets 0 segs) (MInt i) = Err KeyError /\ ~ 0 <= i <= zlen segs \/ exists x, offset_at (seg_offsets 0 segs) (MInt i) = Ok x /\ offset_of segs i x.
Proof.
  unfold offset_at. cbn [as_num rbind]. pose proof (seg_offsets_length segs 0) as L. unfold zlen. destruct (Z.ltb_spec i 0); [left; split; [reflexivity|lia]|].
  destruct (nth_error (seg_offsets 0 segs) (Z.to_nat i)) as [x|] eqn:E.
  - right. exists x. split; [reflexivity|]. apply seg_offsets_nth in E. destruct E as [A B]. unfold offset_of, zlen in *. lia.
  - left. split; [reflexivity|]. apply nth_error_None in E. lia.
Qed.
Lemma offset_at_other offs o : (forall i, o <> MInt i) -> offset_at offs o = Err Unmodelled.
Proof. intros H. destruct o; try reflexivity. congruence. Qed.
Lemma offset_unique segs i x y : offset_of segs i x -> offset_of segs i y -> x = y.
Proof. unfold offset_of. intuition congruence. Qed.
Lemma is_int o : (exists i, o = MInt i) \/ (forall i, o <> MInt i).
Proof. destruct o; [right|right|left|right..]; try congruence. eauto. Qed.
Lemma dget_text_entry ts c : dget (map text_entry ts) c = match dget ts c with Some segs => Some (join_segs segs, seg_offsets 0 segs) | None => None end.
Proof. induction ts as [|[k v] ts IH]; [reflexivity|]. cbn [map text_entry dget fst snd]. destruct (str_eqb c k); [reflexivity|exact IH]. Qed.

(** ** Why a cell cannot be decoded *)
Section Cells.
Variables (p : pdoc) (first : nid).
Hypothesis P : parsed p.
Let texts := map text_entry (pd_texts p).
Let bs := layer_bases first (pd_schema p) (map fst (pd_layers p)).
Lemma bases_dkeys : dkeys bs = map fst (pd_schema p).
Proof. unfold bs, dkeys. apply bases_keys. rewrite map_length. apply parsed_length. assumption. Qed.
Lemma bases_nodes x b : dget bs x = Some b -> has_nodes p x (Z.of_nat (snd b)).
Proof.
  intros H. apply dget_nth in H. destruct H as (i & H). apply bases_nth in H. destruct H as (fs & n & A & B & C).
  rewrite nth_error_map in B. destruct (nth_error (pd_layers p) i) as [[n' cols]|] eqn:E; [|discriminate]. injection B as B. cbn [fst] in B. subst n'.
  exists i, fs, n, cols. split; [assumption|]. split; [assumption|]. lia.
Qed.
Lemma nodes_unique x m m' : has_nodes p x m -> has_nodes p x m' -> m = m'.
Proof.
  intros (i & fs & n & cols & A & B & ->) (i' & fs' & n' & cols' & A' & B' & ->). assert (i = i') by (eapply (nodup_nth (pd_schema p)); [exact (pa_names p P)|eassumption..]). subst i'. congruence.
Qed.
Lemma option_err t key e : opt_name t key = Err e -> e = Unmodelled \/ e = KeyError /\ dget (dt_opts t) key = None.
Proof.
  unfold opt_name, dgetE. destruct (dget (dt_opts t) key) as [v|]; cbn [rbind]; [destruct v; intros H; try discriminate; left; congruence|intros H; right; split; congruence].
Qed.
Lemma base_err c e : dgetE bs c = Err e -> e = KeyError /\ ~ In c (map fst (pd_schema p)).
Proof.
  unfold dgetE. destruct (dget bs c) as [b|] eqn:E; [discriminate|]. intros H. split; [congruence|]. rewrite <- bases_dkeys. intros Hin. apply dmem_In in Hin. unfold dmem in Hin.
  rewrite E in Hin. discriminate.
Qed.
Lemma base_ok c b : dgetE bs c = Ok b -> has_nodes p c (Z.of_nat (snd b)).
Proof. unfold dgetE. destruct (dget bs c) as [b'|] eqn:E; [|discriminate]. intros H. assert (b' = b) by congruence. subst. apply bases_nodes. assumption. Qed.
Lemma target_err b o e : target b o = Err e -> e = Unmodelled \/ e = IndexError /\ exists i, o = MInt i /\ outside (Z.of_nat (snd b)) i.
Proof.
  unfold target. destruct o; cbn [as_num rbind]; try (intros H; left; congruence). destruct (py_index _ _) eqn:E; [discriminate|]. intros H. right. split; [congruence|].
  eexists. split; [reflexivity|]. apply py_index_out in E; [assumption|lia].
Qed.
Lemma target_int b i k : target b (MInt i) = Ok k -> indexes (Z.of_nat (snd b)) i (Z.of_nat k).
Proof. unfold target. cbn [as_num rbind]. destruct (py_index _ _) eqn:E; [|discriminate]. intros H. assert (n = k) by congruence. subst. apply py_index_at; [lia|assumption]. Qed.

Lemma target_name t c : In (dt_name t) refs -> opt_name t (s "layer") = Ok c -> targets_layer t c.
Proof. intros H E. apply opt_name_ok in E. split; [exact H|exact E]. Qed.
Lemma cell_err f t col q e : has_cell p f t q col -> decode_cell texts bs t col q = Err e -> e = Unmodelled \/ fault p e.
Proof.
  intros H E. pose proof H as (k & n & Hc & Hq). unfold decode_cell in E. destruct (dt_name t) eqn:Et.
  { left; congruence. }
  1-6: (destruct (nth_error col q) as [o|]; [|discriminate]; destruct o; cbn [obj_value rbind] in E; try discriminate; left; congruence).
  - (* noderef *) destruct (opt_name t (s "layer")) as [c|e1] eqn:Eo; cbn [rbind] in E.
    2: { assert (e1 = e) by congruence. subst. apply option_err in Eo. destruct Eo as [|[-> Eo]]; [left; assumption|]. right. eapply fa_option; [exact Hc|rewrite Et; cbn; tauto|exact Eo]. }
    assert (T : targets_layer t c) by (apply target_name; [rewrite Et; cbn; tauto|assumption]).
    destruct (dgetE bs c) as [b|e1] eqn:Eb; cbn [rbind] in E.
    2: { assert (e1 = e) by congruence. subst. apply base_err in Eb. destruct Eb as [-> Eb]. right. eapply fa_layer; eassumption. }
    destruct (nth_error col q) as [o|] eqn:En; [|discriminate]. assert (E' : (exists e', target b o = Err e' /\ e' = e)).
    { destruct o; try discriminate; (destruct (target b _) as [k1|e1]; [discriminate|]; exists e1; split; [reflexivity|cbn [rbind] in E; congruence]). }
    destruct E' as (e' & E1 & ->). apply target_err in E1. destruct E1 as [|[-> (i & -> & Ho)]]; [left; assumption|]. right. eapply fa_node; [exact H|assumption|exact T|apply base_ok; exact Eb|exact En|exact Ho].
  - (* noderef_many *) destruct (opt_name t (s "layer")) as [c|e1] eqn:Eo; cbn [rbind] in E.
    2: { assert (e1 = e) by congruence. subst. apply option_err in Eo. destruct Eo as [|[-> Eo]]; [left; assumption|]. right. eapply fa_option; [exact Hc|rewrite Et; cbn; tauto|exact Eo]. }
    assert (T : targets_layer t c) by (apply target_name; [rewrite Et; cbn; tauto|assumption]).
    destruct (dgetE bs c) as [b|e1] eqn:Eb; cbn [rbind] in E.
    2: { assert (e1 = e) by congruence. subst. apply base_err in Eb. destruct Eb as [-> Eb]. right. eapply fa_layer; eassumption. }
    destruct (nth_error col q) as [o|] eqn:En; [|discriminate]. destruct o as [|x|x|x|x|x|l|x]; try discriminate; try (left; congruence).
    1-3: (assert (e = TypeError) by congruence; subst e; right; eapply fa_list; [exact H|rewrite Et; cbn; tauto|exact En|unfold no_list; eauto]).
    destruct (mapM (target b) l) as [ks|e1] eqn:Em; [discriminate|]. cbn [rbind] in E. assert (e1 = e) by congruence. subst e1. apply mapM_err in Em. destruct Em as (o & Ho & E1).
    apply target_err in E1. destruct E1 as [|[-> (i & -> & Hout)]]; [left; assumption|]. right. eapply fa_many; [exact H|assumption|exact T|apply base_ok; exact Eb|exact En|exact Ho|exact Hout].
  - (* span *) destruct (opt_name t (s "context")) as [c|e1] eqn:Eo; cbn [rbind] in E.
    2: { assert (e1 = e) by congruence. subst. apply option_err in Eo. destruct Eo as [|[-> Eo]]; [left; assumption|]. right. eapply fa_context; [exact Hc|exact Et|exact Eo]. }
    assert (T : targets_text t c) by (split; [assumption|apply opt_name_ok; assumption]). unfold texts in E. rewrite dget_text_entry in E.
    destruct (dget (pd_texts p) c) as [segs|] eqn:Es; [|discriminate].
    destruct (nth_error col (2 * q)) as [o|] eqn:E1; [|discriminate]. destruct (nth_error col (2 * q + 1)) as [o'|] eqn:E2; [|destruct o; discriminate].
    assert (Ho : o = MNil \/ o <> MNil) by (destruct o; [left|right..]; congruence). destruct Ho as [->|Ho]; [discriminate|].
    assert (E3 : (let* x := offset_at (seg_offsets 0 segs) o in let* y := offset_at (seg_offsets 0 segs) o' in
                  if x <=? y then Ok (Some (VSpan c (join_segs segs) x y)) else Err AssertionError) = Err e) by (destruct o; [congruence|exact E..]).
    clear E. destruct (is_int o) as [[i ->]|Hn]; [|rewrite offset_at_other in E3 by assumption; left; cbn [rbind] in E3; congruence].
    destruct (offset_at_int segs i) as [[Ex Hx]|(x & Ex & Hx)]; rewrite Ex in E3; cbn [rbind] in E3.
    { assert (e = KeyError) by congruence. subst e. right. eapply fa_offset; [exact H|exact T|exact Es|exact E1|exact E2|left; reflexivity|exact Hx]. }
    destruct (is_int o') as [[j ->]|Hn]; [|rewrite offset_at_other in E3 by assumption; left; cbn [rbind] in E3; congruence].
    destruct (offset_at_int segs j) as [[Ey Hy]|(y & Ey & Hy)]; rewrite Ey in E3; cbn [rbind] in E3.
    { assert (e = KeyError) by congruence. subst e. right. eapply fa_offset; [exact H|exact T|exact Es|exact E1|exact E2|right; split; [exact Ho|reflexivity]|exact Hy]. }
    destruct (Z.leb_spec x y); [discriminate|]. assert (e = AssertionError) by congruence. subst e. right. eapply fa_reversed; [exact H|exact T|exact Es|exact E1|exact E2|exact Hx|exact Hy|lia].
  - left; congruence.
  - (* nodespan *) destruct (opt_name t (s "layer")) as [c|e1] eqn:Eo; cbn [rbind] in E.
    2: { assert (e1 = e) by congruence. subst. apply option_err in Eo. destruct Eo as [|[-> Eo]]; [left; assumption|]. right. eapply fa_option; [exact Hc|rewrite Et; cbn; tauto|exact Eo]. }
    assert (T : targets_layer t c) by (apply target_name; [rewrite Et; cbn; tauto|assumption]).
    destruct (dgetE bs c) as [b|e1] eqn:Eb; cbn [rbind] in E.
    2: { assert (e1 = e) by congruence. subst. apply base_err in Eb. destruct Eb as [-> Eb]. right. eapply fa_layer; eassumption. }
    destruct (nth_error col q) as [o|] eqn:En; [|discriminate]. destruct o as [|x|x|x|x|x|l|x]; try discriminate; try (left; congruence).
    1-3: (assert (e = TypeError) by congruence; subst e; right; eapply fa_list; [exact H|rewrite Et; cbn; tauto|exact En|unfold no_list; eauto]).
    destruct l as [|o1 [|o2 l]].
    1-2: (assert (e = IndexError) by congruence; subst e; right; eapply fa_pair; [exact H|assumption|exact En|cbn; lia]).
    destruct o1 as [| |i| | | | |]; cbn [as_num rbind] in E; try (left; congruence). destruct o2 as [| |z| | | | |]; cbn [as_num rbind] in E; try (left; congruence).
    destruct (target b (MInt i)) as [k1|e1] eqn:E1; cbn [rbind] in E.
    2: { assert (e1 = e) by congruence. subst e1. apply target_err in E1. destruct E1 as [|[-> (i' & Ei & Ho)]]; [left; assumption|]. injection Ei as <-. right.
         eapply fa_left; [exact H|assumption|exact T|apply base_ok; exact Eb|exact En|left; exact Ho]. }
    destruct (target b (MInt (i + z))) as [k2|e2] eqn:E2; cbn [rbind] in E.
    2: { assert (e2 = e) by congruence. subst e2. apply target_err in E2. destruct E2 as [|[-> (i' & Ei & Ho)]]; [left; assumption|]. injection Ei as <-. right.
         eapply fa_left; [exact H|assumption|exact T|apply base_ok; exact Eb|exact En|right; exact Ho]. }
    destruct (Nat.leb_spec k1 k2); [discriminate|]. assert (e = AssertionError) by congruence. subst e. right.
    eapply fa_order; [exact H|assumption|exact T|apply base_ok; exact Eb|exact En|apply target_int; exact E1|apply target_int; exact E2|lia].
Qed.
Lemma check_err k f t n col e : has_column p k f t n col -> check_field bs (f, t) = Err e -> e = Unmodelled \/ fault p e.
Proof.
  intros Hc E. unfold check_field in E. cbn [snd] in E.
  assert (R : In (dt_name t) refs -> (let* c := opt_name t (s "layer") in let* _ := dgetE bs c in Ok tt) = Err e -> e = Unmodelled \/ fault p e).
  { intros Hr E1. destruct (opt_name t (s "layer")) as [c|e1] eqn:Eo; cbn [rbind] in E1.
    2: { assert (e1 = e) by congruence. subst. apply option_err in Eo. destruct Eo as [|[-> Eo]]; [left; assumption|]. right. eapply fa_option; [exact Hc|exact Hr|exact Eo]. }
    destruct (dgetE bs c) as [b|e1] eqn:Eb; cbn [rbind] in E1; [discriminate|]. assert (e1 = e) by congruence. subst. apply base_err in Eb. destruct Eb as [-> Eb]. right.
    eapply fa_layer; [exact Hc|apply target_name; eassumption|exact Eb]. }
  destruct (dt_name t) eqn:Et; try discriminate; try (apply R; [cbn; tauto|exact E]).
  - destruct (opt_name t (s "context")) as [c|e1] eqn:Eo; cbn [rbind] in E; [discriminate|]. assert (e1 = e) by congruence. subst. apply option_err in Eo.
    destruct Eo as [|[-> Eo]]; [left; assumption|]. right. eapply fa_context; [exact Hc|exact Et|exact Eo].
  - unfold dgetE in E. destruct (dget (dt_opts t) (s "type")) eqn:Eo; cbn [rbind] in E; [discriminate|]. assert (e = KeyError) by congruence. subst e. right. eapply fa_ext; [exact Hc|exact Et|exact Eo].
Qed.
End Cells.

Lemma build_faults h p h' e : parsed p -> build h p = (h', Err e) -> h' = h /\ (e = Unmodelled \/ fault p e).
Proof.
  intros P H. unfold build in H.
  destruct (check_fields _ _) as [u|e'] eqn:Ec; cbn [rbind] in H.
  - destruct (build_nodes _ _ _ _ _) as [nodes|e'] eqn:En; [discriminate|]. assert (h' = h /\ e' = e) as [-> ->] by (split; congruence). split; [reflexivity|].
    apply nodes_err in En. destruct En as (i & k & fs & n & cols & q & j & f & t & col & A1 & A2 & A3 & A4 & A5 & A6).
    eapply (cell_err p (h_nnext h) P f t col q); [|exact A6]. exists k, n. split; [|assumption]. exists i, fs, cols, j. auto.
  - assert (h' = h /\ e' = e) as [-> ->] by (split; congruence). split; [reflexivity|]. unfold check_fields in Ec.
    destruct (mapM _ _) as [us|e1] eqn:Em; cbn [rbind] in Ec; [discriminate|]. assert (e1 = e) by congruence. subst e1. apply mapM_err in Em. destruct Em as ([f t] & Hin & E).
    apply in_flat_map in Hin. destruct Hin as ([k fs] & Hk & Hf). cbn [snd] in Hf. apply In_nth_error in Hk. destruct Hk as (i & Hi). apply In_nth_error in Hf. destruct Hf as (j & Hj).
    destruct (parsed_nth p i k fs P Hi) as (n & cols & A1 & A2 & _). destruct (nth_error cols j) as [col|] eqn:Ecol.
    2: { apply nth_error_None in Ecol. assert (j < length fs)%nat by (apply nth_error_Some; congruence). lia. }
    eapply (check_err p (h_nnext h) P k f t n col); [|exact E]. exists i, fs, cols, j. auto.
Qed.
