(** Field types: validation decides admission; merging of numeric types. *)
From Verif Require Import PyBase PyBaseFacts Model_Heap Model_Layer Model_Types Spec_Layer Spec_Types
  Proof_Heap Proof_Layer Proof_Layer3.
Local Open Scope Z_scope.

Lemma opt_is_spec d key name name' : dget (dt_opts d) key = Some (VStr name) ->
  opt_is d key name' = Ok (str_eqb name' name).
Proof. intros H. unfold opt_is, dgetE. rewrite H. reflexivity. Qed.
Lemma coll_is_spec h d name n : dget (dt_opts d) (s "layer") = Some (VStr name) ->
  exists b, coll_is h d n = Ok b /\ (b = true <-> in_named h name n).
Proof.
  intros H. unfold coll_is. destruct (n_collof h n) as [l|] eqn:E.
  - rewrite (opt_is_spec _ _ _ _ H). eexists. split; [reflexivity|]. split.
    + intros Hx. apply str_eqb_eq in Hx. exists l. auto.
    + intros (l' & E' & <-). assert (l' = l) by congruence. subst l'. apply str_eqb_refl.
  - exists false. split; [reflexivity|]. split; [discriminate|]. intros (l' & E' & _). congruence.
Qed.
Lemma as_int_spec v i : as_int v = Some i <-> int_value v i.
Proof.
  split.
  - destruct v as [| [] | | | | | | | | | |]; simpl; intros [= <-]; constructor.
  - intros []; reflexivity.
Qed.
Lemma in_range_iff lo hi i : in_range lo hi i = true <-> lo <= i <= hi.
Proof. unfold in_range. rewrite andb_true_iff, !Z.leb_le. reflexivity. Qed.
Lemma int_valid lo hi v : (match as_int v with Some i => in_range lo hi i | None => false end) = true
  <-> exists i, int_value v i /\ lo <= i <= hi.
Proof.
  split.
  - destruct (as_int v) as [i|] eqn:E; [|discriminate]. intros H. exists i. split; [apply as_int_spec; assumption|apply in_range_iff; assumption].
  - intros (i & H1 & H2). apply as_int_spec in H1. rewrite H1. apply in_range_iff. assumption.
Qed.
Lemma allM_spec {A} (f : A -> res bool) l :
  allM f l = Ok true <-> forall x, In x l -> f x = Ok true.
Proof.
  induction l as [|x l IH]; simpl; [split; [intros _ y []|reflexivity]|].
  destruct (f x) as [[]|e] eqn:E; simpl.
  - rewrite IH. split; [intros H y [<-|Hy]; auto|intros H y Hy; auto].
  - split; [discriminate|]. intros H. specialize (H x (or_introl eq_refl)). congruence.
  - split; [discriminate|]. intros H. specialize (H x (or_introl eq_refl)). congruence.
Qed.

(** is_valid returns True exactly on the admitted values *)
Lemma is_valid_spec h d name v : type_ok d name -> (is_valid h d v = Ok true <-> admits h name (dt_class d) v).
Proof.
  intros T. unfold is_valid, type_ok in *. destruct (dt_class d).
  - split; [constructor|reflexivity].
  - split; [destruct v; simpl; try discriminate; constructor|intros H; inversion H; reflexivity].
  - split; [intros [= H]; apply int_valid in H; destruct H as (i & H1 & H2); econstructor; eauto|].
    intros H. inversion H. f_equal. apply int_valid. eauto.
  - split; [intros [= H]; apply int_valid in H; destruct H as (i & H1 & H2); econstructor; eauto|].
    intros H. inversion H. f_equal. apply int_valid. eauto.
  - split; [destruct v; simpl; try discriminate; constructor|intros H; inversion H; reflexivity].
  - split.
    + destruct v; simpl; try discriminate. intros [= H]. apply Z.ltb_lt in H. constructor. assumption.
    + intros H. inversion H. f_equal. apply Z.ltb_lt. assumption.
  - split.
    + destruct v; simpl; try discriminate. intros [= H]. apply Z.ltb_lt in H. constructor. assumption.
    + intros H. inversion H. f_equal. apply Z.ltb_lt. assumption.
  - destruct T as [_ T]. split.
    + destruct v; simpl; try discriminate.
      destruct (n_collof h left) as [la|] eqn:Ea; [|discriminate]. destruct (n_collof h right) as [lb|] eqn:Eb; [|discriminate].
      rewrite !(opt_is_spec _ _ _ _ T). cbn [rbind].
      destruct (str_eqb (l_nameof h la) name) eqn:Na; [|discriminate]. destruct (str_eqb (l_nameof h lb) name) eqn:Nb; [|discriminate].
      apply str_eqb_eq in Na, Nb. simpl. destruct (node_i h left) as [ia|] eqn:Ia; [|discriminate]. simpl.
      destruct (node_i h right) as [ib|] eqn:Ib; [|discriminate]. simpl. intros [= H]. apply Z.leb_le in H.
      apply (ad_nodespan h name left right ia ib); auto; [exists la|exists lb]; auto.
    + intros H. inversion H as [| | | | | | | | |a b ia ib (la & Ea & Na) (lb & Eb & Nb) Ia Ib Hle| |]. subst v.
      simpl. rewrite Ea, Eb, !(opt_is_spec _ _ _ _ T). cbn [rbind]. rewrite Na, Nb, str_eqb_refl, Ia, Ib. simpl.
      f_equal. apply Z.leb_le. assumption.
  - destruct T as [_ T]. split.
    + destruct v; simpl; try discriminate. rewrite (opt_is_spec _ _ _ _ T). intros [= H]. apply str_eqb_eq in H. subst. constructor.
    + intros H. inversion H. simpl. rewrite (opt_is_spec _ _ _ _ T), str_eqb_refl. reflexivity.
  - destruct T as [_ T]. split.
    + destruct v; simpl; try discriminate. destruct (coll_is_spec h d name n T) as (b & E & Hb). rewrite E. intros [= ->].
      constructor. apply Hb. reflexivity.
    + intros H. inversion H. simpl. destruct (coll_is_spec h d name n T) as (b & E & Hb). rewrite E. f_equal. apply Hb. assumption.
  - destruct T as [_ T]. unfold dgetE. rewrite T. cbn [rbind].
    assert (G : forall l, allM (fun o => match o with None => Err AttributeError | Some n => coll_is h d n end) l = Ok true <->
      exists ns, l = map Some ns /\ forall n, In n ns -> in_named h name n).
    { intros l. rewrite allM_spec. split.
      - intros H. exists (live l). split.
        + induction l as [|[n|] l IH]; simpl.
          * reflexivity.
          * f_equal. apply IH. intros x Hx. apply H. right. assumption.
          * specialize (H None (or_introl eq_refl)). discriminate.
        + intros n Hn. apply live_In in Hn. specialize (H _ Hn). simpl in H.
          destruct (coll_is_spec h d name n T) as (b & E & Hb). apply Hb. congruence.
      - intros (ns & -> & H) o Ho. apply in_map_iff in Ho. destruct Ho as (n & <- & Hn).
        destruct (coll_is_spec h d name n T) as (b & E & Hb). rewrite E. f_equal. apply Hb. auto. }
    split.
    + destruct v; simpl; try discriminate.
      * destruct (nodespan_iter h left right) as [l|] eqn:E; [|discriminate]. cbn [rbind]. rewrite G. intros (ns & Hns & H).
        econstructor; [exact E|]. intros n Hn. apply H. apply (in_map Some) in Hn. rewrite Hns in Hn. apply in_map_iff in Hn.
        destruct Hn as (m & [= ->] & Hm). assumption.
      * rewrite G. intros (ns & -> & H). constructor. assumption.
    + intros H. inversion H as [| | | | | | | | | |ns Hn|a b ns E Hn]; subst v; simpl.
      * apply G. eauto.
      * rewrite E. cbn [rbind]. apply G. eauto.
Qed.

Lemma type_ok_unique d n1 n2 h v : type_ok d n1 -> type_ok d n2 -> admits h n1 (dt_class d) v -> admits h n2 (dt_class d) v.
Proof. intros T1 T2 H. apply (is_valid_spec h d n2 v T2). apply (is_valid_spec h d n1 v T1). assumption. Qed.
Lemma is_valid_accepts h d v : (exists name, type_ok d name) -> (is_valid h d v = Ok true <-> accepts h d v).
Proof.
  intros (name & T). rewrite (is_valid_spec h d name v T). unfold accepts. split; [eauto|].
  intros (name' & T' & H). eapply type_ok_unique; eauto.
Qed.

(** scalar types are total: they answer and never raise *)
Lemma scalar_total h d v : In (dt_class d) [KBase; KBool; KInt32; KInt64; KFloat; KString; KBinary] -> exists b, is_valid h d v = Ok b.
Proof. intros H. unfold is_valid. destruct (dt_class d); simpl in H; try (eexists; reflexivity); intuition discriminate. Qed.

Lemma nodup_dget_tail {A} k (v : A) r f x : NoDup (dkeys ((k, v) :: r)) -> dget r f = Some x -> f <> k.
Proof.
  intros Hnd H ->. inversion Hnd as [|? ? Hni _]. apply Hni. clear -H. induction r as [|[k' v'] r IH]; [discriminate|].
  simpl in *. destruct (str_eqb k k') eqn:E; [apply str_eqb_eq in E; left; auto|right; auto].
Qed.

Lemma validate_fields_spec h l n : n_collof h n = Some l -> NoDup (dkeys (l_fields (h_layer h l))) ->
  forall fs, NoDup (dkeys fs) -> (forall f d, dget fs f = Some d -> dget (l_fields (h_layer h l)) f = Some d /\ exists name, type_ok d name) ->
  (validate_fields h fs n = Ok true <-> forall f d v, dget fs f = Some d -> dget (n_fieldsof h n) f = Some v -> accepts h d v) /\
  (validate_fields h fs n = Ok false -> exists f d v, dget fs f = Some d /\ dget (n_fieldsof h n) f = Some v /\
     ~ accepts h d v /\ dt_class d = KNodespan /\ exists m, v = VNode m).
Proof.
  intros Hc Hnd. induction fs as [|[f d] r IH]; intros Hnd' Hsub.
  - simpl. split; [split; [intros _ f d v H; discriminate|reflexivity]|discriminate].
  - assert (Hr : forall f0 d0, dget r f0 = Some d0 -> dget ((f, d) :: r) f0 = Some d0).
    { intros f0 d0 H0. simpl. destruct (str_eqb f0 f) eqn:E; [|assumption]. apply str_eqb_eq in E.
      exfalso. eapply (nodup_dget_tail f d r f0); eauto. }
    destruct (IH ltac:(inversion Hnd'; assumption) ltac:(intros f0 d0 H0; apply Hsub; apply Hr; assumption)) as [IH1 IH2].
    simpl. rewrite Hc. destruct (Hsub f d) as [Hd Hty]; [simpl; rewrite str_eqb_refl; reflexivity|].
    destruct (dget (n_fieldsof h n) f) as [v|] eqn:Ev.
    + unfold dgetE. rewrite Hd. cbn [rbind]. pose proof (is_valid_accepts h d v Hty) as Hv.
      destruct (is_valid h d v) as [[]|e] eqn:Ei; cbn [rbind].
      * split.
        -- rewrite IH1. split; intros H f0 d0 v0 Hf Hg.
           ++ destruct (str_eqb f0 f) eqn:E; [apply str_eqb_eq in E; subst f0; injection Hf as <-; rewrite Ev in Hg; injection Hg as <-; apply Hv; reflexivity|eauto].
           ++ apply (H f0 d0 v0); [|assumption]. apply Hr. assumption.
        -- intros H. destruct (IH2 H) as (f0 & d0 & v0 & H1 & H2). exists f0, d0, v0. split; [apply Hr; assumption|assumption].
      * assert (Hna : ~ accepts h d v) by (intros X; apply Hv in X; discriminate).
        split; [split|].
        -- destruct (invalid_asserts h d v); simpl; discriminate.
        -- intros H. exfalso. apply Hna. apply (H f d v); [rewrite str_eqb_refl; reflexivity|assumption].
        -- intros H. exists f, d, v. rewrite str_eqb_refl. split; [reflexivity|]. split; [assumption|]. split; [assumption|].
           destruct (invalid_asserts h d v) eqn:Ea; [|discriminate]. clear H IH1 IH2 IH Hv.
           destruct Hty as (name & T). unfold is_valid, type_ok, invalid_asserts in *. destruct (dt_class d); try discriminate.
           ++ rewrite T in Ea. unfold assert_msg in Ea. destruct (value_repr h v); discriminate.
           ++ rewrite T in Ea. unfold assert_msg in Ea. destruct (value_repr h v); discriminate.
           ++ rewrite T in Ea. unfold assert_msg in Ea. destruct (value_repr h v); discriminate.
           ++ rewrite T in Ea. unfold assert_msg in Ea. destruct (value_repr h v); discriminate.
           ++ rewrite T in Ea. unfold assert_msg in Ea. destruct (value_repr h v); discriminate.
           ++ rewrite T in Ea. unfold assert_msg in Ea. destruct (value_repr h v); discriminate.
           ++ destruct T as [T1 T2]. rewrite T1 in Ea. split; [reflexivity|]. destruct v; simpl in Ea; try discriminate; [eauto|].
              exfalso. destruct (n_collof h left) as [la|] eqn:Ca; [|discriminate]. destruct (n_collof h right) as [lb|] eqn:Cb; [|discriminate].
              unfold assert_coll in Ea. rewrite Ca, Cb in Ea. rewrite !(opt_is_spec _ _ _ _ T2) in Ea, Ei. cbn [rbind] in *.
              destruct (str_eqb (l_nameof h la) name); [|discriminate]. cbn [rbind negb] in *.
              destruct (str_eqb (l_nameof h lb) name); [|discriminate]. cbn [rbind negb] in *.
              destruct (node_i h left); [|discriminate]. cbn [rbind] in *. destruct (node_i h right); [|discriminate]. cbn [rbind] in *.
              injection Ei as Ei. rewrite Ei in Ea. discriminate.
           ++ exfalso. destruct T as [T1 T2]. rewrite T1 in Ea. destruct v; simpl in *; try discriminate.
              ** rewrite (opt_is_spec _ _ _ _ T2) in Ea, Ei. cbn [rbind] in *. injection Ei as Ei. rewrite Ei in Ea. discriminate.
              ** unfold assert_msg in Ea. destruct (node_repr_ok h n0); discriminate.
              ** unfold assert_msg in Ea. match type of Ea with (rbind ?x _ = _) => destruct x; discriminate end.
              ** unfold assert_msg in Ea. destruct (forallb _ l0); discriminate.
           ++ exfalso. destruct T as [T1 T2]. rewrite T1 in Ea. destruct v; simpl in *; try discriminate.
              unfold coll_is in Ei. unfold assert_coll in Ea. destruct (n_collof h n0); [|discriminate].
              rewrite Ei in Ea. discriminate.
           ++ exfalso. destruct T as [T1 T2]. rewrite T1 in Ea. unfold dgetE in Ei. rewrite T2 in Ei. cbn [rbind] in Ei.
              destruct v; simpl in *; try discriminate. clear -Ei Ea. induction l0 as [|[m|] l0 IH]; simpl in *; try discriminate.
              unfold coll_is in Ei. unfold assert_coll in Ea. destruct (n_collof h m); [|discriminate].
              destruct (opt_is d _ _) as [[]|]; simpl in *; try discriminate. apply IH; assumption.
      * assert (Hna : ~ accepts h d v) by (intros X; apply Hv in X; discriminate).
        split; [split|]; [discriminate| |discriminate].
        intros H. exfalso. apply Hna. apply (H f d v); [rewrite str_eqb_refl; reflexivity|assumption].
    + split.
      * rewrite IH1. split; intros H f0 d0 v0 Hf Hg.
        -- destruct (str_eqb f0 f) eqn:E; [apply str_eqb_eq in E; subst f0; congruence|eauto].
        -- apply (H f0 d0 v0); [|assumption]. apply Hr. assumption.
      * intros H. destruct (IH2 H) as (f0 & d0 & v0 & H1 & H2). exists f0, d0, v0. split; [apply Hr; assumption|assumption].
Qed.

Lemma validate_spec h l n : wf h -> n_collof h n = Some l -> schema_ok h l ->
  (validate h l n = Ok true <-> node_valid h l n) /\
  (validate h l n = Ok false -> exists f d v, dget (l_fields (h_layer h l)) f = Some d /\ dget (n_fieldsof h n) f = Some v /\
     ~ accepts h d v /\ dt_class d = KNodespan /\ exists m, v = VNode m).
Proof.
  intros W Hc Hs. unfold validate, node_valid. apply (validate_fields_spec h l n); auto; try (apply wf_schema; assumption). intros f d Hf. split; [assumption|]. apply (Hs f d). assumption.
Qed.

(** ** merging *)
Lemma numeric_iff t : numeric t <-> is_numeric t = true.
Proof. unfold numeric. destruct t; simpl; intuition discriminate. Qed.
Lemma num_le_spec a b : num_le a b <-> exists x y, type_priority a = Some x /\ type_priority b = Some y /\ x <= y.
Proof.
  split.
  - intros H. destruct H as [t Ht| | | | | |]; simpl; try (do 2 eexists; repeat split; lia).
    simpl in Ht. destruct t; try (exfalso; intuition discriminate); simpl; do 2 eexists; repeat split; lia.
  - intros (x & y & Ha & Hb & Hle). destruct a; simpl in Ha; try discriminate; injection Ha as <-;
    destruct b; simpl in Hb; try discriminate; injection Hb as <-; try lia; try (constructor; simpl; tauto).
Qed.
Lemma prio_num t : numeric t -> exists x, type_priority t = Some x.
Proof. rewrite numeric_iff. destruct t; simpl; try discriminate; eauto. Qed.

Lemma prio_inj a b x : type_priority a = Some x -> type_priority b = Some x -> a = b.
Proof. destruct a; simpl; intros [= <-]; destruct b; simpl; intros; congruence. Qed.

Lemma cast_up_join a b : numeric (dt_name a) -> numeric (dt_name b) ->
  exists c, cast_up a b = Ok c /\ (c = a \/ c = b) /\
    num_le (dt_name a) (dt_name c) /\ num_le (dt_name b) (dt_name c) /\
    (forall t, num_le (dt_name a) t -> num_le (dt_name b) t -> num_le (dt_name c) t) /\
    (exists c', cast_up b a = Ok c' /\ dt_name c' = dt_name c).
Proof.
  intros Na Nb. destruct (prio_num _ Na) as [x Hx]. destruct (prio_num _ Nb) as [y Hy].
  unfold cast_up. rewrite Hx, Hy.
  destruct (Z.leb_spec y x).
  - exists a. split; [reflexivity|]. split; [auto|]. split; [apply num_le_spec; exists x, x; repeat split; auto; lia|].
    split; [apply num_le_spec; exists y, x; auto|]. split; [auto|].
    eexists. split; [reflexivity|]. destruct (Z.leb_spec x y); [|reflexivity]. assert (x = y) by lia. subst y. symmetry. eapply prio_inj; eauto.
  - exists b. split; [reflexivity|]. split; [auto|]. split; [apply num_le_spec; exists x, y; repeat split; auto; lia|].
    split; [apply num_le_spec; exists y, y; repeat split; auto; lia|]. split; [auto|].
    eexists. split; [reflexivity|]. destruct (Z.leb_spec x y); [reflexivity|lia].
Qed.
Lemma cast_up_assoc a b c : (let* x := cast_up a b in cast_up x c) = (let* y := cast_up b c in cast_up a y) \/
  ~ (numeric (dt_name a) /\ numeric (dt_name b) /\ numeric (dt_name c)).
Proof.
  destruct (type_priority (dt_name a)) as [x|] eqn:Ha; [|right; intros (H & _); apply prio_num in H; destruct H; congruence].
  destruct (type_priority (dt_name b)) as [y|] eqn:Hb; [|right; intros (_ & H & _); apply prio_num in H; destruct H; congruence].
  destruct (type_priority (dt_name c)) as [z|] eqn:Hc; [|right; intros (_ & _ & H); apply prio_num in H; destruct H; congruence].
  left. unfold cast_up. rewrite Ha, Hb, Hc. cbn [rbind].
  destruct (Z.leb_spec y x); destruct (Z.leb_spec z y); rewrite ?Ha, ?Hb, ?Hc; f_equal;
    repeat match goal with |- context [Z.leb ?p ?q] => destruct (Z.leb_spec p q) end; auto; lia.
Qed.
Lemma cast_up_assoc' a b c : numeric (dt_name a) -> numeric (dt_name b) -> numeric (dt_name c) ->
  (let* x := cast_up a b in cast_up x c) = (let* y := cast_up b c in cast_up a y).
Proof. intros. destruct (cast_up_assoc a b c) as [E|N]; [assumption|tauto]. Qed.
Lemma cast_up_idem a : numeric (dt_name a) -> cast_up a a = Ok a.
Proof. intros N. destruct (prio_num _ N) as [x Hx]. unfold cast_up. rewrite Hx. rewrite Z.leb_refl. reflexivity. Qed.
Lemma cast_up_fails a b : ~ (numeric (dt_name a) /\ numeric (dt_name b)) -> cast_up a b = Err AssertionError.
Proof.
  intros N. unfold cast_up. destruct (type_priority (dt_name a)) eqn:Ha; [|reflexivity]. destruct (type_priority (dt_name b)) eqn:Hb; [|reflexivity].
  exfalso. apply N. rewrite !numeric_iff. destruct (dt_name a); try discriminate; destruct (dt_name b); try discriminate; auto.
Qed.
Lemma tname_eqb_eq a b : tname_eqb a b = true <-> a = b.
Proof. destruct a, b; simpl; split; intros; try reflexivity; discriminate. Qed.
Lemma cast_up_possible_iff a b : cast_up_possible a b = true <->
  dt_name a = dt_name b \/ (numeric (dt_name a) /\ numeric (dt_name b)).
Proof.
  unfold cast_up_possible. destruct (tname_eqb (dt_name a) (dt_name b)) eqn:E.
  - apply tname_eqb_eq in E. tauto.
  - rewrite !numeric_iff. destruct (is_numeric (dt_name a)) eqn:Ea.
    + split; [auto|]. intros [H|[_ H]]; [|assumption]. apply tname_eqb_eq in H. congruence.
    + split; [discriminate|]. intros [H|[H _]]; [apply tname_eqb_eq in H; congruence|discriminate].
Qed.

(** ** constructors and defaults *)
Lemma constructors_ok v name : (exists n, type_ok (T_int32 v) n) /\ (exists n, type_ok (T_int64 v) n) /\ (exists n, type_ok (T_float64 v) n) /\
  (exists n, type_ok (T_string v) n) /\ (exists n, type_ok (T_bool v) n) /\ type_ok T_binary name /\
  type_ok (T_span name) name /\ type_ok (T_noderef name) name /\ type_ok (T_noderef_many name) name /\ type_ok (T_nodespan name) name /\
  type_ok (T_ext name) name.
Proof.
  unfold T_int32, T_int64, T_float64.
  repeat split; try (exists []; destruct (value_is_zero v); [reflexivity|destruct v; reflexivity]);
    exists []; destruct v as [| | | |[|]| | | | | | |]; try exact I; reflexivity.
Qed.
Lemma int_default_ok h i :
  (dt_default (T_int32 (VInt i)) = Some (VInt i) /\ (-2147483648 <= i <= 2147483647 -> accepts h (T_int32 (VInt i)) (VInt i))) /\
  (dt_default (T_int64 (VInt i)) = Some (VInt i) /\ (-9223372036854775808 <= i <= 9223372036854775807 -> accepts h (T_int64 (VInt i)) (VInt i))).
Proof.
  unfold T_int32, T_int64. simpl value_is_zero. destruct (Z.eqb_spec i 0); [subst i|]; (split; split; [reflexivity| |reflexivity|]); intros Hr;
    exists []; (split; [reflexivity|]); econstructor; try constructor; lia.
Qed.
Lemma string_default_ok h x : dt_default (T_string (VStr x)) = Some (VStr x) /\ accepts h (T_string (VStr x)) (VStr x).
Proof.
  destruct x; (split; [reflexivity|]); exists []; (split; [try exact I; reflexivity|]); constructor. reflexivity.
Qed.
Lemma bool_default_ok h b : dt_default (T_bool (VBool b)) = Some (VBool b) /\ accepts h (T_bool (VBool b)) (VBool b).
Proof. split; [reflexivity|]. exists []. split; [exact I|constructor]. Qed.

(** typeof gives a type that admits the value *)
Lemma typeof_admits h v cmp d : typeof h v cmp = Ok d ->
  (forall i, v = VInt i -> -9223372036854775808 <= i <= 9223372036854775807) ->
  (forall x, v = VStr x -> zlen x < 2147483648) -> (forall x, v = VBytes x -> zlen x < 2147483648) ->
  (forall a b, v = VNodeSpan a b -> new_nodespan h a b = Ok (a, b)) ->
  (forall c, cmp = Some c -> exists name, type_ok c name) ->
  accepts h d v.
Proof.
  intros E Hi Hs Hb Hn Hcmp. destruct v; simpl in E; try discriminate.
  - destruct cmp as [c|].
    + destruct (tname_eqb (dt_name c) TI32 && in_range i32_min i32_max (if b then 1 else 0)) eqn:Ec; injection E as <-;
        exists []; (split; [reflexivity|]); destruct b; econstructor; try constructor; lia.
    + injection E as <-. exists []. split; [reflexivity|]. destruct b; econstructor; try constructor; lia.
  - specialize (Hi _ eq_refl). assert (G : accepts h (T_int64 (VInt 0)) (VInt i)).
    { exists []. split; [reflexivity|]. econstructor; [constructor|lia]. }
    destruct cmp as [c|]; [|injection E as <-; assumption].
    destruct (tname_eqb (dt_name c) TI32 && in_range i32_min i32_max i) eqn:Ec; injection E as <-; [|assumption].
    apply andb_true_iff in Ec. destruct Ec as [_ Ec]. apply in_range_iff in Ec. unfold i32_min, i32_max in Ec.
    exists []. split; [reflexivity|]. econstructor; [constructor|lia].
  - injection E as <-. exists []. split; [reflexivity|constructor].
  - injection E as <-. exists []. split; [reflexivity|constructor]. auto.
  - injection E as <-. exists []. split; [reflexivity|constructor]. auto.
  - injection E as <-. exists tname. split; [split; reflexivity|constructor].
  - destruct (n_collof h n) as [l|] eqn:Ec; [|discriminate]. injection E as <-. exists (l_nameof h l).
    split; [split; reflexivity|]. constructor. exists l. auto.
  - specialize (Hn _ _ eq_refl). unfold new_nodespan in Hn. destruct (n_collof h left) as [l|] eqn:Ec; [|discriminate]. injection E as <-.
    destruct (node_i h left) as [ia|] eqn:Ia; [|discriminate]. simpl in Hn. destruct (node_i h right) as [ib|] eqn:Ib; [|discriminate]. simpl in Hn.
    destruct (Z.leb_spec ia ib); [|discriminate]. simpl in Hn. destruct (n_collof h right) as [l'|] eqn:Ec'; [|discriminate].
    destruct (Nat.eqb_spec l l'); [subst l'|discriminate].
    exists (l_nameof h l). split; [split; reflexivity|]. apply (ad_nodespan h _ left right ia ib); auto; exists l; auto.
  - destruct l as [|[n|] l]; try discriminate.
    + assert (Gb : accepts h (mkDT KBase TNodeRefMany []) (VNodeList [])) by (exists []; split; [exact I|constructor]).
      destruct cmp as [c|]; [|injection E as <-; assumption].
      destruct (tname_eqb (dt_name c) TNodeRefMany) eqn:Ec; injection E as <-; [|assumption].
      destruct (Hcmp c eq_refl) as [name T]. exists name. split; [assumption|]. apply tname_eqb_eq in Ec.
      unfold type_ok in T. destruct (dt_class c); try congruence; try (destruct T; congruence); [constructor|].
      apply (ad_nodelist h name []). intros n [].
    + match type of E with (if ?x then _ else _) = _ => destruct x eqn:Ef; [|discriminate] end.
      destruct (n_collof h n) as [c|] eqn:Ec; [|discriminate]. injection E as <-. exists (l_nameof h c).
      split; [split; reflexivity|]. rewrite forallb_forall in Ef.
      assert (Hall : forall o, In o (Some n :: l) -> exists m, o = Some m /\ n_collof h m = Some c).
      { intros o Ho. specialize (Ef o Ho). destruct o as [m|]; [|discriminate]. exists m. split; [reflexivity|].
        destruct (n_collof h m) as [k|]; simpl in Ef; [|discriminate]. apply Nat.eqb_eq in Ef. congruence. }
      assert (Hl : Some n :: l = map Some (live (Some n :: l))).
      { clear -Hall. induction (Some n :: l) as [|o q IH]; [reflexivity|]. destruct (Hall o (or_introl eq_refl)) as (m & -> & _).
        simpl. f_equal. apply IH. intros o Ho. apply Hall. right. assumption. }
      rewrite Hl. constructor. intros m Hm. apply live_In in Hm. destruct (Hall _ Hm) as (m' & [= <-] & Hc). exists c. auto.
Qed.

Lemma numeric_exact h d v :
  (dt_class d = KInt32 -> exists b, is_valid h d v = Ok b /\ (b = true <-> exists i, int_value v i /\ -2^31 <= i <= 2^31 - 1)) /\
  (dt_class d = KInt64 -> exists b, is_valid h d v = Ok b /\ (b = true <-> exists i, int_value v i /\ -2^63 <= i <= 2^63 - 1)) /\
  (dt_class d = KFloat -> exists b, is_valid h d v = Ok b /\ (b = true <-> exists x, v = VFloat x)) /\
  (dt_class d = KBool -> exists b, is_valid h d v = Ok b /\ (b = true <-> exists x, v = VBool x)) /\
  (dt_class d = KString -> exists b, is_valid h d v = Ok b /\ (b = true <-> exists x, v = VStr x /\ zlen x < 2^31)) /\
  (dt_class d = KBinary -> exists b, is_valid h d v = Ok b /\ (b = true <-> exists x, v = VBytes x /\ zlen x < 2^31)).
Proof.
  unfold is_valid. split; [|split; [|split; [|split; [|split]]]]; intros ->; (eexists; split; [reflexivity|]).
  - apply int_valid.
  - apply int_valid.
  - destruct v; split; try discriminate; eauto; intros (? & ?); discriminate.
  - destruct v; split; try discriminate; eauto; intros (? & ?); discriminate.
  - destruct v as [| | | |y| | | | | | |]; split; try discriminate; try (intros (? & ? & ?); discriminate).
    + intros H. exists y. split; [reflexivity|]. apply Z.ltb_lt. assumption.
    + intros (x0 & E0 & H0). injection E0 as <-. apply Z.ltb_lt. assumption.
  - destruct v as [| | | | |y| | | | | |]; split; try discriminate; try (intros (? & ? & ?); discriminate).
    + intros H. exists y. split; [reflexivity|]. apply Z.ltb_lt. assumption.
    + intros (x0 & E0 & H0). injection E0 as <-. apply Z.ltb_lt. assumption.
Qed.

Lemma add_valid h l kw h' n : wf h -> (l < h_lnext h)%nat -> schema_ok h l -> layer_add_kw h l kw = (h', Ok n) -> node_valid h' l n.
Proof.
  intros W Hl Hs E. pose proof (add_kw_spec h l kw h' (Ok n) W Hl E) as (W' & _ & _ & _ & _ & _ & Hc & Hf & _ & _ & _ & _ & Hv & _).
  apply (validate_spec h' l n W' Hc); [|assumption]. unfold schema_ok. rewrite Hf. exact Hs.
Qed.
