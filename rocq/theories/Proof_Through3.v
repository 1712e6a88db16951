(** What the Java port writes: it writes whatever has a layout of fewer than 2^31 bytes. *)
From Verif Require Import PyBase PyBaseFacts Model_Text Model_Heap Model_Layer Model_Types Model_Msgpack Model_Document Model_Codec Model_JUnits Model_JLayer Model_JStream Model_JText Model_JCodec Model_JEncode
  Spec_Layer Spec_Types Spec_Msgpack Spec_Document Spec_Codec Spec_JText Spec_JUnits Spec_JCodec Spec_JEncode
  Proof_Text Proof_Msgpack Proof_Layout Proof_Codec Proof_Codec2 Proof_JText Proof_JText2 Proof_JText3 Proof_JUnits Proof_JCodec Proof_JCodec2 Proof_JEncode Proof_JEncode2.
Local Open Scope Z_scope.
Local Arguments s : simpl never.

(** ** from the layout to what is written *)
Lemma then_intro a b p q : a = Ok p -> b = Ok q -> then_ a b = Ok (p ++ q).
Proof. intros -> ->. reflexivity. Qed.
Lemma pack_arr_fits n b : 0 <= n < 2147483648 -> arr_head n = Ok b -> pack_arr n = Ok b.
Proof. intros H E. unfold pack_arr. destruct (Z.ltb_spec 2147483647 n); [lia|exact E]. Qed.
Lemma pack_map_fits n b : 0 <= n < 2147483648 -> map_head n = Ok b -> pack_map n = Ok b.
Proof. intros H E. unfold pack_map. destruct (Z.ltb_spec 2147483647 n); [lia|exact E]. Qed.
Lemma pack_cons_inv x l b : pack_all (x :: l) = Ok b -> exists p q, pack x = Ok p /\ pack_all l = Ok q /\ b = p ++ q.
Proof. unfold pack_all. intros H. apply concatM_cons in H. destruct H as (p & q & E1 & E2 & ->). eauto. Qed.
Lemma pack_app_inv l m b : pack_all (l ++ m) = Ok b -> exists p q, pack_all l = Ok p /\ pack_all m = Ok q /\ b = p ++ q.
Proof.
  revert b. induction l as [|x l IH]; intros b H; [exists [], b; auto|]. cbn [app] in H. apply pack_cons_inv in H. destruct H as (p & q & E1 & E2 & ->). destruct (IH q E2) as (p1 & q1 & E3 & E4 & ->).
  exists (p ++ p1), q1. split; [apply cons_ok; assumption|]. split; [assumption|]. apply app_assoc.
Qed.
Lemma flat_concatM {A} (objs : A -> list mobj) l : forall b, pack_all (flat_map objs l) = Ok b -> concatM (fun x => pack_all (objs x)) l = Ok b.
Proof.
  induction l as [|x l IH]; intros b H; [assumption|]. cbn [flat_map] in H. apply pack_app_inv in H. destruct H as (p & q & E1 & E2 & ->). cbn [concatM]. rewrite E1. cbn [rbind]. rewrite (IH q E2). reflexivity.
Qed.
Lemma concatM_short {A} (f g : A -> res (list N)) l : (forall x b, In x l -> f x = Ok b -> short b -> g x = Ok b) -> forall b, concatM f l = Ok b -> short b -> concatM g l = Ok b.
Proof.
  induction l as [|x l IH]; intros H b E S; [assumption|]. apply concatM_cons in E. destruct E as (p & q & E1 & E2 & ->). cbn [concatM].
  rewrite (H x p (or_introl eq_refl) E1 (short_l _ _ S)). cbn [rbind]. rewrite (IH (fun y b Hy => H y b (or_intror Hy)) q E2 (short_r _ _ S)). reflexivity.
Qed.
Lemma section_sized body os b : (forall x, pack_all os = Ok x -> short x -> body = Ok x) -> section os = Ok b -> short b -> sized body = Ok b.
Proof.
  intros H E S. unfold section in E. destruct (pack_all os) as [x|]; [|discriminate]. cbn [rbind] in E. destruct (pack (MInt (zlen x))) as [n|] eqn:En; [|discriminate]. cbn [rbind] in E. apply Ok_inj in E. subst b.
  pose proof (short_r _ _ S) as Sx. unfold sized. rewrite (H x eq_refl Sx). cbn [rbind]. destruct (Z.ltb_spec 2147483647 (zlen x)) as [Lx|Lx]; [exfalso; apply (Z.lt_irrefl (zlen x)); lia|]. rewrite En. reflexivity.
Qed.
(** the values that are written in a field that is no span *)
Lemma vcell_written j t T v b : jtyped j t v -> ty_name t <> JT TSpan -> pack_all (vcell T v) = Ok b -> short b -> jwrite false T v = Ok b.
Proof.
  intros Ty Ns H S. inversion Ty; subst; try congruence; cbn [vcell sobj jwrite] in *; try (apply one_inv in H; exact H).
  - apply one_inv in H. pose proof (arr_short _ _ H S) as L. apply arr_inv in H. destruct H as (hd & b' & E1 & E2 & ->). rewrite !zlen_map in *. rewrite !concatM_map in E2. apply then_intro; [apply pack_arr_fits; assumption|exact E2].
  - apply one_inv in H. apply arr_inv in H. destruct H as (hd & b' & E1 & E2 & ->). apply two_inv in E2. destruct E2 as (p1 & q1 & E2 & E3 & ->). repeat apply then_intro; try assumption.
Qed.
Lemma sobj_written sl T v b : jscalar v -> pack (sobj v) = Ok b -> jwrite sl T v = Ok b.
Proof. intros J H. inversion J; subst; exact H. Qed.
Lemma arg_written v b : jscalar v -> pack (sobj v) = Ok b -> jwrite_arg v = Ok b.
Proof. intros J H. inversion J; subst; exact H. Qed.
Lemma entries_written (w : jv -> res (list N)) (d : dict jv) b : (forall k v x, In (k, v) d -> pack (sobj v) = Ok x -> w v = Ok x) -> pack (MMap (sobjs d)) = Ok b -> short b ->
  then_ (pack_map (zlen d)) (concatM (fun kv => then_ (pack (MStr (fst kv))) (w (snd kv))) d) = Ok b.
Proof.
  intros Hw H S. pose proof (map_short _ _ H S) as L. apply map_inv' in H. destruct H as (hd & b' & E1 & E2 & ->). unfold sobjs in *. rewrite zlen_map in *. rewrite concatM_map in E2. apply then_intro; [apply pack_map_fits; assumption|].
  revert E2. apply concatM_impl. intros [k v] x Hin E. cbn [fst snd] in *. apply (entry_inv (k, sobj v)) in E. destruct E as (p & q & E1' & E2' & ->). cbn [fst snd] in *. apply then_intro; [exact E1'|]. eapply Hw; eassumption.
Qed.
Lemma props_written T ps b : (forall k v, In (k, v) ps -> jscalar v) -> section [MMap (sobjs ps)] = Ok b -> short b -> jwrite_props T ps = Ok b.
Proof.
  intros J. apply section_sized. intros x H S. apply one_inv in H. apply entries_written; [|assumption|assumption]. intros k v y Hin. apply sobj_written. eapply J. exact Hin.
Qed.
Lemma field_written j T rows ft b : jtype_ok j (snd ft) -> pack_all (field_objs (efield_of T rows ft)) = Ok b -> short b -> jwrite_field ft = Ok b.
Proof.
  intros Ok_t H S. destruct ft as [f t]. unfold jwrite_field, field_objs, efield_of, type_name in *. cbn [fst snd ef_args ef_name ef_type] in *.
  destruct (jt_known j t Ok_t) as (tn & En & Nu). rewrite En in *. cbn [jname_string] in *. destruct (type_string tn) as [x|] eqn:Ex; [|destruct tn; vm_compute in Ex; congruence]. cbn [rbind].
  destruct (ty_args t) as [|a0 args] eqn:Ea.
  - apply pack_cons_inv in H. destruct H as (p1 & q1 & E1 & H & ->). apply pack_cons_inv in H. destruct H as (p2 & q2 & E2 & H & ->). apply one_inv in H. repeat apply then_intro; assumption.
  - apply pack_cons_inv in H. destruct H as (p1 & q1 & E1 & H & ->). apply pack_cons_inv in H. destruct H as (p2 & q2 & E2 & H & ->). apply pack_cons_inv in H. destruct H as (p3 & q3 & E3 & H & ->). apply one_inv in H.
    apply then_intro; [assumption|]. apply then_intro; [assumption|]. apply then_intro; [assumption|]. apply entries_written; [|assumption|].
    + intros k v y Hin. apply arg_written. apply (proj2 (jt_args j t Ok_t) k). rewrite Ea. exact Hin.
    + do 3 apply short_r in S. exact S.
Qed.
Lemma schema_written j T ls b : (forall k fs rows f t, In (k, (fs, rows)) ls -> In (f, t) fs -> jtype_ok j t) ->
  pack_all (MArr (map (fun l => MStr (el_name l)) (map (elayer_of T) ls)) :: schema_objs (map (elayer_of T) ls)) = Ok b -> short b -> jwrite_schema ls = Ok b.
Proof.
  intros K H S. apply pack_cons_inv in H. destruct H as (p & q & E1 & E2 & ->). unfold jwrite_schema. apply then_intro.
  - pose proof (arr_short _ _ E1 (short_l _ _ S)) as L. apply arr_inv in E1. destruct E1 as (hd & b' & E1 & E3 & ->). rewrite !zlen_map in *. rewrite !concatM_map in E3. apply then_intro; [apply pack_arr_fits; assumption|exact E3].
  - unfold schema_objs in E2. rewrite flat_map_concat_map, map_map, <- flat_map_concat_map in E2. apply flat_concatM in E2. revert E2. intros E2. eapply concatM_short; [|exact E2|exact (short_r _ _ S)].
    intros [k [fs rows]] x Hin E Sx. cbn [fst snd]. cbn [elayer_of el_fields fst snd] in E. apply pack_cons_inv in E. destruct E as (a & c & Ea & Eb & ->). rewrite zlen_map in Ea. apply then_intro; [assumption|].
    rewrite flat_map_concat_map, map_map, <- flat_map_concat_map in Eb. apply flat_concatM in Eb. eapply concatM_short; [|exact Eb|exact (short_r _ _ Sx)]. intros [f t] y Hf Ey Sy. apply (field_written j T rows); [eapply K; eassumption|exact Ey|exact Sy].
Qed.
Lemma texts_written T b : section [texts_obj (parts_of T)] = Ok b -> short b -> jwrite_texts T = Ok b.
Proof.
  apply section_sized. intros x H S. apply one_inv in H. unfold texts_obj in H. pose proof (map_short _ _ H S) as L. apply map_inv' in H. destruct H as (hd & b' & E1 & E2 & ->). unfold parts_of in *. rewrite !zlen_map in *. rewrite !concatM_map in E2.
  apply then_intro; [apply pack_map_fits; assumption|]. eapply concatM_short; [|exact E2|exact (short_r _ _ S)]. intros [c [t parts]] y _ E Sy. cbn [fst snd] in *.
  apply (entry_inv (c, MArr (map MStr (map from_units parts)))) in E. destruct E as (p & q & E3 & E4 & ->). cbn [fst snd] in *. apply then_intro; [exact E3|].
  pose proof (arr_short _ _ E4 (short_r _ _ Sy)) as L'. apply arr_inv in E4. destruct E4 as (hd' & b'' & E4 & E5 & ->). rewrite !zlen_map in *. rewrite !concatM_map in E5. apply then_intro; [apply pack_arr_fits; assumption|exact E5].
Qed.
(** the positions that are used have a number *)
Definition all_numbered (T : dict (jtext * list (list N))) (j : jdoc) : Prop := forall k fs rows row f t c a b, In (k, (fs, rows)) (jd_layers j) -> In row rows -> In (f, t) fs -> dget row f = Some (JSpan c a b) ->
  (exists i, jnumber T c a = Ok i) /\ exists i, jnumber T c b = Ok i.
Lemma column_written j T k fs rows f t b : jdoc_ok j -> all_numbered T j -> In (k, (fs, rows)) (jd_layers j) -> In (f, t) fs ->
  pack_all [MBool false; MArr (ef_col (efield_of T rows (f, t)))] = Ok b -> short b -> jwrite_column T rows (f, t) = Ok b.
Proof.
  intros D Nb Ik If H S. apply pack_cons_inv in H. destruct H as (p & q & E1 & H & ->). apply one_inv in H. unfold jwrite_column. apply then_intro; [exact E1|]. apply short_r in S. cbn [fst snd].
  pose proof (arr_short _ _ H S) as L. apply arr_inv in H. destruct H as (hd & b' & E2 & E3 & ->). cbn [efield_of ef_col fst snd] in *. apply short_r in S.
  assert (Ty : forall row v, In row rows -> dget row f = Some v -> jtyped j t v) by (intros row v Hr Ev; eapply (jk_values j D); eassumption).
  destruct (is_span_field t) eqn:Et.
  - rewrite (flat_len _ 2) in *.
    2,3: intros row Hr; unfold ocell; destruct (dget row f) as [v|] eqn:Ev; [|reflexivity]; pose proof (Ty row v Hr Ev) as V; unfold is_span_field in Et; inversion V as [? E|? E|? E|? E|? E|? E|? ? E|? ? ? ? E|? ? E|? ? E|? ? ? E]; subst; rewrite E in Et; try discriminate; reflexivity.
    apply then_intro; [apply pack_arr_fits; assumption|]. apply flat_concatM in E3. eapply concatM_short; [|exact E3|exact S]. intros row x Hr E _. unfold jwrite_span, ocell in *. destruct (dget row f) as [v|] eqn:Ev.
    + pose proof (Ty row v Hr Ev) as V. unfold is_span_field in Et. inversion V as [? E'|? E'|? E'|? E'|? E'|? E'|? ? E'|c x0 p0 q0 E'|? ? E'|? ? E'|? ? ? E']; subst; rewrite E' in Et; try discriminate.
      destruct (Nb _ _ _ _ _ _ _ _ _ Ik Hr If Ev) as [[i Ei] [i' Ei']]. rewrite Ei, Ei'. cbn [rbind]. cbn [vcell] in E. rewrite (jnumber_of _ _ _ _ Ei), (jnumber_of _ _ _ _ Ei') in E. apply two_inv in E. destruct E as (y & z & F1 & F2 & ->). apply then_intro; assumption.
    + apply two_inv in E. destruct E as (y & z & F1 & F2 & ->). apply then_intro; assumption.
  - assert (Nt : ty_name t <> JT TSpan) by (intros E; unfold is_span_field in Et; rewrite E in Et; discriminate).
    rewrite (flat_len _ 1) in *.
    2,3: intros row Hr; unfold ocell; destruct (dget row f) as [v|] eqn:Ev; [|reflexivity]; pose proof (Ty row v Hr Ev) as V; inversion V; subst; try contradiction; reflexivity.
    rewrite Z.mul_1_l in *. apply then_intro; [apply pack_arr_fits; assumption|]. apply flat_concatM in E3. eapply concatM_short; [|exact E3|exact S]. intros row x Hr E Sx. unfold ocell in E. destruct (dget row f) as [v|] eqn:Ev.
    + eapply vcell_written; [eapply Ty; eassumption|exact Nt|exact E|exact Sx].
    + apply one_inv in E. exact E.
Qed.
Lemma layer_written j T kl b : jdoc_ok j -> all_numbered T j -> In kl (jd_layers j) -> section (layer_objs (elayer_of T kl)) = Ok b -> short b -> jwrite_layer T kl = Ok b.
Proof.
  intros D Nb Ik. destruct kl as [k [fs rows]]. unfold jwrite_layer. apply section_sized. intros x H S. unfold layer_objs, elayer_of in H. cbn [fst snd el_num el_fields] in *. apply pack_cons_inv in H. destruct H as (p & q & E1 & E2 & ->).
  apply then_intro; [exact E1|]. rewrite flat_map_concat_map, map_map, <- flat_map_concat_map in E2. apply flat_concatM in E2. eapply concatM_short; [|exact E2|exact (short_r _ _ S)]. intros [f t] y Hf E Sy. eapply column_written; eassumption.
Qed.
Lemma mapM_unit {A} (f : A -> res unit) l : (forall x, In x l -> f x = Ok tt) -> exists r, mapM f l = Ok r.
Proof.
  induction l as [|x l IH]; intros H; [exists []; reflexivity|]. destruct IH as [r Er]; [intros y Hy; apply H; right; assumption|]. exists (tt :: r). cbn [mapM]. rewrite (H x (or_introl eq_refl)). cbn [rbind]. rewrite Er. reflexivity.
Qed.
Lemma mapM_some {A B} (f : A -> res B) l : (forall x, In x l -> exists y, f x = Ok y) -> exists r, mapM f l = Ok r.
Proof.
  induction l as [|x l IH]; intros H; [exists []; reflexivity|]. destruct IH as [r Er]; [intros y Hy; apply H; right; assumption|]. destruct (H x (or_introl eq_refl)) as [y Ey]. exists (y :: r). cbn [mapM]. rewrite Ey. cbn [rbind]. rewrite Er. reflexivity.
Qed.
Lemma argument_name t key x : argument t key x -> arg_name t key = Ok x.
Proof. unfold argument, arg_name. intros ->. reflexivity. Qed.
Lemma In_dmem {A} (d : dict A) k : In k (dkeys d) -> dmem d k = true.
Proof. intros H. destruct (dmem d k) eqn:E; [reflexivity|]. exfalso. apply dmem_In in H. congruence. Qed.
Lemma validated j : jdoc_ok j -> jvalidate j = Ok tt.
Proof.
  intros D. unfold jvalidate.
  destruct (mapM_some (fun kl => mapM (fun ft => jvalid_field j (snd ft)) (fst (snd kl))) (jd_layers j)) as [r Er]; [|rewrite Er; reflexivity].
  intros [k [fs rows]] Ik. cbn [fst snd]. destruct (mapM_unit (fun ft => jvalid_field j (snd ft)) fs) as [r Er]; [|eauto]. intros [f t] If. cbn [snd]. pose proof (proj2 (proj2 (jk_fields j D k fs rows Ik)) f t If) as K.
  unfold jvalid_field. destruct (jt_known j t K) as (tn & En & Nu). rewrite En. destruct tn; try reflexivity.
  - destruct (jt_layer j t K) as (x & Ax & Ix); [rewrite En; simpl; tauto|]. rewrite (argument_name _ _ _ Ax). cbn [rbind]. rewrite (In_dmem _ _ Ix). reflexivity.
  - destruct (jt_layer j t K) as (x & Ax & Ix); [rewrite En; simpl; tauto|]. rewrite (argument_name _ _ _ Ax). cbn [rbind]. rewrite (In_dmem _ _ Ix). reflexivity.
  - destruct (jt_context j t K En) as (x & Ax & Ix). rewrite (argument_name _ _ _ Ax). cbn [rbind]. rewrite (In_dmem _ _ Ix). reflexivity.
Qed.
Lemma layout_parts e bytes : layout e = Ok bytes -> exists p sc tx ls, section [ed_props e] = Ok p /\
  pack_all (MArr (map (fun l => MStr (el_name l)) (ed_layers e)) :: schema_objs (ed_layers e)) = Ok sc /\ section [texts_obj (ed_texts e)] = Ok tx /\
  concatM (fun l => section (layer_objs l)) (ed_layers e) = Ok ls /\ bytes = magic ++ p ++ sc ++ tx ++ ls.
Proof.
  unfold layout. intros H. destruct (section [ed_props e]) as [p|] eqn:E1; [|discriminate]. cbn [rbind] in H.
  destruct (pack_all (_ :: schema_objs (ed_layers e))) as [sc|] eqn:E2; [|discriminate]. cbn [rbind] in H.
  destruct (section [texts_obj (ed_texts e)]) as [tx|] eqn:E3; [|discriminate]. cbn [rbind] in H.
  destruct (concatM _ (ed_layers e)) as [ls|] eqn:E4; [|discriminate]. cbn [rbind] in H. apply Ok_inj in H. exists p, sc, tx, ls. auto.
Qed.
Theorem layout_written j T bytes : jdoc_ok j -> jcompile j = Ok T -> all_numbered T j -> layout (edoc_of T j) = Ok bytes -> short bytes -> java_encode j = Ok bytes.
Proof.
  intros D Ec Nb H S. unfold java_encode. rewrite (validated j D). cbn [rbind]. rewrite Ec. cbn [rbind]. apply layout_parts in H. unfold edoc_of in H. cbn [ed_props ed_texts ed_layers] in H. destruct H as (p & sc & tx & ls & E1 & E2 & E3 & E4 & ->).
  pose proof S as S0. apply short_r in S. pose proof (short_l _ _ S) as S1. apply short_r in S. pose proof (short_l _ _ S) as S2. apply short_r in S. pose proof (short_l _ _ S) as S3. apply short_r in S.
  rewrite concatM_map in E4.
  assert (X : then_ (Ok magic) (then_ (jwrite_props T (jd_props j)) (then_ (jwrite_schema (jd_layers j)) (then_ (jwrite_texts T) (concatM (jwrite_layer T) (jd_layers j))))) = Ok (magic ++ p ++ sc ++ tx ++ ls)).
  { apply then_intro; [reflexivity|]. apply then_intro; [apply props_written; [apply (jk_props j D)|assumption|assumption]|]. apply then_intro.
    - apply (schema_written j T); [|assumption|assumption]. intros k fs rows f t Ik If. apply (proj2 (proj2 (jk_fields j D k fs rows Ik)) f t If).
    - apply then_intro; [apply texts_written; assumption|]. eapply concatM_short; [|exact E4|exact S]. intros kl x Ik E Sx. eapply layer_written; eassumption. }
  rewrite X. cbn [rbind]. destruct (Z.ltb_spec 2147483647 (zlen (magic ++ p ++ sc ++ tx ++ ls))); [lia|reflexivity].
Qed.
