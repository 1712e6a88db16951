(** What the Java port writes is a layout of objects, as the Python port writes it; the parts of its texts. *)
From Verif Require Import PyBase PyBaseFacts Model_Text Model_Heap Model_Layer Model_Types Model_Msgpack Model_Document Model_Codec Model_JUnits Model_JLayer Model_JStream Model_JText Model_JCodec Model_JEncode
  Spec_Layer Spec_Types Spec_Msgpack Spec_Document Spec_Codec Spec_JText Spec_JUnits Spec_JCodec Spec_JEncode
  Proof_Text Proof_Msgpack Proof_Layout Proof_Codec Proof_Codec2 Proof_JText Proof_JText2 Proof_JText3 Proof_JUnits Proof_JCodec Proof_JCodec2.
Local Open Scope Z_scope.
Local Arguments s : simpl never.

(** ** the layout *)
Definition sobj (v : jv) : mobj :=
  match v with JBool b => MBool b | JInt i | JLong i => MInt i | JDouble b => MFloat b | JStr x => MStr x | JBin x => MBin x | _ => MNil end.
Definition number_of (T : dict (jtext * list (list N))) (c : pystr) (p : Z) : Z := match jnumber T c p with Ok i => i | Err _ => 0 end.
Definition vcell (T : dict (jtext * list (list N))) (v : jv) : list mobj :=
  match v with
  | JExt _ x => [MBin x]
  | JSpan c a b => [MInt (number_of T c a); MInt (number_of T c b)]
  | JNode _ i => [MInt (Z.of_nat i)]
  | JNodes _ is => [MArr (map MInt (map Z.of_nat is))]
  | JNodeSpan _ a b => [MArr [MInt (Z.of_nat a); MInt (Z.of_nat b - Z.of_nat a)]]
  | _ => [sobj v]
  end.
Definition ocell (T : dict (jtext * list (list N))) (sp : bool) (o : option jv) : list mobj :=
  match o with None => if sp then [MNil; MNil] else [MNil] | Some v => vcell T v end.
Definition sobjs (d : dict jv) : dict mobj := map (fun kv => (fst kv, sobj (snd kv))) d.
Definition type_name (t : jdtype) : pystr := match jname_string (ty_name t) with Ok x => x | Err _ => [] end.
Definition efield_of (T : dict (jtext * list (list N))) (rows : list (dict jv)) (ft : pystr * jdtype) : efield :=
  mkEF (fst ft) (type_name (snd ft)) (match ty_args (snd ft) with [] => None | a => Some (sobjs a) end)
       (flat_map (fun row => ocell T (is_span_field (snd ft)) (dget row (fst ft))) rows).
Definition elayer_of (T : dict (jtext * list (list N))) (kl : pystr * (dict jdtype * list (dict jv))) : elayer :=
  mkEL (fst kl) (zlen (snd (snd kl))) (map (efield_of T (snd (snd kl))) (fst (snd kl))).
Definition parts_of (T : dict (jtext * list (list N))) : dict (list pystr) := map (fun kt => (fst kt, map from_units (snd (snd kt)))) T.
Definition edoc_of (T : dict (jtext * list (list N))) (j : jdoc) : edoc :=
  mkED (MMap (sobjs (jd_props j))) (parts_of T) (map (elayer_of T) (jd_layers j)).

Lemma then_inv a b x : then_ a b = Ok x -> exists p q, a = Ok p /\ b = Ok q /\ x = p ++ q.
Proof. unfold then_. destruct a as [p|]; [|discriminate]. cbn [rbind]. destruct b as [q|]; [|discriminate]. cbn [rbind]. intros H. apply Ok_inj in H. eauto. Qed.
Lemma pack_arr_inv n b : pack_arr n = Ok b -> arr_head n = Ok b.
Proof. unfold pack_arr. destruct (_ <? _); [discriminate|auto]. Qed.
Lemma pack_map_inv n b : pack_map n = Ok b -> map_head n = Ok b.
Proof. unfold pack_map. destruct (_ <? _); [discriminate|auto]. Qed.
Lemma concatM_impl {A} (f g : A -> res (list N)) l : (forall x b, In x l -> f x = Ok b -> g x = Ok b) -> forall b, concatM f l = Ok b -> concatM g l = Ok b.
Proof.
  induction l as [|x l IH]; intros H b E; [assumption|]. apply concatM_cons in E. destruct E as (p & q & E1 & E2 & ->). cbn [concatM].
  rewrite (H x p (or_introl eq_refl) E1). cbn [rbind]. rewrite (IH (fun y b Hy => H y b (or_intror Hy)) q E2). reflexivity.
Qed.
Lemma concatM_map {A B} (g : A -> B) (f : B -> res (list N)) l : concatM f (map g l) = concatM (fun x => f (g x)) l.
Proof. induction l as [|x l IH]; [reflexivity|]. cbn [map concatM]. rewrite IH. reflexivity. Qed.
Lemma concatM_app_ok {A} (f : A -> res (list N)) a b p q : concatM f a = Ok p -> concatM f b = Ok q -> concatM f (a ++ b) = Ok (p ++ q).
Proof.
  revert p. induction a as [|x a IH]; intros p Ha Hb; [apply Ok_inj in Ha; subst p; exact Hb|]. apply concatM_cons in Ha. destruct Ha as (p1 & p2 & E1 & E2 & ->).
  cbn [app concatM]. rewrite E1. cbn [rbind]. rewrite (IH _ E2 Hb). cbn [rbind]. rewrite app_assoc. reflexivity.
Qed.
Lemma concatM_flat {A} (objs : A -> list mobj) l : forall b, concatM (fun x => pack_all (objs x)) l = Ok b -> pack_all (flat_map objs l) = Ok b.
Proof.
  induction l as [|x l IH]; intros b H; [assumption|]. apply concatM_cons in H. destruct H as (p & q & E1 & E2 & ->). cbn [flat_map]. apply concatM_app_ok; [exact E1|apply IH; exact E2].
Qed.
Lemma one_ok x b : pack x = Ok b -> pack_all [x] = Ok b.
Proof. intros H. unfold pack_all. cbn [concatM]. rewrite H. cbn [rbind]. rewrite app_nil_r. reflexivity. Qed.
Lemma cons_ok x l p q : pack x = Ok p -> pack_all l = Ok q -> pack_all (x :: l) = Ok (p ++ q).
Proof. intros H1 H2. unfold pack_all in *. cbn [concatM]. rewrite H1. cbn [rbind]. rewrite H2. reflexivity. Qed.
Lemma arr_ok l hd b : arr_head (zlen l) = Ok hd -> pack_all l = Ok b -> pack (MArr l) = Ok (hd ++ b).
Proof. intros H1 H2. unfold pack_all in H2. cbn [pack]. rewrite H1. cbn [rbind]. rewrite H2. reflexivity. Qed.
Lemma map_ok (d : dict mobj) hd b : map_head (zlen d) = Ok hd -> concatM (fun kv => let* k := pack_str (fst kv) in let* v := pack (snd kv) in Ok (k ++ v)) d = Ok b ->
  pack (MMap d) = Ok (hd ++ b).
Proof. intros H1 H2. cbn [pack]. rewrite H1. cbn [rbind]. rewrite H2. reflexivity. Qed.
Lemma zlen_map {A B} (f : A -> B) l : zlen (map f l) = zlen l.
Proof. unfold zlen. rewrite map_length. reflexivity. Qed.
Lemma sized_section body os b : (forall x, body = Ok x -> pack_all os = Ok x) -> sized body = Ok b -> section os = Ok b.
Proof.
  intros H E. unfold sized in E. destruct body as [x|]; [|discriminate]. cbn [rbind] in E. destruct (_ <? _); [discriminate|]. unfold section. rewrite (H x eq_refl). cbn [rbind]. exact E.
Qed.
Lemma jnumber_of T c p i : jnumber T c p = Ok i -> number_of T c p = i.
Proof. unfold number_of. intros ->. reflexivity. Qed.
Lemma jwrite_objs sl T v b : jwrite sl T v = Ok b -> pack_all (vcell T v) = Ok b.
Proof.
  destruct v; cbn [jwrite vcell sobj]; intros H; try (apply one_ok; assumption); try discriminate.
  - destruct sl; [discriminate|]. apply one_ok. assumption.
  - destruct (jnumber T text start) as [i|] eqn:Ei; [|discriminate]. cbn [rbind] in H. destruct (jnumber T text stop) as [k|] eqn:Ek; [|discriminate]. cbn [rbind] in H.
    apply then_inv in H. destruct H as (p & q & E1 & E2 & ->). rewrite (jnumber_of _ _ _ _ Ei), (jnumber_of _ _ _ _ Ek). apply cons_ok; [assumption|]. apply one_ok. assumption.
  - apply then_inv in H. destruct H as (p & q & E1 & E2 & ->). apply pack_arr_inv in E1. apply one_ok. apply arr_ok; [rewrite !zlen_map; assumption|]. unfold pack_all. rewrite !concatM_map. exact E2.
  - apply then_inv in H. destruct H as (p & q & E1 & E2 & ->). apply pack_arr_inv in E1. apply then_inv in E2. destruct E2 as (q1 & q2 & E2 & E3 & ->). apply one_ok. apply arr_ok; [exact E1|].
    apply cons_ok; [assumption|]. apply one_ok. assumption.
Qed.
Lemma jwrite_scalar sl T v b : jscalar v -> jwrite sl T v = Ok b -> pack (sobj v) = Ok b.
Proof. intros J H. apply jwrite_objs in H. inversion J; subst; apply one_inv in H; exact H. Qed.
Lemma jwrite_arg_scalar v b : jwrite_arg v = Ok b -> pack (sobj v) = Ok b.
Proof. destruct v; cbn [jwrite_arg sobj]; intros H; try discriminate; assumption. Qed.
Lemma entries_objs (w : jv -> res (list N)) (d : dict jv) hd b : (forall k v x, In (k, v) d -> w v = Ok x -> pack (sobj v) = Ok x) ->
  pack_map (zlen d) = Ok hd -> concatM (fun kv => then_ (pack (MStr (fst kv))) (w (snd kv))) d = Ok b -> pack (MMap (sobjs d)) = Ok (hd ++ b).
Proof.
  intros Hw H1 H2. apply pack_map_inv in H1. apply map_ok; [unfold sobjs; rewrite zlen_map; assumption|]. unfold sobjs. rewrite concatM_map. revert H2. apply concatM_impl. intros [k v] x Hin E. cbn [fst snd] in *.
  apply then_inv in E. destruct E as (p & q & E1 & E2 & ->). change (pack_str k) with (pack (MStr k)). rewrite E1. cbn [rbind]. rewrite (Hw k v q Hin E2). reflexivity.
Qed.
Lemma props_objs T ps b : (forall k v, In (k, v) ps -> jscalar v) -> jwrite_props T ps = Ok b -> section [MMap (sobjs ps)] = Ok b.
Proof.
  intros J. apply sized_section. intros x H. apply then_inv in H. destruct H as (p & q & E1 & E2 & ->). apply one_ok. eapply entries_objs; [|exact E1|exact E2].
  intros k v y Hin. apply jwrite_scalar. eapply J. exact Hin.
Qed.
Lemma field_objs_ok T rows ft b : jwrite_field ft = Ok b -> pack_all (field_objs (efield_of T rows ft)) = Ok b.
Proof.
  destruct ft as [f t]. unfold jwrite_field, field_objs, efield_of, type_name. cbn [fst snd ef_args ef_name ef_type]. destruct (jname_string (ty_name t)) as [x|]; [|discriminate]. cbn [rbind].
  destruct (ty_args t) as [|a0 args]; intros H; apply then_inv in H; destruct H as (p1 & q1 & E1 & H & ->); apply then_inv in H; destruct H as (p2 & q2 & E2 & H & ->).
  - apply cons_ok; [assumption|]. apply cons_ok; [assumption|]. apply one_ok. assumption.
  - apply then_inv in H. destruct H as (p3 & q3 & E3 & H & ->). apply then_inv in H. destruct H as (p4 & q4 & E4 & H & ->).
    apply cons_ok; [assumption|]. apply cons_ok; [assumption|]. apply cons_ok; [assumption|]. apply one_ok. eapply entries_objs; [|exact E4|exact H]. intros k v y _. apply jwrite_arg_scalar.
Qed.
Lemma schema_objs_ok T ls b : jwrite_schema ls = Ok b ->
  pack_all (MArr (map (fun l => MStr (el_name l)) (map (elayer_of T) ls)) :: schema_objs (map (elayer_of T) ls)) = Ok b.
Proof.
  intros H. unfold jwrite_schema in H. apply then_inv in H. destruct H as (p & q & E1 & E2 & ->). apply then_inv in E1. destruct E1 as (p1 & p2 & E1 & E3 & ->). apply pack_arr_inv in E1.
  apply cons_ok.
  - apply arr_ok; [rewrite !zlen_map; assumption|]. unfold pack_all. rewrite !concatM_map. exact E3.
  - unfold schema_objs. rewrite flat_map_concat_map, map_map, <- flat_map_concat_map. apply concatM_flat. revert E2. apply concatM_impl. intros [k [fs rows]] x _ E. cbn [fst snd] in E.
    apply then_inv in E. destruct E as (a & c & Ea & Eb & ->). apply cons_ok; [cbn [elayer_of el_fields fst snd]; rewrite zlen_map; assumption|].
    cbn [elayer_of el_fields fst snd]. rewrite flat_map_concat_map, map_map, <- flat_map_concat_map. apply concatM_flat. revert Eb. apply concatM_impl. intros ft y _. apply field_objs_ok.
Qed.
Lemma texts_objs_ok T b : jwrite_texts T = Ok b -> section [texts_obj (parts_of T)] = Ok b.
Proof.
  apply sized_section. intros x H. apply then_inv in H. destruct H as (p & q & E1 & E2 & ->). apply pack_map_inv in E1. apply one_ok. unfold texts_obj. apply map_ok; [unfold parts_of; rewrite !zlen_map; assumption|].
  unfold parts_of. rewrite !concatM_map. revert E2. apply concatM_impl. intros [c [t parts]] y _ E. cbn [fst snd] in *. apply then_inv in E. destruct E as (a & r & Ea & E & ->). apply then_inv in E. destruct E as (e & g & Ee & Eg & ->).
  change (pack_str c) with (pack (MStr c)). rewrite Ea. cbn [rbind]. rewrite (arr_ok (map MStr (map from_units parts)) e g); [reflexivity| |].
  - rewrite !zlen_map. apply pack_arr_inv. assumption.
  - unfold pack_all. rewrite !concatM_map. exact Eg.
Qed.
(** a value that is not a span in a field of another type *)
Definition spans_apart (j : jdoc) : Prop := forall k fs rows row f t c a b, In (k, (fs, rows)) (jd_layers j) -> In row rows -> In (f, t) fs -> dget row f = Some (JSpan c a b) -> is_span_field t = true.
Lemma flat_len {A B} (g : A -> list B) n l : (forall x, In x l -> zlen (g x) = n) -> zlen (flat_map g l) = n * zlen l.
Proof.
  induction l as [|x l IH]; intros H; [unfold zlen; simpl; lia|]. cbn [flat_map]. rewrite zlen_app', H by (left; reflexivity). rewrite IH by (intros y Hy; apply H; right; assumption). unfold zlen. simpl length. lia.
Qed.
Lemma column_objs T rows ft b : (forall row c a e, In row rows -> dget row (fst ft) = Some (JSpan c a e) -> is_span_field (snd ft) = true) ->
  jwrite_column T rows ft = Ok b -> pack_all [MBool false; MArr (ef_col (efield_of T rows ft))] = Ok b.
Proof.
  intros A H. destruct ft as [f t]. unfold jwrite_column in H. cbn [fst snd] in *. apply then_inv in H. destruct H as (p & q & E1 & H & ->). apply cons_ok; [assumption|]. apply one_ok.
  unfold efield_of. cbn [ef_col fst snd]. destruct (is_span_field t) eqn:Et; apply then_inv in H; destruct H as (p1 & q1 & E2 & E3 & ->); apply pack_arr_inv in E2.
  - assert (S : forall row x, In row rows -> jwrite_span T (dget row f) = Ok x -> pack_all (ocell T true (dget row f)) = Ok x /\ zlen (ocell T true (dget row f)) = 2).
    { intros row x _ E. unfold jwrite_span in E. destruct (dget row f) as [v|].
      - destruct v; try discriminate. split; [|reflexivity]. cbn [ocell]. apply (jwrite_objs false). exact E.
      - split; [|reflexivity]. apply then_inv in E. destruct E as (a & c & Ea & Ec & ->). apply cons_ok; [assumption|]. apply one_ok. assumption. }
    apply arr_ok.
    + rewrite (flat_len _ 2); [exact E2|]. intros row Hr. clear - S Hr E3. revert q1 E3. induction rows as [|r rows IH]; intros q1 E; [destruct Hr|]. apply concatM_cons in E. destruct E as (a & c & Ea & Ec & ->).
      destruct Hr as [<-|Hr]; [apply (S r a); [left; reflexivity|exact Ea]|]. eapply IH; [|exact Hr|exact Ec]. intros row' x Hin. apply S. right. assumption.
    + apply concatM_flat. revert E3. apply concatM_impl. intros row x Hin E. apply (S row x Hin E).
  - apply arr_ok.
    + rewrite (flat_len _ 1); [rewrite Z.mul_1_l; exact E2|]. intros row Hr. unfold ocell. destruct (dget row f) as [v|] eqn:Ev; [|reflexivity]. destruct v; try reflexivity. pose proof (A _ _ _ _ Hr Ev). discriminate.
    + apply concatM_flat. revert E3. apply concatM_impl. intros row x Hin E. unfold ocell. destruct (dget row f) as [v|]; [apply (jwrite_objs false); exact E|]. apply one_ok. exact E.
Qed.
Lemma layer_objs_ok T k fs rows b : (forall row f t c a e, In row rows -> In (f, t) fs -> dget row f = Some (JSpan c a e) -> is_span_field t = true) ->
  jwrite_layer T (k, (fs, rows)) = Ok b -> section (layer_objs (elayer_of T (k, (fs, rows)))) = Ok b.
Proof.
  intros A. unfold jwrite_layer. cbn [fst snd]. apply sized_section. intros x H. apply then_inv in H. destruct H as (p & q & E1 & E2 & ->). unfold layer_objs, elayer_of. cbn [fst snd el_num el_fields].
  apply cons_ok; [assumption|]. rewrite flat_map_concat_map, map_map, <- flat_map_concat_map. apply concatM_flat. revert E2. apply concatM_impl. intros [f t] y Hin. apply column_objs. cbn [fst snd]. intros row c a e Hr. eapply A; eassumption.
Qed.
Theorem java_layout j bytes : (forall k v, In (k, v) (jd_props j) -> jscalar v) -> spans_apart j -> java_encode j = Ok bytes ->
  exists T, jcompile j = Ok T /\ layout (edoc_of T j) = Ok bytes /\ zlen bytes < 2147483648.
Proof.
  intros J A H. unfold java_encode in H. destruct (jvalidate j) as [u|]; [|discriminate]. cbn [rbind] in H. destruct (jcompile j) as [T|]; [|discriminate]. cbn [rbind] in H. exists T. split; [reflexivity|].
  match type of H with (let* b := ?E in _) = _ => destruct E as [b|] eqn:E0; [|discriminate] end. cbn [rbind] in H. destruct (Z.ltb_spec 2147483647 (zlen b)) as [?|Lb]; [discriminate|]. apply Ok_inj in H. subst b. split; [|lia]. clear Lb. rename E0 into H.
  apply then_inv in H. destruct H as (m & q & Em & H & ->). apply Ok_inj in Em. subst m. apply then_inv in H. destruct H as (p1 & q1 & E1 & H & ->). apply then_inv in H. destruct H as (p2 & q2 & E2 & H & ->).
  apply then_inv in H. destruct H as (p3 & p4 & E3 & E4 & ->). unfold layout, edoc_of. cbn [ed_props ed_texts ed_layers]. rewrite (props_objs T _ _ J E1). cbn [rbind].
  rewrite (schema_objs_ok T _ _ E2). cbn [rbind]. rewrite (texts_objs_ok _ _ E3). cbn [rbind]. rewrite concatM_map.
  rewrite (concatM_impl (jwrite_layer T) (fun x => section (layer_objs (elayer_of T x))) (jd_layers j)) with (b := p4); [reflexivity| |exact E4].
  intros [k [fs rows]] x Hin. apply layer_objs_ok. intros row f t c a e Hr Hf. eapply A; eassumption.
Qed.
