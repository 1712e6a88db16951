(** The Java port reads what it wrote. *)
From Verif Require Import PyBase PyBaseFacts Model_Text Model_Heap Model_Layer Model_Types Model_Msgpack Model_Document Model_Codec Model_JUnits Model_JLayer Model_JStream Model_JText Model_JCodec Model_JEncode
  Spec_Layer Spec_Types Spec_Msgpack Spec_Document Spec_Codec Spec_JText Spec_JUnits Spec_JCodec Spec_JEncode
  Proof_Text Proof_Msgpack Proof_Layout Proof_Codec Proof_Codec2 Proof_JStream Proof_JText Proof_JText2 Proof_JText3 Proof_JUnits Proof_JCodec Proof_JCodec2 Proof_JEncode Proof_JEncode2.
Local Open Scope Z_scope.
Local Arguments s : simpl never.

(** ** scalars and types *)
Lemma int_range_dec i : int_range i \/ ~ int_range i.
Proof. unfold int_range. destruct (Z.le_gt_cases (-2147483648) i); [|right; lia]. destruct (Z.le_gt_cases i 2147483647); [left|right]; lia. Qed.
Lemma scalar_prop v : jscalar v -> exists w, java_prop (sobj v) w /\ prop_again v w.
Proof.
  intros H. inversion H; subst; cbn [sobj]; try (eexists; split; constructor; assumption).
  destruct (int_range_dec i) as [R|R]; [exists (JInt i)|exists (JLong i)]; split; constructor; assumption.
Qed.
Lemma scalar_arg v : jscalar v -> exists w, jarg (sobj v) = Ok w /\ arg_again v w.
Proof.
  intros H. assert (D : (exists b, v = JDouble b) \/ (forall b, v <> JDouble b)) by (inversion H; subst; try (right; discriminate); left; eauto). destruct D as [[b ->]|D].
  - exists (JDouble (to_float b)). split; [reflexivity|constructor].
  - destruct (scalar_prop v H) as (w & J & P). exists w. split; [|constructor; assumption]. rewrite <- (jprop_ok _ _ J). inversion H; subst; try reflexivity. exfalso. eapply D. reflexivity.
Qed.
Lemma scalar_value v : jscalar v -> python_value (sobj v).
Proof. intros H. inversion H; subst; cbn [sobj]; constructor; assumption. Qed.
Lemma sobjs_value d : NoDup (dkeys d) -> (forall k v, In (k, v) d -> jscalar v) -> python_value (MMap (sobjs d)).
Proof.
  intros ND H. constructor.
  - unfold sobjs. rewrite map_map. exact ND.
  - unfold sobjs. rewrite map_map. apply Forall_forall. intros o Ho. apply in_map_iff in Ho. destruct Ho as ([k v] & <- & Hin). apply scalar_value. eapply H. exact Hin.
Qed.
Lemma choose_sobjs (R : mobj -> jv -> Prop) (P : jv -> jv -> Prop) d : (forall k v, In (k, v) d -> exists w, R (sobj v) w /\ P v w) ->
  exists js, Forall2 (fun ko kj => fst kj = fst ko /\ R (snd ko) (snd kj)) (sobjs d) js /\ Forall2 (again P) d js.
Proof.
  induction d as [|[k v] d IH]; intros H; [exists []; split; constructor|]. destruct IH as (js & F1 & F2); [intros k' v' Hin; eapply H; right; exact Hin|].
  destruct (H k v (or_introl eq_refl)) as (w & Rw & Pw). exists ((k, w) :: js). split; constructor; try assumption; [|split; [reflexivity|assumption]]. cbn [fst snd]. auto.
Qed.
Lemma type_string_ok tn : tn <> TUnknown -> exists ts, type_string tn = Ok ts.
Proof. intros H. destruct tn; try (eexists; reflexivity). contradiction. Qed.
Lemma again_keys {A B} (R : A -> B -> Prop) (d : dict A) (e : dict B) : Forall2 (again R) d e -> dkeys e = dkeys d.
Proof. apply Forall2_dkeys. Qed.
Lemma type_reads j T rows f t : jtype_ok j t -> exists t', jfield_reads (efield_of T rows (f, t)) (f, t') /\ type_again t t'.
Proof.
  intros [(tn & Et & Hn) Hl Hc Hx [ND Ha]]. destruct (type_string_ok tn Hn) as (ts & Ets). unfold jfield_reads, efield_of, type_name. cbn [fst snd ef_name ef_args ef_type]. rewrite Et in *. cbn [jname_string]. rewrite Ets.
  destruct (ty_args t) as [|a0 args] eqn:Ea.
  - exists (mkJT (JT tn) []). split; [|split; [cbn [ty_name]; congruence|rewrite Ea; constructor]]. split; [reflexivity|]. unfold jplain. rewrite (jname_type _ _ Ets).
    unfold argument in *. rewrite Ea in *.
    destruct tn; try reflexivity; try contradiction; exfalso;
      first [destruct (Hc eq_refl) as (c & E & _); discriminate E|destruct (Hx eq_refl) as (c & E); discriminate E|destruct Hl as (c & E & _); [simpl; auto|discriminate E]].
  - rewrite <- Ea in *. destruct (choose_sobjs (fun o w => jarg o = Ok w) arg_again (ty_args t)) as (js & F1 & F2); [intros k v Hin; apply scalar_arg; eapply Ha; exact Hin|].
    exists (mkJT (JT tn) js). split; [|split; [cbn [ty_name]; congruence|exact F2]]. split; [reflexivity|]. cbn [ty_name ty_args]. rewrite (jname_type _ _ Ets). split; [reflexivity|]. split; [exact F1|]. apply sobjs_value; assumption.
Qed.
Lemma argument_again t t' key x : type_again t t' -> argument t key x -> arg_name t' key = Ok x.
Proof.
  intros [_ F] H. unfold argument in H. destruct (dget_Forall2 (fun _ v w => arg_again v w) (ty_args t) (ty_args t') F key _ H) as (w & E & A). unfold arg_name. rewrite E.
  inversion A as [|? ? _ P]; subst. inversion P; subst. reflexivity.
Qed.
Lemma fields_read j T rows fs : (forall f t, In (f, t) fs -> jtype_ok j t) -> exists jfs, Forall2 jfield_reads (map (efield_of T rows) fs) jfs /\ Forall2 (again type_again) fs jfs.
Proof.
  induction fs as [|[f t] fs IH]; intros H; [exists []; split; constructor|]. destruct IH as (jfs & F1 & F2); [intros g u Hg; eapply H; right; exact Hg|].
  destruct (type_reads j T rows f t (H f t (or_introl eq_refl))) as (t' & R1 & R2). exists ((f, t') :: jfs). split; constructor; try assumption. split; [reflexivity|assumption].
Qed.

(** ** cells *)
Section Again.
Variables (j : jdoc) (T : dict (jtext * list (list N))).
Hypothesis D : jdoc_ok j.
Hypothesis C : jcompile j = Ok T.
Hypothesis RR : java_rereadable j.
Hypothesis Fparts : forall k parts, In (k, parts) (parts_of T) -> zlen parts < 2147483648.
Notation jtexts := (map jentry (parts_of T)).
Definition jsizes : dict nat := map (fun kl => (fst kl, length (snd (snd kl)))) (jd_layers j).

Lemma jsizes_dget x fs rows : dget (jd_layers j) x = Some (fs, rows) -> dget jsizes x = Some (length rows).
Proof. unfold jsizes. induction (jd_layers j) as [|[k l] ls IH]; cbn [map dget fst snd]; [discriminate|]. destruct (str_eqb x k); [intros H; injection H as ->; reflexivity|apply IH]. Qed.
Lemma has_node_size x p : has_node j x p -> exists n, dget jsizes x = Some n /\ (p < n)%nat /\ int_range (Z.of_nat p).
Proof.
  intros (fs & rows & E & L). exists (length rows). split; [eapply jsizes_dget; exact E|]. split; [assumption|]. apply dget_In in E. destruct (jk_fields j D _ _ _ E) as (_ & Z0 & _). unfold zlen, int_range in *. lia.
Qed.
Lemma has_nodes_target x ps n : dget jsizes x = Some n -> Forall (has_node j x) ps -> mapM (jtarget (Some n)) (map Z.of_nat ps) = Ok ps /\ Forall int_range (map Z.of_nat ps).
Proof.
  intros En F. induction F as [|p ps Hp F [I1 I2]]; [split; [reflexivity|constructor]|]. destruct (has_node_size x p Hp) as (n' & E & L & R). assert (n' = n) by congruence. subst n'. cbn [map mapM].
  rewrite jtarget_ok by assumption. cbn [rbind]. rewrite I1. split; [reflexivity|constructor; assumption].
Qed.
Lemma entry_dget (ts : dict (list pystr)) c : dget (map jentry ts) c = match dget ts c with Some p => Some (utf16 (List.concat p), 0 :: unit_offsets 0 p) | None => None end.
Proof. induction ts as [|[k p] ts IH]; cbn [map jentry dget fst snd]; [reflexivity|]. destruct (str_eqb c k); [reflexivity|apply IH]. Qed.
Lemma jtexts_known c x : holds_text j c x -> exists xs, dget (parts_of T) c = Some xs /\ List.concat xs = x /\ dget jtexts c = Some (utf16 x, map (upos x) (seg_offsets 0 xs)) /\
    forall k fs rows row f ty a b, In (k, (fs, rows)) (jd_layers j) -> In row rows -> In (f, ty) fs -> dget row f = Some (JSpan c (upos x a) (upos x b)) -> 0 <= a <= zlen x -> 0 <= b <= zlen x ->
      forall p, p = a \/ p = b -> 0 <= number_of T c (upos x p) < 2147483648 /\ nth_error (seg_offsets 0 xs) (Z.to_nat (number_of T c (upos x p))) = Some p.
Proof.
  intros Hh. destruct (parts_known j T c x D C Hh) as (t & xs & _ & Ep & Ec & Hn). exists xs. split; [assumption|]. split; [assumption|]. split.
  - rewrite entry_dget, Ep, Ec. f_equal. f_equal. pose proof (unit_offsets_seg xs []) as U. change (zlen (utf16 [])) with 0 in U. change (zlen (@nil N)) with 0 in U. cbn [app] in U. rewrite Ec in U. rewrite U.
    assert (H : seg_offsets 0 xs = 0 :: tl (seg_offsets 0 xs)) by (destruct xs; reflexivity). rewrite H at 2. cbn [map]. rewrite upos_0. reflexivity.
  - intros k fs rows row f ty a b Hk Hr Hf Ev Ha Hb p Hp. destruct (Hn _ _ _ _ _ _ _ _ Hk Hr Hf Ev Ha Hb p Hp) as [Hi Ni]. split; [|assumption]. apply dget_In in Ep. apply Fparts in Ep. lia.
Qed.
Lemma key_ok t t' : jtype_ok j t -> type_again t t' -> exists key, jkey t' = Ok key /\ (ty_name t = JT TSpan -> argument t (s "context") key) /\ (ty_name t = JT TExt -> argument t (s "type") key).
Proof.
  intros K A. pose proof A as [En _]. unfold jkey. rewrite En. destruct (jt_known j t K) as (tn & Et & _). rewrite Et. destruct tn; try (exists []; split; [reflexivity|split; discriminate]).
  - destruct (jt_context j t K Et) as (c & Hc & _). exists c. split; [eapply argument_again; eassumption|]. split; [auto|discriminate].
  - destruct (jt_ext j t K Et) as (c & Hc). exists c. split; [eapply argument_again; eassumption|]. split; [discriminate|auto].
Qed.
Lemma cell_again k fs rows row f t t' tn key b : In (k, (fs, rows)) (jd_layers j) -> In row rows -> In (f, t) fs -> type_again t t' -> ty_name t = JT tn -> jkey t' = Ok key ->
  concatM pack (ocell T (is_span_field t) (dget row f)) = Ok b -> zlen b < 2147483648 ->
  exists o, (forall rest, jcell_opt jtexts tn key (b ++ rest) = Ok (o, rest)) /\ resolved jsizes t' o = Ok (dget row f).
Proof.
  intros Hk Hr Hf TA Et Ek Hb Sb. destruct (jk_fields j D k fs rows Hk) as (_ & _ & Hty). pose proof (Hty f t Hf) as K. destruct (key_ok t t' K TA) as (key' & Ek' & K1 & K2). rewrite Ek in Ek'. apply Ok_inj in Ek'. subst key'.
  pose proof TA as [En _]. destruct (dget row f) as [v|] eqn:Ev.
  2: { exists None. split; [|reflexivity]. unfold is_span_field in Hb. rewrite Et in Hb. intros rest. destruct tn; cbn [ocell] in Hb; try (apply one_inv in Hb; apply cell_nil; [discriminate|exact Hb]).
       apply two_inv in Hb. destruct Hb as (p & q & E1 & E2 & ->). rewrite <- app_assoc. unfold jcell_opt. rewrite (mu_try_nil_nil _ _ E1). cbn [rbind]. rewrite (mu_nil_pack _ _ E2). reflexivity. }
  cbn [ocell] in Hb. pose proof (jk_values j D k fs rows row f t v Hk Hr Hf Ev) as Ty. pose proof (RR k fs rows row f t v Hk Hr Hf Ev) as Rd.
  assert (Plain : forall x w, vcell T v = [x] -> is_ref t' = false -> python_value x -> x <> MNil -> w = v -> (forall b rest, pack x = Ok b -> zlen b < 2147483648 -> jcell jtexts tn key (b ++ rest) = Ok (w, rest)) ->
    exists o, (forall rest, jcell_opt jtexts tn key (b ++ rest) = Ok (o, rest)) /\ resolved jsizes t' o = Ok (Some v)).
  { intros x w Ex Er Px Nx -> Hc. rewrite Ex in Hb. apply one_inv in Hb. exists (Some v). split; [intros rest; eapply cell_some; eauto|]. unfold resolved. rewrite Er. reflexivity. }
  assert (Target : forall x, argument t (s "layer") x -> arg_name t' (s "layer") = Ok x) by (intros x; apply argument_again; assumption).
  inversion Ty as [i Ht Hi|i Ht Hi|d0 Ht Hd|b0 Ht|x Ht|x Ht Hx|y x Ht Hy Hx|c x p q Ht Hc Hh Hp Hq|x p Ht Ha Hn|x ps Ht Ha Hn|x p q Ht Ha Hpq Hn]; subst v; assert (tn_eq := Et); rewrite Ht in tn_eq; injection tn_eq as <-.
  - apply (Plain (MInt i) (JInt i)); try reflexivity; [unfold is_ref; rewrite En, Ht; reflexivity|constructor|discriminate|]. intros b' rest Hp _. cbn [jcell]. rewrite (mu_int_pack _ _ _ Hp) by assumption. reflexivity.
  - apply (Plain (MInt i) (JLong i)); try reflexivity; [unfold is_ref; rewrite En, Ht; reflexivity|constructor|discriminate|]. intros b' rest Hp _. cbn [jcell]. rewrite (mu_long_pack _ _ _ Hp) by assumption. reflexivity.
  - apply (Plain (MFloat d0) (JDouble d0)); try reflexivity; [unfold is_ref; rewrite En, Ht; reflexivity|constructor; assumption|discriminate|]. intros b' rest Hp _. cbn [jcell]. rewrite (mu_double_pack _ _ _ Hp) by assumption. reflexivity.
  - apply (Plain (MBool b0) (JBool b0)); try reflexivity; [unfold is_ref; rewrite En, Ht; reflexivity|constructor|discriminate|]. intros b' rest Hp _. cbn [jcell]. rewrite (mu_bool_pack _ _ _ Hp). reflexivity.
  - apply (Plain (MStr x) (JStr x)); try reflexivity; [unfold is_ref; rewrite En, Ht; reflexivity|constructor|discriminate|]. intros b' rest Hp Hs. cbn [jcell]. rewrite (mu_string_pack _ _ _ Hp Hs). reflexivity.
  - discriminate Rd.
  - apply (Plain (MBin x) (JExt y x)); try reflexivity; [unfold is_ref; rewrite En, Ht; reflexivity|constructor; assumption|discriminate|]. intros b' rest Hp Hs. cbn [jcell].
    rewrite (mu_value_pack (MBin x) b' rest) by (try constructor; assumption). cbn [rbind]. assert (key = y) by (pose proof (K2 Ht) as K2'; unfold argument in *; congruence). subst key. reflexivity.
  - (* span *)
    assert (key = c) by (pose proof (K1 Ht) as K1'; unfold argument in *; congruence). subst key. destruct (jtexts_known c x Hh) as (xs & _ & _ & Ex & Hn). cbn [vcell] in Hb. apply two_inv in Hb. destruct Hb as (b1 & b2 & E1 & E2 & ->).
    destruct (Hn _ _ _ _ _ _ _ _ Hk Hr Hf Ev ltac:(lia) ltac:(lia) p (or_introl eq_refl)) as [R1 N1]. destruct (Hn _ _ _ _ _ _ _ _ Hk Hr Hf Ev ltac:(lia) ltac:(lia) q (or_intror eq_refl)) as [R2 N2].
    exists (Some (JSpan c (upos x p) (upos x q))). split; [|unfold resolved, is_ref; rewrite En, Ht; reflexivity]. intros rest. rewrite <- app_assoc. eapply cell_some; [|exact E1|discriminate|]; [constructor|]. cbn [jcell].
    rewrite (mu_int_pack _ _ _ E1) by (unfold int_range; lia). cbn [rbind]. rewrite (mu_int_pack _ _ _ E2) by (unfold int_range; lia). cbn [rbind]. rewrite Ex. unfold java_get.
    destruct (Z.leb_spec 0 (number_of T c (upos x p))); [|lia]. rewrite nth_error_map, N1. cbn [option_map rbind]. destruct (Z.leb_spec 0 (number_of T c (upos x q))); [|lia]. rewrite nth_error_map, N2. reflexivity.
  - destruct (has_node_size x p Hn) as (n & Es & Lp & Rp). cbn [vcell] in Hb. apply one_inv in Hb. exists (Some (JInt (Z.of_nat p))). split.
    + intros rest. eapply cell_some; [|exact Hb|discriminate|]; [constructor|]. cbn [jcell]. rewrite (mu_int_pack _ _ _ Hb) by assumption. reflexivity.
    + unfold resolved, is_ref. rewrite En, Ht, (Target x Ha). cbn [rbind jreplace]. rewrite Es, jtarget_ok by assumption. reflexivity.
  - destruct ps as [|p0 ps]; [discriminate Rd|]. pose proof Hn as Hn'. inversion Hn' as [|? ? Hp0 _]; subst. destruct (has_node_size x p0 Hp0) as (n & Es & _). destruct (has_nodes_target x (p0 :: ps) n Es Hn) as [M1 M2].
    cbn [vcell] in Hb. apply one_inv in Hb. exists (Some (JHold (map Z.of_nat (p0 :: ps)))). split.
    + intros rest. eapply cell_some; [|exact Hb|discriminate|]; [constructor; apply pv_ints|]. cbn [jcell]. pose proof (arr_short _ _ Hb Sb) as Rs. destruct (arr_inv _ _ Hb) as (hd & b' & Hh & E & ->).
      rewrite <- app_assoc, (mu_array_pack _ _ _ Rs Hh). cbn [rbind]. unfold zlen. rewrite Nat2Z.id, map_length. rewrite (jread_ints_pack _ _ _ E M2). reflexivity.
    + unfold resolved, is_ref. rewrite En, Ht, (Target x Ha). cbn [rbind jreplace]. rewrite Es. cbn [map] in *. rewrite M1. reflexivity.
  - destruct (has_node_size x q Hn) as (n & Es & Lq & Rq). assert (Lp : (p < n)%nat) by lia. unfold int_range in Rq. cbn [vcell] in Hb. apply one_inv in Hb. exists (Some (JHoldSpan (Z.of_nat p) (Z.of_nat q))). split.
    + intros rest. eapply cell_some; [|exact Hb|discriminate|]; [constructor; repeat constructor|]. cbn [jcell]. pose proof (arr_short _ _ Hb Sb) as Rs. destruct (arr_inv _ _ Hb) as (hd & b' & Hh & E & ->).
      rewrite <- app_assoc, (mu_array_pack _ _ _ Rs Hh). cbn [rbind]. change (zlen [MInt (Z.of_nat p); MInt (Z.of_nat q - Z.of_nat p)] =? 2) with true. cbn [negb].
      apply two_inv in E. destruct E as (b1 & b2 & E1 & E2 & ->). rewrite <- app_assoc, (mu_int_pack _ _ _ E1) by (unfold int_range; lia). cbn [rbind]. rewrite (mu_int_pack _ _ _ E2) by (unfold int_range; lia). cbn [rbind].
      rewrite int_add_ok by (unfold int_range; lia). replace (Z.of_nat q - Z.of_nat p + Z.of_nat p) with (Z.of_nat q) by lia. reflexivity.
    + unfold resolved, is_ref. rewrite En, Ht, (Target x Ha). cbn [rbind jreplace]. rewrite Es, jtarget_ok by assumption. cbn [rbind]. rewrite jtarget_ok by assumption. cbn [rbind]. destruct (Nat.leb_spec p q); [reflexivity|lia].
Qed.
Lemma cells_again texts tn key (P : nat -> option jv -> Prop) sp f rows : forall start b,
  (forall i row b, nth_error rows i = Some row -> concatM pack (ocell T sp (dget row f)) = Ok b -> zlen b < 2147483648 ->
    exists o, (forall rest, jcell_opt texts tn key (b ++ rest) = Ok (o, rest)) /\ P (start + i)%nat o) ->
  concatM pack (flat_map (fun row => ocell T sp (dget row f)) rows) = Ok b -> zlen b < 2147483648 ->
  exists os, (forall rest, jcells texts tn key (length rows) (b ++ rest) = Ok (os, rest)) /\ Forall2 P (seq start (length rows)) os.
Proof.
  induction rows as [|row rows IH]; intros start b H Hb Sb; cbn [flat_map] in Hb.
  - apply Ok_inj in Hb. subst b. exists []. split; [reflexivity|constructor].
  - apply concatM_app in Hb. destruct Hb as (b1 & b2 & E1 & E2 & ->). destruct (H 0%nat row b1 eq_refl E1 (short_l _ _ Sb)) as (o & Ho & Po). rewrite Nat.add_0_r in Po.
    destruct (IH (Datatypes.S start) b2) as (os & Hos & Fos); [|exact E2|exact (short_r _ _ Sb)|].
    + intros i r b Hi. replace (Datatypes.S start + i)%nat with (start + Datatypes.S i)%nat by lia. apply (H (Datatypes.S i) r b). exact Hi.
    + exists (o :: os). split; [|constructor; assumption]. intros rest. cbn [length jcells]. rewrite <- app_assoc, Ho. cbn [rbind]. rewrite Hos. reflexivity.
Qed.
Definition again_slot (rows : list (dict jv)) (f : pystr) (t' : jdtype) (p : nat) (o : option jv) : Prop :=
  exists row, nth_error rows p = Some row /\ resolved jsizes t' o = Ok (dget row f).
Lemma column_again k fs rows f t t' : In (k, (fs, rows)) (jd_layers j) -> In (f, t) fs -> type_again t t' ->
  column_reads jtexts (seq 0 (length rows)) (again_slot rows) (efield_of T rows (f, t)) (f, t').
Proof.
  intros Hk Hf TA. destruct (jk_fields j D k fs rows Hk) as (_ & _ & Hty). pose proof (Hty f t Hf) as K. destruct (jt_known j t K) as (tn & Et & _). destruct (key_ok t t' K TA) as (key & Ek & _).
  exists key, tn. cbn [fst snd]. split; [rewrite (proj1 TA); exact Et|]. split; [assumption|]. intros b Hb Sb. unfold efield_of in Hb. cbn [ef_col fst snd] in Hb. rewrite seq_length.
  eapply cells_again; [|exact Hb|exact Sb]. intros i row b' Hi Hb' Sb'. destruct (cell_again k fs rows row f t t' tn key b' Hk (nth_error_In _ _ Hi) Hf TA Et Ek Hb' Sb') as (o & Ho & Ro). exists o. split; [assumption|]. exists row. auto.
Qed.

(** ** layers *)
Definition rows_again (rows : list (dict jv)) (jfs : dict jdtype) (nodes : list (dict jv)) : Prop :=
  length nodes = length rows /\
  forall p r, nth_error nodes p = Some r -> (forall f, ~ In f (dkeys jfs) -> dget r f = None) /\ (forall f t', In (f, t') jfs -> again_slot rows f t' p (dget r f)).
Lemma layer_reread k fs rows jfs b : In (k, (fs, rows)) (jd_layers j) -> Forall2 (again type_again) fs jfs ->
  section (layer_objs (elayer_of T (k, (fs, rows)))) = Ok b -> zlen b < 2147483648 -> exists nodes, (forall rest, jread_layer jtexts jfs (b ++ rest) = Ok (nodes, rest)) /\ rows_again rows jfs nodes.
Proof.
  intros Hk ST Hb Sb. destruct (jk_fields j D k fs rows Hk) as (ND & Sm & _). destruct (section_inv _ _ Hb) as (nb & body & kk & Hn & Hbody & -> & ->). unfold layer_objs in Hbody. apply pack_all_cons in Hbody. destruct Hbody as (p1 & p2 & E1 & E2 & ->).
  cbn [elayer_of el_num el_fields fst snd] in E1, E2. pose proof (short_r _ _ Sb) as Sbody. pose proof (short_r _ _ Sbody) as S2.
  assert (FC : Forall2 (column_reads jtexts (seq 0 (length rows)) (again_slot rows)) (map (efield_of T rows) fs) jfs).
  { assert (G : forall fs0 jfs0, Forall2 (again type_again) fs0 jfs0 -> incl fs0 fs -> Forall2 (column_reads jtexts (seq 0 (length rows)) (again_slot rows)) (map (efield_of T rows) fs0) jfs0).
    { clear - Hk C D RR Fparts. intros fs0 jfs0 F. induction F as [|[f t] [f' t'] fs0 jfs0 [H1 H2] F IH]; intros I; cbn [map]; [constructor|]. cbn [fst snd] in *. subst f'. constructor; [|apply IH; intros x Hx; apply I; right; exact Hx].
      eapply column_again; [exact Hk|apply I; left; reflexivity|exact H2]. }
    apply G; [exact ST|apply incl_refl]. }
  destruct (columns_java jtexts (seq 0 (length rows)) (again_slot rows) _ jfs (repeat [] (length rows)) p2 FC) as (nodes & Hr & Ln & Hp); [| | |exact E2|exact S2|].
  - rewrite (again_keys _ _ _ ST). assumption.
  - rewrite repeat_length, seq_length. reflexivity.
  - intros r f Hin _. apply repeat_spec in Hin. subst r. reflexivity.
  - rewrite seq_length in Ln. exists nodes. split.
    + intros rest. unfold jread_layer. rewrite <- !app_assoc. rewrite (mu_int_pack _ _ _ Hn) by (pose proof (zlen_nonneg (p1 ++ p2)); unfold int_range; lia). cbn [rbind].
      rewrite (mu_int_pack _ _ _ E1) by (unfold zlen, int_range in *; lia). cbn [rbind]. destruct (Z.ltb_spec (zlen rows) 0); [unfold zlen in *; lia|].
      unfold zlen. rewrite Nat2Z.id. apply Hr.
    + split; [exact Ln|]. intros p r Er. assert (Lp : (p < length rows)%nat) by (rewrite <- Ln; apply nth_error_Some; congruence).
      destruct (Hp p p [] ) as (r' & Er' & K1 & K2).
      * rewrite (nth_error_nth' _ 0%nat) by (rewrite seq_length; exact Lp). rewrite seq_nth by exact Lp. reflexivity.
      * rewrite nth_error_repeat by exact Lp. reflexivity.
      * assert (r' = r) by congruence. subst r'. split; [intros f Hf; rewrite K1 by assumption; reflexivity|assumption].
Qed.
Lemma layers_reread ls : forall sch b, incl ls (jd_layers j) -> Forall2 (again (fun l jfs => Forall2 (again type_again) (fst l) jfs)) ls sch ->
  concatM (fun l => section (layer_objs l)) (map (elayer_of T) ls) = Ok b -> zlen b < 2147483648 ->
  exists rows, (forall rest, jread_layers jtexts sch (b ++ rest) = Ok (rows, rest)) /\
    Forall2 (again (fun l m => Forall2 (again type_again) (fst l) (fst m) /\ rows_again (snd l) (fst m) (snd m))) ls rows.
Proof.
  induction ls as [|[k [fs rw]] ls IH]; intros sch b I Fs Hb Sb; inversion Fs as [|? [k' jfs] ? sch' [Hk ST] Fs']; subst; cbn [fst snd map] in *.
  - apply Ok_inj in Hb. subst b. exists []. split; [reflexivity|constructor].
  - apply concatM_cons in Hb. destruct Hb as (b1 & b2 & E1 & E2 & ->). destruct (layer_reread k fs rw jfs b1 (I _ (or_introl eq_refl)) ST E1 (short_l _ _ Sb)) as (nodes & Hn & Rn).
    destruct (IH sch' b2 (fun x Hx => I x (or_intror Hx)) Fs' E2 (short_r _ _ Sb)) as (rows & Hr & Fr). exists ((k, (jfs, nodes)) :: rows). split.
    + intros rest. cbn [jread_layers]. rewrite <- app_assoc, Hn. cbn [rbind]. rewrite Hr. cbn [rbind]. subst k'. reflexivity.
    + constructor; [|assumption]. split; [reflexivity|]. cbn [fst snd]. auto.
Qed.
Lemma again_In {A B} (R : A -> B -> Prop) (d : dict A) (e : dict B) k w : Forall2 (again R) d e -> In (k, w) e -> exists v, In (k, v) d /\ R v w.
Proof.
  induction 1 as [|[a v] [b w'] d e [H1 H2] F IH]; intros Hin; [destruct Hin|]. cbn [fst snd] in *. destruct Hin as [Hin|Hin]; [injection Hin as -> ->; subst a; exists v; split; [left; reflexivity|assumption]|].
  destruct (IH Hin) as (v' & I & J). exists v'. split; [right|]; assumption.
Qed.
Lemma resolve_again k fs rows jfs nodes : In (k, (fs, rows)) (jd_layers j) -> Forall2 (again type_again) fs jfs -> rows_again rows jfs nodes ->
  exists nodes', jresolve jsizes jfs nodes = Ok nodes' /\ layer_again (fs, rows) (jfs, nodes').
Proof.
  intros Hk ST [Ln Hr]. destruct (jk_fields j D k fs rows Hk) as (NDf & _ & Hty). assert (Keys : dkeys jfs = dkeys fs) by (eapply again_keys; exact ST). assert (ND : NoDup (dkeys jfs)) by (rewrite Keys; assumption).
  destruct (resolve_ok jsizes jfs nodes ND) as (nodes' & En & Fn).
  - intros f t' Hin Href. destruct (again_In _ _ _ _ _ ST Hin) as (t & Ht & TA). pose proof (Hty f t Ht) as K. unfold is_ref in Href. rewrite (proj1 TA) in Href.
    destruct (jt_layer j t K) as (x & Hx & _); [destruct (ty_name t) as [|[]|]; try discriminate; simpl; auto|]. exists x. eapply argument_again; eassumption.
  - intros r f t' Hin Hf. apply In_nth_error in Hin. destruct Hin as [p Hp]. destruct (Hr p r Hp) as [_ K2]. destruct (K2 f t' Hf) as (row & _ & Ro). eauto.
  - exists nodes'. split; [assumption|]. split; [exact ST|]. cbn [fst snd]. apply Forall2_by_nth; [rewrite <- (Forall2_length _ _ _ Fn); congruence|].
    intros p row r' Hrow Hr'. assert (Lp : (p < length nodes)%nat) by (rewrite Ln; apply nth_error_Some; congruence). destruct (nth_error nodes p) as [r|] eqn:Er; [|apply nth_error_None in Er; lia].
    destruct (Forall2_nth _ _ _ _ _ Fn Er) as (r1 & Er1 & M1 & M2). assert (r1 = r') by congruence. subst r1. destruct (Hr p r Er) as [K1 K2]. split.
    + intros f t Ht. assert (Hd : exists t', In (f, t') jfs).
      { apply dget_In in Ht. apply (in_map fst) in Ht. change (In f (dkeys fs)) in Ht. rewrite <- Keys in Ht. apply in_map_iff in Ht. destruct Ht as ([f' t'] & <- & Hin). exists t'. exact Hin. }
      destruct Hd as [t' Hin]. destruct (K2 f t' Hin) as (row' & Erow & Ro). assert (row' = row) by congruence. subst row'. rewrite (M1 f t' Hin) in Ro. apply Ok_inj in Ro. exact Ro.
    + intros f Hf. rewrite <- Keys. destruct (in_dec (list_eq_dec N.eq_dec) f (dkeys jfs)) as [I|I]; [assumption|]. exfalso. specialize (M2 f I). rewrite (K1 f I) in M2.
      apply dmem_In in Hf. unfold dmem in Hf. rewrite M2 in Hf. discriminate.
Qed.
End Again.

(** ** the document *)
Lemma apart j : jdoc_ok j -> spans_apart j.
Proof.
  intros D k fs rows row f t c a b Hk Hr Hf Ev. pose proof (jk_values j D k fs rows row f t _ Hk Hr Hf Ev) as Ty. inversion Ty as [| | | | | | |? ? ? ? Ht| | |]; subst. unfold is_span_field. rewrite Ht. reflexivity.
Qed.
Lemma schema_reread j T ls : jdoc_ok j -> incl ls (jd_layers j) -> exists sch, Forall2 jlayer_reads (map (elayer_of T) ls) sch /\ Forall2 (again (fun l jfs => Forall2 (again type_again) (fst l) jfs)) ls sch.
Proof.
  intros D. induction ls as [|[k [fs rows]] ls IH]; intros I; [exists []; split; constructor|]. destruct IH as (sch & F1 & F2); [intros x Hx; apply I; right; exact Hx|].
  destruct (jk_fields j D k fs rows (I _ (or_introl eq_refl))) as (ND & _ & Hty). destruct (fields_read j T rows fs Hty) as (jfs & G1 & G2). exists ((k, jfs) :: sch). split; constructor; try assumption.
  - split; [reflexivity|]. split; [exact G1|]. cbn [snd]. rewrite (again_keys _ _ _ G2). assumption.
  - split; [reflexivity|exact G2].
Qed.
(** java_decode with the bytes that are left *)
Definition java_body (bs : list N) : res (jdoc * list N) :=
  let* (header, r) := mu_payload 4 bs in
  if negb (list_eqb N.eqb header magic) then Err IOError else
  let* (props, r1) := jread_props r in
  let* (sch, r2) := jread_schema r1 in
  let* (texts, r3) := jread_texts r2 in
  let* (layers, r4) := jread_layers texts sch r3 in
  let sizes := map (fun kl => (fst kl, length (snd (snd kl)))) layers in
  let* ls := mapM (fun kl => let* ns := jresolve sizes (fst (snd kl)) (snd (snd kl)) in Ok (fst kl, (fst (snd kl), ns))) layers in
  Ok (mkJDoc props (map (fun kt => (fst kt, fst (snd kt))) texts) ls, r4).
Lemma java_decode_body bs : java_decode bs = let* (j, _) := java_body bs in Ok j.
Proof.
  unfold java_decode, java_body. destruct (mu_payload 4 bs) as [[header r]|]; [|reflexivity]. cbn [rbind]. destruct (negb _); [reflexivity|].
  destruct (jread_props r) as [[props r1]|]; [|reflexivity]. cbn [rbind]. destruct (jread_schema r1) as [[sch r2]|]; [|reflexivity]. cbn [rbind].
  destruct (jread_texts r2) as [[texts r3]|]; [|reflexivity]. cbn [rbind]. destruct (jread_layers texts sch r3) as [[ls r4]|]; [|reflexivity]. cbn [rbind]. cbv zeta.
  match goal with |- rbind ?m _ = _ => destruct m; reflexivity end.
Qed.
Theorem java_body_again j bytes rest : jdoc_ok j -> java_rereadable j -> java_encode j = Ok bytes -> exists k, java_body (bytes ++ rest) = Ok (k, rest) /\ doc_again j k.
Proof.
  intros D RR H. destruct (java_layout j bytes (proj2 (jk_props j D)) (apart j D) H) as (T & C & L & Sb). clear H.
  destruct (layout_inv _ _ L) as (n1 & k1 & b1 & sc & n2 & k2 & b2 & bl & H1 & -> & H2 & H3 & H4 & -> & H5 & H6 & ->). clear L. cbn [edoc_of ed_props ed_texts ed_layers] in *.
  pose proof (short_r _ _ Sb) as S0. pose proof (short_r _ _ S0) as S1. pose proof (short_l _ _ S1) as Sb1. pose proof (short_r _ _ S1) as S2. pose proof (short_l _ _ S2) as Ssc. pose proof (short_r _ _ S2) as S3.
  pose proof (short_r _ _ S3) as S4. pose proof (short_l _ _ S4) as Sb2. pose proof (short_r _ _ S4) as Sbl.
  pose proof (parts_short _ _ H5 Sb2) as Hparts. destruct (schema_reread j T (jd_layers j) D (incl_refl _)) as (sch & Fs1 & Fs2).
  destruct (layers_reread j T D C RR Hparts (jd_layers j) sch bl (incl_refl _) Fs2 H6 Sbl) as (rows & Hrows & Frows).
  destruct (jk_props j D) as [NDp Hp]. destruct (choose_sobjs java_prop prop_again (jd_props j)) as (js & Fj1 & Fj2); [intros k v Hin; apply scalar_prop; eapply Hp; exact Hin|].
  assert (Sz : map (fun kl : pystr * (dict jdtype * list (dict jv)) => (fst kl, length (snd (snd kl)))) rows = jsizes j).
  { unfold jsizes. clear - Frows. induction Frows as [|[k [l1 l2]] [k' [m1 m2]] a b (A1 & _ & [A2 _]) F IH]; [reflexivity|]. cbn [map fst snd] in *. rewrite IH, A2, A1. reflexivity. }
  assert (Rs : exists ls, mapM (fun kl : pystr * (dict jdtype * list (dict jv)) => let* ns := jresolve (jsizes j) (fst (snd kl)) (snd (snd kl)) in Ok (fst kl, (fst (snd kl), ns))) rows = Ok ls /\
    Forall2 (again layer_again) (jd_layers j) ls).
  { assert (G : forall ls0 rows, incl ls0 (jd_layers j) -> Forall2 (again (fun l m => Forall2 (again type_again) (fst l) (fst m) /\ rows_again j (snd l) (fst m) (snd m))) ls0 rows ->
      exists ls, mapM (fun kl : pystr * (dict jdtype * list (dict jv)) => let* ns := jresolve (jsizes j) (fst (snd kl)) (snd (snd kl)) in Ok (fst kl, (fst (snd kl), ns))) rows = Ok ls /\ Forall2 (again layer_again) ls0 ls).
    { clear - D. induction ls0 as [|[k [fs rw]] ls0 IH]; intros rows I Fr; inversion Fr as [|? [k' [jfs ns]] ? rows' (A1 & A2 & A3) Fr']; subst; cbn [fst snd] in *; [exists []; split; [reflexivity|constructor]|].
      destruct (resolve_again j D k fs rw jfs ns (I _ (or_introl eq_refl)) A2 A3) as (ns' & En & J). destruct (IH rows' (fun x Hx => I x (or_intror Hx)) Fr') as (ls & El & Fl). exists ((k, (jfs, ns')) :: ls). split.
      - cbn [mapM fst snd]. rewrite En. cbn [rbind]. rewrite El. cbn [rbind]. subst k'. reflexivity.
      - constructor; [|assumption]. split; [reflexivity|exact J]. }
    apply G; [apply incl_refl|exact Frows]. }
  destruct Rs as (ls & El & Fls). exists (mkJDoc js (map (fun kt => (fst kt, fst (snd kt))) (map jentry (parts_of T))) ls). split.
  - unfold java_body. rewrite <- !app_assoc. unfold mu_payload. rewrite (take_app 4 magic) by reflexivity.
    cbn [rbind]. change (negb (list_eqb N.eqb magic magic)) with false. cbv iota.
    rewrite (jread_props_pack (sobjs (jd_props j)) js n1 b1 _ Fj1 (sobjs_value _ NDp Hp) H1 H2 Sb1). cbn [rbind].
    rewrite (jread_schema_pack _ sch sc _ H3 Ssc Fs1) by (rewrite map_map; apply (jk_layers j D)). cbn [rbind].
    rewrite (jread_texts_pack (parts_of T) n2 b2 _ ltac:(rewrite (parts_keys j T D C); apply (jk_texts j D)) H4 H5 Sb2). cbn [rbind]. rewrite Hrows. cbn [rbind]. cbv zeta. rewrite Sz, El. reflexivity.
  - split; cbn [jd_props jd_texts jd_layers]; [exact Fj2| |exact Fls]. rewrite map_map. cbn [jentry fst snd]. pose proof (compiled j T D C) as F. unfold parts_of. rewrite map_map. cbn [fst snd]. clear - F.
    induction F as [|[c [t p]] [c' u] T ts (E1 & x & xs & [_ Sx] & E2 & E3 & E4 & _) F IH]; [reflexivity|]. cbn [map fst snd] in *. subst p u. rewrite from_units_parts by (rewrite E4; exact Sx). rewrite E4, IH, E1. reflexivity.
Qed.
Theorem java_again j bytes rest : jdoc_ok j -> java_rereadable j -> java_encode j = Ok bytes -> exists k, java_decode (bytes ++ rest) = Ok k /\ doc_again j k.
Proof. intros D RR H. destruct (java_body_again j bytes rest D RR H) as (k & E & A). exists k. split; [rewrite java_decode_body, E; reflexivity|exact A]. Qed.
