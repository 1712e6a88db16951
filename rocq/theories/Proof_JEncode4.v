(** The Python port reads what the Java port wrote. *)
From Verif Require Import PyBase PyBaseFacts Model_Text Model_Heap Model_Layer Model_Types Model_Msgpack Model_Document Model_Codec Model_JUnits Model_JLayer Model_JStream Model_JText Model_JCodec Model_JEncode
  Spec_Layer Spec_Types Spec_Msgpack Spec_Document Spec_Codec Spec_JText Spec_JUnits Spec_JCodec Spec_JEncode
  Proof_Heap Proof_Layer Proof_Layer2 Proof_Layer3 Proof_History Proof_Layer4 Proof_Types
  Proof_Text Proof_Msgpack Proof_Document Proof_Layout Proof_Codec Proof_Codec2 Proof_JText Proof_JText2 Proof_JText3 Proof_JUnits Proof_JCodec Proof_JCodec2 Proof_JEncode Proof_JEncode2 Proof_JEncode3.
Local Open Scope Z_scope.
Local Arguments s : simpl never.

(** ** types *)
Definition sval (v : jv) : value :=
  match v with JBool b => VBool b | JInt i | JLong i => VInt i | JDouble b => VFloat b | JStr x => VStr x | JBin x => VBytes x | _ => VNone end.
Definition ptype (t : jdtype) : dtype :=
  mkDT KBase (match ty_name t with JT tn => tn | _ => TUnknown end) (map (fun kv => (fst kv, sval (snd kv))) (ty_args t)).
Definition pfields (fs : dict jdtype) : dict dtype := map (fun ft => (fst ft, ptype (snd ft))) fs.
Definition pschema (j : jdoc) : list (pystr * dict dtype) := map (fun kl => (fst kl, pfields (fst (snd kl)))) (jd_layers j).
Lemma dkeys_pfields fs : dkeys (pfields fs) = dkeys fs.
Proof. unfold pfields, dkeys. rewrite map_map. reflexivity. Qed.
Lemma based_pfields fs : based (pfields fs) = pfields fs.
Proof. unfold based, pfields. rewrite map_map. reflexivity. Qed.
Lemma dget_pfields fs f : dget (pfields fs) f = match dget fs f with Some t => Some (ptype t) | None => None end.
Proof. unfold pfields. induction fs as [|[g t] fs IH]; cbn [map dget fst snd]; [reflexivity|]. destruct (str_eqb f g); [reflexivity|exact IH]. Qed.
Lemma sval_obj v : jscalar v -> obj_value (sobj v) = Ok (sval v).
Proof. intros H. destruct H; reflexivity. Qed.
Lemma sval_same v : jscalar v -> same_scalar v (sval v).
Proof. intros H. destruct H; constructor. Qed.
Lemma svals d : (forall k v, In (k, v) d -> jscalar v) -> dict_values (sobjs d) = Ok (map (fun kv => (fst kv, sval (snd kv))) d).
Proof.
  unfold dict_values, sobjs. induction d as [|[k v] d IH]; intros H; [reflexivity|]. cbn [map mapM fst snd]. rewrite (sval_obj v) by (eapply H; left; reflexivity). cbn [rbind].
  rewrite IH by (intros k' v' Hin; eapply H; right; exact Hin). reflexivity.
Qed.
Lemma ptype_field j T rows f t : jtype_ok j t -> field_reads (efield_of T rows (f, t)) (f, ptype t).
Proof.
  intros [(tn & Et & Hn) _ _ _ [ND Ha]]. destruct (type_string_ok tn Hn) as (ts & Ets). unfold field_reads, efield_of, type_name, ptype. cbn [fst snd ef_name ef_args ef_type dt_class dt_name dt_opts]. rewrite Et. cbn [jname_string]. rewrite Ets.
  split; [reflexivity|]. split; [reflexivity|]. split; [apply type_string_back; exact Ets|]. destruct (ty_args t) as [|a0 args] eqn:Ea; [reflexivity|]. rewrite <- Ea in *. split; [apply svals; exact Ha|apply sobjs_value; assumption].
Qed.
Lemma ptype_same j t : jtype_ok j t -> python_type t (ptype t).
Proof.
  intros [(tn & Et & _) _ _ _ [_ Ha]]. unfold ptype, python_type. rewrite Et. cbn [dt_class dt_name dt_opts]. split; [reflexivity|]. split; [reflexivity|]. clear Et. induction (ty_args t) as [|[k v] d IH]; [constructor|].
  cbn [map]. constructor; [split; [reflexivity|apply sval_same; eapply Ha; left; reflexivity]|]. apply IH. intros k' v' Hin. eapply Ha. right. exact Hin.
Qed.
Lemma ptype_name t key x : argument t key x -> opt_name (ptype t) key = Ok x.
Proof.
  unfold argument, opt_name, dgetE, ptype. cbn [dt_opts]. intros H. assert (E : dget (map (fun kv => (fst kv, sval (snd kv))) (ty_args t)) key = Some (VStr x)).
  { revert H. induction (ty_args t) as [|[k v] d IH]; cbn [map dget fst snd]; [discriminate|]. destruct (str_eqb key k); [intros H; injection H as ->; reflexivity|exact IH]. }
  rewrite E. reflexivity.
Qed.

(** ** cells *)
Inductive seen (R : pystr -> nat -> nid -> Prop) (tx : dict pystr) : option jv -> option value -> Prop :=
| se_absent : seen R tx None None
| se_scalar v w : same_scalar v w -> seen R tx (Some v) (Some w)
| se_span c x p q : dget tx c = Some x -> 0 <= p <= q -> q <= zlen x -> seen R tx (Some (JSpan c (upos x p) (upos x q))) (Some (VSpan c x p q))
| se_node x p n : R x p n -> seen R tx (Some (JNode x p)) (Some (VNode n))
| se_nodes x ps ns : Forall2 (R x) ps ns -> seen R tx (Some (JNodes x ps)) (Some (VNodeList (map Some ns)))
| se_nodespan x p q a b : R x p a -> R x q b -> seen R tx (Some (JNodeSpan x p q)) (Some (VNodeSpan a b)).
Lemma seen_sees h d (R : pystr -> nat -> nid -> Prop) o w : (forall x p n, R x p n -> node_no h d x p n) -> seen R (d_texts d) o w -> python_sees h d o w.
Proof.
  intros I H. destruct H as [|v w Hv|c x p q E1 E2 E3|x p n Hr|x ps ns Hr|x p q a b Hp Hq].
  - apply ps_absent.
  - apply ps_scalar; assumption.
  - apply ps_span; assumption.
  - apply ps_node; auto.
  - apply ps_nodes. induction Hr; constructor; auto.
  - apply ps_nodespan; auto.
Qed.
(** the cells of a row in a column *)
Definition cells_of (sp : bool) (col : list mobj) (p : nat) (c : list mobj) : Prop :=
  match c with
  | [x] => sp = false /\ nth_error col p = Some x
  | [x; y] => sp = true /\ nth_error col (2 * p) = Some x /\ nth_error col (2 * p + 1) = Some y
  | _ => False
  end.
Lemma flat_cells {A} (sp : bool) (g : A -> list mobj) rows : (forall r, In r rows -> length (g r) = if sp then 2%nat else 1%nat) ->
  forall p r, nth_error rows p = Some r -> cells_of sp (flat_map g rows) p (g r).
Proof.
  induction rows as [|r0 rows IH]; intros H [|p] r Hp; try discriminate; cbn [nth_error flat_map] in *.
  - injection Hp as ->. specialize (H r (or_introl eq_refl)). destruct (g r) as [|x [|y [|]]]; destruct sp; try discriminate; cbn; auto.
  - specialize (IH (fun r Hr => H r (or_intror Hr)) p r Hp). pose proof (H r0 (or_introl eq_refl)) as H0. pose proof (H r (or_intror (nth_error_In _ _ Hp))) as H1.
    destruct sp; destruct (g r0) as [|x0 [|y0 [|]]]; try discriminate; destruct (g r) as [|x [|y [|]]]; try discriminate; cbn [cells_of app] in *.
    + destruct IH as (_ & E1 & E2). split; [reflexivity|]. replace (2 * Datatypes.S p)%nat with (Datatypes.S (Datatypes.S (2 * p))) by lia.
      replace (Datatypes.S (Datatypes.S (2 * p)) + 1)%nat with (Datatypes.S (Datatypes.S (2 * p + 1))) by lia. cbn [nth_error]. auto.
    + destruct IH as (_ & E1). auto.
Qed.

Section Reads.
Variables (j : jdoc) (T : dict (jtext * list (list N))).
Hypothesis D : jdoc_ok j.
Hypothesis C : jcompile j = Ok T.
Hypothesis NX : no_extension j.
Notation ed := (edoc_of T j).
Notation texts := (map text_entry (parts_of T)).
Definition ptexts : dict pystr := map (fun kt => (fst kt, fst (snd kt))) texts.

Lemma texts_dget (ts : dict (list pystr)) c xs : dget ts c = Some xs -> dget (map text_entry ts) c = Some (List.concat xs, seg_offsets 0 xs).
Proof. induction ts as [|[k p] ts IH]; cbn [map dget text_entry fst snd]; [discriminate|]. destruct (str_eqb c k); [intros H; injection H as ->; reflexivity|exact IH]. Qed.
Lemma ptexts_dget c x xs : dget (parts_of T) c = Some xs -> List.concat xs = x -> dget ptexts c = Some x.
Proof.
  intros H E. unfold ptexts. apply texts_dget in H. revert H. generalize texts. intros q H. induction q as [|[k w] q IH]; cbn [map dget fst snd] in *; [discriminate|].
  destruct (str_eqb c k); [injection H as ->; f_equal; exact E|auto].
Qed.
Lemma ptexts_same : map (fun kt => (fst kt, utf16 (snd kt))) ptexts = jd_texts j.
Proof.
  unfold ptexts, parts_of. rewrite !map_map. cbn [fst snd text_entry]. pose proof (compiled j T D C) as F. clear - F.
  induction F as [|[c [t p]] [c' u] T ts (E1 & x & xs & [_ Sx] & E2 & E3 & E4 & _) F IH]; [reflexivity|]. cbn [map fst snd] in *. subst p u. rewrite from_units_parts by (rewrite E4; exact Sx). rewrite IH, E1. unfold join_segs. rewrite E4. reflexivity.
Qed.
Lemma ptexts_scalar c x : In (c, x) ptexts -> Forall scalar x.
Proof.
  unfold ptexts, parts_of. rewrite !map_map. cbn [fst snd text_entry]. pose proof (compiled j T D C) as F. clear - F.
  induction F as [|[c1 [t p]] [c' u] T ts (E1 & x1 & xs & [_ Sx] & E2 & E3 & E4 & _) F IH]; [intros []|]. cbn [map fst snd] in *. intros [X|X]; [|auto]. subst p. rewrite from_units_parts in X by (rewrite E4; exact Sx).
  injection X as <- <-. unfold join_segs. rewrite E4. exact Sx.
Qed.

Section Bases.
Variable bs : bases.
Hypothesis Hb : forall x fs rows, dget (jd_layers j) x = Some (fs, rows) -> exists first, dget bs x = Some (first, length rows).
Definition lies (x : pystr) (p : nat) (n : nid) : Prop := exists b, dget bs x = Some b /\ (p < snd b)%nat /\ n = node_at b p.
Lemma node_lies x p : has_node j x p -> exists b, dget bs x = Some b /\ (p < snd b)%nat.
Proof. intros (fs & rows & E & L). destruct (Hb x fs rows E) as [first Eb]. exists (first, length rows). auto. Qed.
Lemma target_b b p : (p < snd b)%nat -> target b (MInt (Z.of_nat p)) = Ok p.
Proof. destruct b as [first n]. apply target_pos. Qed.
Lemma nodes_lie x ps b : dget bs x = Some b -> Forall (has_node j x) ps -> mapM (target b) (map MInt (map Z.of_nat ps)) = Ok ps /\ Forall2 (lies x) ps (map (node_at b) ps).
Proof.
  intros Eb F. induction F as [|p ps Hp F [I1 I2]]; [split; [reflexivity|constructor]|]. destruct (node_lies x p Hp) as (b' & E & L). assert (b' = b) by congruence. subst b'. cbn [map mapM]. rewrite target_b by assumption. cbn [rbind]. rewrite I1.
  split; [reflexivity|]. constructor; [exists b; auto|assumption].
Qed.
Lemma layer_base t : jtype_ok j t -> In (ty_name t) [JT TNodeRef; JT TNodeRefMany; JT TNodeRefSpan] -> exists x b, opt_name (ptype t) (s "layer") = Ok x /\ argument t (s "layer") x /\ dget bs x = Some b.
Proof.
  intros K Hn. destruct (jt_layer j t K Hn) as (x & Hx & Hin). apply dmem_In in Hin. unfold dmem in Hin. destruct (dget (jd_layers j) x) as [[fs rows]|] eqn:E; [|discriminate]. destruct (Hb x fs rows E) as [first Eb].
  exists x, (first, length rows). split; [apply ptype_name; assumption|auto].
Qed.
Lemma ocell_len k fs rows row f t : In (k, (fs, rows)) (jd_layers j) -> In (f, t) fs -> In row rows -> length (ocell T (is_span_field t) (dget row f)) = if is_span_field t then 2%nat else 1%nat.
Proof.
  intros Hk Hf Hr. destruct (dget row f) as [v|] eqn:Ev; [|unfold ocell; destruct (is_span_field t); reflexivity]. cbn [ocell]. pose proof (jk_values j D k fs rows row f t v Hk Hr Hf Ev) as Ty. unfold is_span_field. destruct Ty as [? E|? E|? E|? E|? E|? E|? ? E|? ? ? ? E|? ? E|? ? E|? ? ? E]; rewrite E; reflexivity.
Qed.
Lemma ocell_pv k fs rows row f t : In (k, (fs, rows)) (jd_layers j) -> In (f, t) fs -> In row rows -> Forall python_value (ocell T (is_span_field t) (dget row f)).
Proof.
  intros Hk Hf Hr. destruct (dget row f) as [v|] eqn:Ev; [|unfold ocell; destruct (is_span_field t); repeat constructor]. cbn [ocell]. pose proof (jk_values j D k fs rows row f t v Hk Hr Hf Ev) as Ty.
  destruct Ty; cbn [vcell sobj]; repeat constructor; try assumption. apply pv_ints.
Qed.
Lemma cell_python k fs rows row f t p : In (k, (fs, rows)) (jd_layers j) -> In (f, t) fs -> nth_error rows p = Some row ->
  exists o, decode_cell texts bs (ptype t) (ef_col (efield_of T rows (f, t))) p = Ok o /\ seen lies ptexts (dget row f) o.
Proof.
  intros Hk Hf Hp. pose proof (nth_error_In _ _ Hp) as Hr. destruct (jk_fields j D k fs rows Hk) as (_ & _ & Hty). pose proof (Hty f t Hf) as K.
  assert (Hc : cells_of (is_span_field t) (ef_col (efield_of T rows (f, t))) p (ocell T (is_span_field t) (dget row f))).
  { unfold efield_of. cbn [ef_col fst snd]. apply (flat_cells (is_span_field t) (fun row => ocell T (is_span_field t) (dget row f)) rows); [|exact Hp]. intros r Hr'. eapply ocell_len; eassumption. }
  revert Hc. generalize (ef_col (efield_of T rows (f, t))). intros col Hc. pose proof (NX k fs rows f t Hk Hf) as NXt.
  destruct (jt_known j t K) as (tn & Et & Hn). unfold decode_cell. unfold ptype at 1. cbn [dt_name]. rewrite Et in *.
  destruct (dget row f) as [v|] eqn:Ev.
  2: { exists None. split; [|constructor]. unfold is_span_field in Hc. rewrite Et in Hc.
       destruct tn; cbn [ocell cells_of] in Hc; try contradiction; try (exfalso; apply NXt; reflexivity);
         try (destruct Hc as [_ Hc]; rewrite Hc; reflexivity);
         try (destruct (layer_base t K) as (x & b & E1 & _ & E2); [rewrite Et; simpl; auto|]; rewrite E1; cbn [rbind]; unfold dgetE; rewrite E2; cbn [rbind]; destruct Hc as [_ Hc]; rewrite Hc; reflexivity).
       destruct (jt_context j t K Et) as (c & Hcx & Hin). rewrite (ptype_name _ _ _ Hcx). cbn [rbind]. destruct Hc as (_ & E1 & E2). destruct (dget texts c) as [[? ?]|]; [|reflexivity]. rewrite E1, E2. reflexivity. }
  pose proof (jk_values j D k fs rows row f t v Hk Hr Hf Ev) as Ty. cbn [ocell] in Hc.
  inversion Ty as [i Ht Hi|i Ht Hi|d0 Ht Hd|b0 Ht|x Ht|x Ht Hx|y x Ht Hy Hx|c x a b Ht Hcx Hh Ha Hb'|x n Ht Hx Hnd|x ps Ht Hx Hnd|x a b Ht Hx Hab Hnd]; subst v; rewrite Et in Ht; injection Ht as ->; cbn [vcell sobj cells_of] in Hc;
    try (destruct Hc as [_ Hc]; rewrite Hc; cbn [obj_value rbind]; eexists; split; [reflexivity|]; apply se_scalar; constructor; fail).
  - exfalso. apply NXt. reflexivity.
  - (* span *)
    destruct Hc as (_ & E1 & E2). rewrite (ptype_name _ _ _ Hcx). cbn [rbind]. destruct (parts_known j T c x D C Hh) as (t0 & xs & _ & Ep & Ec & Hs). rewrite (texts_dget _ _ _ Ep). rewrite E1, E2, Ec.
    destruct (Hs _ _ _ _ _ _ _ _ Hk Hr Hf Ev ltac:(lia) ltac:(lia) a (or_introl eq_refl)) as [R1 N1]. destruct (Hs _ _ _ _ _ _ _ _ Hk Hr Hf Ev ltac:(lia) ltac:(lia) b (or_intror eq_refl)) as [R2 N2].
    unfold offset_at. cbn [as_num rbind]. destruct (Z.ltb_spec (number_of T c (upos x a)) 0); [lia|]. rewrite N1. cbn [rbind]. destruct (Z.ltb_spec (number_of T c (upos x b)) 0); [lia|]. rewrite N2. cbn [rbind].
    destruct (Z.leb_spec a b); [|lia]. eexists. split; [reflexivity|]. apply se_span; try lia. eapply ptexts_dget; eassumption.
  - destruct (layer_base t K) as (x' & b & E1 & Hx' & E2); [rewrite Et; simpl; auto|]. assert (x' = x) by (unfold argument in *; congruence). subst x'. rewrite E1. cbn [rbind]. unfold dgetE. rewrite E2. cbn [rbind].
    destruct (node_lies x n Hnd) as (b' & E3 & L). assert (b' = b) by congruence. subst b'. destruct Hc as [_ Hc]. rewrite Hc, target_b by assumption. cbn [rbind]. eexists. split; [reflexivity|]. apply se_node. exists b. auto.
  - destruct (layer_base t K) as (x' & b & E1 & Hx' & E2); [rewrite Et; simpl; auto|]. assert (x' = x) by (unfold argument in *; congruence). subst x'. rewrite E1. cbn [rbind]. unfold dgetE. rewrite E2. cbn [rbind].
    destruct (nodes_lie x ps b E2 Hnd) as [M1 M2]. destruct Hc as [_ Hc]. rewrite Hc, M1. cbn [rbind]. eexists. split; [reflexivity|]. rewrite <- (map_map (node_at b) Some). apply se_nodes. assumption.
  - destruct (layer_base t K) as (x' & b' & E1 & Hx' & E2); [rewrite Et; simpl; auto|]. assert (x' = x) by (unfold argument in *; congruence). subst x'. rewrite E1. cbn [rbind]. unfold dgetE. rewrite E2. cbn [rbind].
    destruct (node_lies x b Hnd) as (b1 & E3 & L). assert (b1 = b') by congruence. subst b1. assert (La : (a < snd b')%nat) by lia. destruct Hc as [_ Hc]. rewrite Hc. cbn [as_num rbind]. rewrite target_b by assumption. cbn [rbind].
    replace (Z.of_nat a + (Z.of_nat b - Z.of_nat a)) with (Z.of_nat b) by lia. rewrite target_b by assumption. cbn [rbind]. destruct (Nat.leb_spec a b); [|lia]. eexists. split; [reflexivity|]. apply se_nodespan; exists b'; auto.
Qed.
Lemma row_python k fs rows row p : In (k, (fs, rows)) (jd_layers j) -> nth_error rows p = Some row ->
  exists r, decode_row texts bs (pfields fs) (map ef_col (map (efield_of T rows) fs)) p = Ok r /\
    (forall f, In f (dkeys r) -> In f (dkeys fs)) /\ NoDup (dkeys r) /\ forall f t, dget fs f = Some t -> seen lies ptexts (dget row f) (dget r f).
Proof.
  intros Hk Hp. destruct (jk_fields j D k fs rows Hk) as (ND & _ & _).
  destruct (decode_row_ok texts bs p (fun f t o => seen lies ptexts (dget row f) o) (pfields fs) (map ef_col (map (efield_of T rows) fs))) as (r & Er & K1 & K2 & K3).
  - rewrite map_map. assert (G : forall fs0, incl fs0 fs -> Forall2 (fun ft col => exists o, decode_cell texts bs (base_type (snd ft)) col p = Ok o /\ seen lies ptexts (dget row (fst ft)) o) (pfields fs0) (map (fun ft => ef_col (efield_of T rows ft)) fs0)).
    { induction fs0 as [|[f t] fs0 IH]; intros I; [constructor|]. cbn [map pfields fst snd]. constructor; [|apply IH; intros z Hz; apply I; right; exact Hz].
      cbn [fst snd]. change (base_type (ptype t)) with (ptype t). eapply cell_python; [exact Hk|apply I; left; reflexivity|exact Hp]. }
    apply G. apply incl_refl.
  - rewrite dkeys_pfields. assumption.
  - exists r. rewrite based_pfields in Er. rewrite dkeys_pfields in K1. split; [assumption|]. split; [assumption|]. split; [assumption|]. intros f t Hf. apply (K3 f (ptype t)). rewrite dget_pfields, Hf. reflexivity.
Qed.
End Bases.
Lemma reads_python : Forall2 layer_reads (ed_layers ed) (pschema j).
Proof.
  cbn [edoc_of ed_layers]. unfold pschema. apply Forall2_by_nth; [rewrite !map_length; reflexivity|]. intros i el kf. rewrite !nth_error_map. destruct (nth_error (jd_layers j) i) as [[k [fs rows]]|] eqn:Ei; [|discriminate].
  intros H1 H2. injection H1 as <-. injection H2 as <-. apply nth_error_In in Ei. destruct (jk_fields j D k fs rows Ei) as (ND & _ & Hty). split; [reflexivity|]. cbn [elayer_of el_fields fst snd]. split; [|split].
  - apply Forall2_by_nth; [unfold pfields; rewrite !map_length; reflexivity|]. intros m ef ft. unfold pfields. rewrite !nth_error_map. destruct (nth_error fs m) as [[f t]|] eqn:Em; [|discriminate]. intros H1 H2. injection H1 as <-. injection H2 as <-.
    apply (ptype_field j). eapply Hty. eapply nth_error_In. exact Em.
  - rewrite dkeys_pfields. assumption.
  - apply Forall_forall. intros ef Hin. apply in_map_iff in Hin. destruct Hin as ([f t] & <- & Hf). unfold efield_of. cbn [ef_col fst snd]. apply Forall_forall. intros o Ho. apply in_flat_map in Ho. destruct Ho as (row & Hr & Ho).
    pose proof (ocell_pv k fs rows row f t Ei Hf Hr) as P. rewrite Forall_forall in P. auto.
Qed.
Lemma bases_python first : forall x fs rows, dget (jd_layers j) x = Some (fs, rows) -> exists f0, dget (layer_bases first (pschema j) (map fst (map layer_data (ed_layers ed)))) x = Some (f0, length rows).
Proof.
  cbn [edoc_of ed_layers]. unfold pschema. revert first. induction (jd_layers j) as [|[k [fs0 rows0]] ls IH]; intros first x fs rows H; cbn [map dget layer_bases layer_data elayer_of el_num fst snd] in *; [discriminate|].
  destruct (str_eqb x k); [injection H as -> ->; exists first; unfold zlen; rewrite Nat2Z.id; reflexivity|]. eapply IH. exact H.
Qed.

Section Decode.
Variable h0 : heap.
Hypothesis W0 : wf h0.
Notation bs := (layer_bases (h_nnext h0) (pschema j) (map fst (map layer_data (ed_layers ed)))).
Lemma pschema_nth i k pf : nth_error (pschema j) i = Some (k, pf) -> exists fs rows, nth_error (jd_layers j) i = Some (k, (fs, rows)) /\ pf = pfields fs.
Proof. unfold pschema. rewrite nth_error_map. destruct (nth_error (jd_layers j) i) as [[k' [fs rows]]|]; simpl; [|discriminate]. intros H. injection H as <- <-. eauto. Qed.
Lemma pschema_len : length (map layer_data (ed_layers ed)) = length (pschema j).
Proof. cbn [edoc_of ed_layers]. unfold pschema. rewrite !map_length. reflexivity. Qed.
Lemma data_nth i k fs rows : nth_error (jd_layers j) i = Some (k, (fs, rows)) -> nth_error (map layer_data (ed_layers ed)) i = Some (zlen rows, map ef_col (map (efield_of T rows) fs)).
Proof. intros H. cbn [edoc_of ed_layers]. rewrite !nth_error_map, H. reflexivity. Qed.
Lemma pcheck_ok : check_fields bs (pschema j) = Ok tt.
Proof.
  assert (Q : forall ft, In ft (flat_map snd (pschema j)) -> check_field bs ft = Ok tt).
  { intros [f t'] Hin. apply in_flat_map in Hin. destruct Hin as ([k pf] & Hs & Hf). apply In_nth_error in Hs. destruct Hs as [i Hs]. destruct (pschema_nth i k pf Hs) as (fs & rows & Hi & ->). cbn [snd] in Hf.
    unfold pfields in Hf. apply in_map_iff in Hf. destruct Hf as ([f' t] & Hf & Hin). injection Hf as <- <-. apply nth_error_In in Hi. cbn [fst snd] in *. destruct (jk_fields j D k fs rows Hi) as (_ & _ & Hty). pose proof (Hty f' t Hin) as K.
    assert (L : In (ty_name t) [JT TNodeRef; JT TNodeRefMany; JT TNodeRefSpan] -> (let* c := opt_name (ptype t) (s "layer") in let* _ := dgetE bs c in Ok tt) = Ok tt).
    { intros Hn. destruct (layer_base bs (bases_python (h_nnext h0)) t K Hn) as (x & b & E1 & _ & E2). rewrite E1. cbn [rbind]. unfold dgetE. rewrite E2. reflexivity. }
    destruct (jt_known j t K) as (tn & Et & Hn). unfold check_field. cbn [snd]. unfold ptype at 1. cbn [dt_name]. rewrite Et. destruct tn; try reflexivity; try (apply L; rewrite Et; simpl; auto).
    - destruct (jt_context j t K Et) as (c & Hc & _). rewrite (ptype_name _ _ _ Hc). reflexivity.
    - exfalso. exact (NX k fs rows f' t Hi Hin Et). }
  unfold check_fields. assert (M : exists r, mapM (check_field bs) (flat_map snd (pschema j)) = Ok r).
  { revert Q. generalize (flat_map snd (pschema j)). intros q Q. induction q as [|x q IH]; [exists []; reflexivity|]. cbn [mapM]. rewrite (Q x) by (left; reflexivity). cbn [rbind].
    destruct IH as [r ->]; [intros y Hy; apply Q; right; assumption|]. eexists. reflexivity. }
  destruct M as [r ->]. reflexivity.
Qed.
Lemma pbuild_ok : exists h2 d', build h0 (read_as ed (pschema j)) = (h2, Ok d').
Proof.
  unfold build, read_as. cbn [pd_texts pd_schema pd_layers pd_props]. rewrite pcheck_ok. cbn [rbind].
  destruct (build_nodes_ok (map text_entry (ed_texts ed)) bs (pschema j) (h_lnext h0) (map layer_data (ed_layers ed)) pschema_len) as [nodes ->]; [|eexists; eexists; reflexivity].
  intros i k pf nc q Hi Hd Hq. destruct (pschema_nth i k pf Hi) as (fs & rows & Hl & ->). rewrite (data_nth i k fs rows Hl) in Hd. injection Hd as <-. cbn [fst snd] in *. unfold zlen in Hq. rewrite Nat2Z.id in Hq.
  destruct (nth_error rows q) as [row|] eqn:Er; [|apply nth_error_None in Er; lia]. destruct (row_python bs (bases_python (h_nnext h0)) k fs rows row q (nth_error_In _ _ Hl) Er) as (r & E1 & _). exists r. exact E1.
Qed.
Theorem python_build : exists h2 d', build h0 (read_as ed (pschema j)) = (h2, Ok d') /\ python_doc j h2 d' /\ wf h2 /\ untouched h0 h2 /\ known h2 d' /\ (wf_keys h0 -> wf_keys h2).
Proof.
  destruct pbuild_ok as (h2 & d' & B). exists h2, d'. split; [assumption|]. pose proof pschema_len as SL.
  assert (KK : forall k fs, In (k, fs) (pschema j) -> NoDup (dkeys fs)).
  { intros k pf Hin. apply In_nth_error in Hin. destruct Hin as [i Hi]. destruct (pschema_nth i k pf Hi) as (fs & rows & Hl & ->). rewrite dkeys_pfields. apply nth_error_In in Hl. apply (jk_fields j D k fs rows Hl). }
  pose proof (built_wf h0 (read_as ed (pschema j)) h2 d' W0 B SL KK) as W2.
  assert (Keys : dkeys (d_layers d') = dkeys (jd_layers j)).
  { destruct (build_inv _ _ _ _ B) as (nodes & _ & _ & ->). cbn [read_as pd_schema d_layers]. unfold dkeys, pschema. rewrite !map_length, map_map. cbn [fst].
    rewrite <- (map_length fst (jd_layers j)). apply map_fst_combine. }
  assert (ND' : NoDup (dkeys (d_layers d'))) by (rewrite Keys; apply (jk_layers j D)).
  assert (At : forall i k fs rows, nth_error (jd_layers j) i = Some (k, (fs, rows)) -> exists f0, nth_error bs i = Some (k, (f0, length rows)) /\
     nth_error (d_layers d') i = Some (k, (h_lnext h0 + i)%nat) /\ l_nameof h2 (h_lnext h0 + i)%nat = k /\
     l_fields (h_layer h2 (h_lnext h0 + i)%nat) = pfields fs /\
     (forall q n, at_pos h2 (h_lnext h0 + i)%nat q n <-> (q < length rows)%nat /\ n = (f0 + q)%nat) /\
     forall q row, nth_error rows q = Some row -> (forall f, In f (dkeys (n_fieldsof h2 (f0 + q)%nat)) -> In f (dkeys fs)) /\ NoDup (dkeys (n_fieldsof h2 (f0 + q)%nat)) /\
       forall f t, dget fs f = Some t -> seen (lies bs) ptexts (dget row f) (dget (n_fieldsof h2 (f0 + q)%nat) f)).
  { intros i k fs rows Hi. assert (Hs : nth_error (pd_schema (read_as ed (pschema j))) i = Some (k, pfields fs)) by (cbn [read_as pd_schema]; unfold pschema; rewrite nth_error_map, Hi; reflexivity).
    destruct (built_layer h0 _ h2 d' B SL i _ _ Hs) as (nc & f0 & A1 & A2 & A3 & A4 & A5 & A6 & A7).
    pose proof (built_at_pos h0 _ h2 d' W0 B SL KK i _ _ nc f0 Hs A1 A3) as Hat.
    cbn [read_as pd_schema pd_layers pd_texts] in *. rewrite (data_nth i k fs rows Hi) in A1. injection A1 as <-. cbn [fst snd] in *. unfold zlen in *. rewrite Nat2Z.id in *.
    exists f0. split; [assumption|]. split; [assumption|]. split; [unfold l_nameof; rewrite A4; reflexivity|]. split; [rewrite A4; reflexivity|]. split; [assumption|].
    intros q row Hq. assert (Hlt : (q < length rows)%nat) by (apply nth_error_Some; congruence). destruct (A7 q Hlt) as (r & Er & En).
    destruct (row_python bs (bases_python (h_nnext h0)) k fs rows row q (nth_error_In _ _ Hi) Hq) as (r' & Er' & R1 & R2 & R3). cbn [edoc_of ed_texts] in Er. rewrite Er' in Er. apply Ok_inj in Er. subst r'.
    unfold n_fieldsof. rewrite En. cbn [n_fields]. auto. }
  assert (TT : d_texts d' = ptexts) by (destruct (build_inv _ _ _ _ B) as (nodes & _ & _ & ->); reflexivity).
  assert (Mv : forall x p n, lies bs x p n -> node_no h2 d' x p n).
  { intros x p n (b & Eb & Lp & ->). assert (Kb : dkeys bs = dkeys (jd_layers j)).
    { pose proof SL as SL'. clear - SL'. unfold pschema in *. revert SL'. generalize (h_nnext h0), (map layer_data (ed_layers ed)). induction (jd_layers j) as [|[k l] ls IH]; intros a [|nc data] SL'; try discriminate; [reflexivity|].
      cbn [map layer_bases dkeys fst] in *. f_equal. apply IH. simpl in SL'. lia. }
    assert (Hin : In x (dkeys (jd_layers j))) by (rewrite <- Kb; apply dmem_In; unfold dmem; rewrite Eb; reflexivity). apply in_map_iff in Hin. destruct Hin as ([x' [fs rows]] & Ex & Hin). cbn [fst] in Ex. subst x'.
    apply In_nth_error in Hin. destruct Hin as [i Hi]. destruct (At i x fs rows Hi) as (f0 & B1 & B2 & _ & _ & B5 & _).
    assert (Eb' : dget bs x = Some (f0, length rows)) by (eapply nth_dget; [rewrite Kb; apply (jk_layers j D)|exact B1]). assert (b = (f0, length rows)) by congruence. subst b.
    exists (h_lnext h0 + i)%nat. split; [eapply nth_dget; eassumption|]. apply B5. cbn [snd] in Lp. split; [assumption|reflexivity]. }
  assert (Ln : length (d_layers d') = length (jd_layers j)) by (rewrite <- (map_length fst (d_layers d')), <- (map_length fst (jd_layers j)); unfold dkeys in Keys; rewrite Keys; reflexivity).
  split; [|split; [assumption|split; [apply (built_untouched h0 _ h2 d' B SL)|]]].
  - split.
    + destruct (build_inv _ _ _ _ B) as (nodes & _ & _ & ->). exists (sobjs (jd_props j)). split; [reflexivity|]. destruct (jk_props j D) as [_ Hp]. revert Hp. unfold sobjs. induction (jd_props j) as [|[k v] ps IH]; intros Hp; [constructor|]. cbn [map].
      constructor; [split; [reflexivity|]|apply IH; intros k' v' Hin; eapply Hp; right; exact Hin]. cbn [fst snd]. pose proof (Hp k v (or_introl eq_refl)) as Hv. destruct Hv; constructor.
    + rewrite TT. apply ptexts_same.
    + rewrite TT. intros c x. apply ptexts_scalar.
    + apply Forall2_by_nth; [symmetry; assumption|]. intros i [k [fs rows]] [k' l'] Hi Hi'. destruct (At i k fs rows Hi) as (f0 & B1 & B2 & B3 & B4 & B5 & B6). rewrite B2 in Hi'. injection Hi' as <- <-. cbn [fst snd].
      split; [reflexivity|]. split; [assumption|]. split; cbn [fst snd].
      * rewrite B4. apply nth_error_In in Hi. destruct (jk_fields j D k fs rows Hi) as (_ & _ & Hty). clear - Hty. unfold pfields. induction fs as [|[f t] fs IH]; [constructor|]. cbn [map].
        constructor; [split; [reflexivity|apply (ptype_same j); eapply Hty; left; reflexivity]|]. apply IH. intros g u Hg. eapply Hty. right. exact Hg.
      * apply Nat.le_antisymm.
        -- destruct (Nat.le_gt_cases (length (layer_iter h2 (h_lnext h0 + i)%nat)) (length rows)) as [Hle|Hgt]; [assumption|]. exfalso.
           rewrite (iter_wf _ _ W2), map_length in Hgt. destruct (nth_error (content h2 (h_lnext h0 + i)%nat) (length rows)) as [n|] eqn:En; [|apply nth_error_None in En; lia].
           assert (Hat : at_pos h2 (h_lnext h0 + i)%nat (length rows) n) by (unfold at_pos; rewrite (iter_wf _ _ W2), nth_error_map, En; reflexivity). apply B5 in Hat. lia.
        -- destruct (length rows) as [|m] eqn:Em; [lia|]. assert (Hat : at_pos h2 (h_lnext h0 + i)%nat m (f0 + m)%nat) by (apply B5; split; [lia|reflexivity]).
           unfold at_pos in Hat. assert (m < length (layer_iter h2 (h_lnext h0 + i)%nat))%nat by (apply nth_error_Some; congruence). lia.
      * intros p n row f t Hp Hrow Hf. apply B5 in Hp. destruct Hp as [_ ->]. eapply seen_sees; [exact Mv|]. rewrite TT. exact (proj2 (proj2 (B6 p row Hrow)) f t Hf).
      * intros p n f Hp Hf. apply B5 in Hp. destruct Hp as [Hlt ->]. destruct (nth_error rows p) as [row|] eqn:Er; [|apply nth_error_None in Er; lia]. apply (B6 p row Er). assumption.
  - split.
    + intros k l Hin. apply In_nth_error in Hin. destruct Hin as [i Hi]. rewrite (built_lnext h0 _ h2 d' B SL).
      assert (Hk : (i < length (jd_layers j))%nat) by (rewrite <- Ln; apply nth_error_Some; congruence).
      destruct (nth_error (jd_layers j) i) as [[k' [fs rows]]|] eqn:Ei; [|apply nth_error_None in Ei; lia]. destruct (At i k' fs rows Ei) as (f0 & _ & B2 & _). rewrite B2 in Hi. injection Hi as <- <-.
      cbn [read_as pd_schema]. unfold pschema. rewrite map_length. lia.
    + intros WK n. assert (Dn : (h_nnext h0 <= n < h_nnext h2)%nat \/ ~ (h_nnext h0 <= n < h_nnext h2)%nat) by lia. destruct Dn as [Dn|Dn].
      * destruct (built_new_node h0 _ h2 d' B SL n Dn) as (i & k & pf & nc & f0 & q & A1 & A2 & A3 & A4 & ->). cbn [read_as pd_schema pd_layers] in *.
        destruct (pschema_nth i k pf A1) as (fs & rows & Hl & ->). destruct (At i k fs rows Hl) as (f0' & B1 & _ & _ & _ & _ & B6). rewrite B1 in A3. injection A3 as -> A3. rewrite <- A3 in A4.
        destruct (nth_error rows q) as [row|] eqn:Er; [|apply nth_error_None in Er; lia]. apply (B6 q row Er).
      * unfold n_fieldsof. rewrite (built_old_node h0 _ h2 d' B SL n Dn). apply WK.
Qed.
End Decode.
End Reads.

Theorem python_reads j bytes rest h0 : jdoc_ok j -> no_extension j -> java_encode j = Ok bytes -> wf h0 ->
  exists h2 d, msgpack_decode h0 (bytes ++ rest) = (h2, Ok d) /\ python_doc j h2 d /\ wf h2 /\ untouched h0 h2 /\ known h2 d /\ (wf_keys h0 -> wf_keys h2).
Proof.
  intros D NX H W0. destruct (java_layout j bytes (proj2 (jk_props j D)) (apart j D) H) as (T & C & L & _). destruct (jk_props j D) as [NDp Hp]. unfold msgpack_decode. rewrite (parse_layout (edoc_of T j) (pschema j) bytes rest L).
  - apply python_build; assumption.
  - cbn [edoc_of ed_props]. apply sobjs_value; assumption.
  - apply reads_python; assumption.
  - cbn [edoc_of ed_layers]. rewrite map_map. apply (jk_layers j D).
  - cbn [edoc_of ed_texts]. rewrite (parts_keys j T D C). apply (jk_texts j D).
Qed.
