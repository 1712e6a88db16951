(** Documents within the limits of the MessagePack format can be written. *)
From Verif Require Import PyBase PyBaseFacts Model_Text Model_Heap Model_Layer Model_Types Model_Msgpack Model_Document Model_Codec
  Spec_Layer Spec_Types Spec_Msgpack Spec_Document Spec_Codec Proof_Heap Proof_Layer Proof_Layer2 Proof_Layer3 Proof_History Proof_Layer4 Proof_Types
  Proof_Text Proof_Msgpack Proof_Document Proof_Layout Proof_Codec Proof_Codec2 Proof_Codec3 Proof_Codec4.
Local Open Scope Z_scope.
Local Arguments s : simpl never.

(** ** strings *)
Lemma utf8_len_app a b : utf8_len (a ++ b) = utf8_len a + utf8_len b.
Proof. unfold utf8_len. induction a as [|c a IH]; simpl; [reflexivity|]. rewrite IH. lia. Qed.
Lemma utf8_width_pos c : 1 <= utf8_width c.
Proof. unfold utf8_width. destruct (N.ltb c 128); [lia|]. destruct (N.ltb c 2048); [lia|]. destruct (N.ltb c 65536); lia. Qed.
Lemma utf8_len_ge x : zlen x <= utf8_len x.
Proof. unfold zlen, utf8_len. induction x as [|c x IH]; [simpl; lia|]. cbn [List.length fold_right]. pose proof (utf8_width_pos c). lia. Qed.
Lemma segs_fit segs : str_fits (List.concat segs) -> Forall str_fits segs.
Proof.
  induction segs as [|x segs IH]; intros [F U]; [constructor|]. cbn [List.concat] in *. rewrite utf8_len_app in U. apply Forall_app in F. destruct F as [F1 F2].
  pose proof (utf8_len_ge x). pose proof (utf8_len_ge (List.concat segs)). pose proof (zlen_nonneg x). pose proof (zlen_nonneg (List.concat segs)).
  constructor; [split; [assumption|lia]|apply IH; split; [assumption|lia]].
Qed.
Lemma sorted_length a : forall lo hi, StronglySorted Z.lt a -> Forall (fun o => lo <= o <= hi) a -> zlen a <= Z.max 0 (hi - lo + 1).
Proof.
  unfold zlen. induction a as [|x a IH]; intros lo hi S F; cbn [List.length]; [lia|]. inversion S as [|? ? S' F']; subst. inversion F as [|? ? Hx Fr]; subst.
  assert (G : Forall (fun o => x + 1 <= o <= hi) a).
  { rewrite Forall_forall in *. intros o Ho. pose proof (F' o Ho). pose proof (Fr o Ho). lia. }
  pose proof (IH (x + 1) hi S' G). lia.
Qed.
Lemma seg_offsets_length segs : forall p, length (seg_offsets p segs) = S (length segs).
Proof. induction segs as [|x segs IH]; intros p; [reflexivity|]. cbn [seg_offsets List.length]. rewrite IH. reflexivity. Qed.

Lemma fits_int i : - 9223372036854775808 <= i < 18446744073709551616 -> fits (MInt i).
Proof. intros; constructor; assumption. Qed.
Lemma value_obj_fits v o : value_fits v -> value_obj v = Ok o -> fits o.
Proof. destruct v; intros F H; try discriminate; apply Ok_inj in H; subst o; constructor; exact F. Qed.

Lemma offset_id_bound offs : forall x i, offset_id offs x = Some i -> 0 <= i < zlen offs.
Proof.
  intros x i H. assert (Hin : In x offs).
  { revert i H. induction offs as [|y offs IH]; intros i H; simpl in H; [discriminate|]. destruct (Z.eqb_spec y x); [left; assumption|].
    destruct (offset_id offs x) as [j|]; [|discriminate]. right. eapply IH. reflexivity. }
  destruct (offset_id_nth offs x Hin) as (j & E & Hj). rewrite E in H. injection H as <-. assert (j < length offs)%nat by (apply nth_error_Some; congruence). unfold zlen. lia.
Qed.

Section Fits.
Variables (h : heap) (d : doc) (ex tv : bool) (h1 : heap) (ed : edoc).
Hypothesis D : doc_ok h d.
Hypothesis E : codec_encode h d ex tv = (h1, Ok ed).
Hypothesis F : doc_fits h d.

Lemma own_list_fits x ns is : (forall k l p n, In (k, l) (d_layers d) -> at_pos h1 l p n -> node_i h1 n = Ok (Z.of_nat p)) -> looks_same h h1 ->
  Forall (own_node h d x) ns -> mapM (elem_i h1) (map Some ns) = Ok is -> Forall fits (map MInt is) /\ length is = length ns.
Proof.
  intros P S Fo. revert is. induction Fo as [|n ns Hn Fo IH]; intros is H; cbn [map mapM elem_i] in H; [apply Ok_inj in H; subst is; split; [constructor|reflexivity]|].
  destruct (node_i h1 n) as [i|] eqn:Ei; [|discriminate]. cbn [rbind] in H. destruct (mapM (elem_i h1) (map Some ns)) as [r|]; [|discriminate]. cbn [rbind] in H. apply Ok_inj in H. subst is.
  destruct (IH r eq_refl) as [I1 I2]. cbn [map List.length]. rewrite I2. split; [|reflexivity]. constructor; [|assumption].
  destruct Hn as (l & p & El & Hp). assert (Ei' : node_i h1 n = Ok (Z.of_nat p)) by (eapply P; [apply dget_In; exact El|unfold at_pos; rewrite (same_iter _ _ S); exact Hp]).
  assert (i = Z.of_nat p) by congruence. subst i. apply fits_int. destruct (df_layer h d F x l (dget_In _ _ El)) as (_ & Hl & _).
  assert (p < length (layer_iter h l))%nat by (apply nth_error_Some; unfold at_pos in Hp; congruence). unfold zlen in Hl. lia.
Qed.
Lemma cell_fits offs k l n f t c : (forall k l p n, In (k, l) (d_layers d) -> at_pos h1 l p n -> node_i h1 n = Ok (Z.of_nat p)) -> looks_same h h1 -> wf h1 ->
  doc_node h d k l n -> dget (l_fields (h_layer h l)) f = Some t -> (forall x, targets_text t x -> zlen offs <= 4294967296) ->
  encode_cell h1 offs (dt_name t) (field_value h1 n f) = Ok c -> Forall fits c.
Proof.
  intros P S W1 Hn Hf Ho H. unfold field_value in H. rewrite (same_fields _ _ S) in H.
  assert (Hnil : encode_cell h1 offs (dt_name t) VNone = Ok c -> Forall fits c).
  { clear H. intros H. destruct (dt_name t); cbn [encode_cell] in H; try discriminate; apply Ok_inj in H; subst c; repeat constructor. }
  destruct (dget (n_fieldsof h n) f) as [v|] eqn:Ev; [|auto].
  pose proof (df_value h d F k l n f t v Hn Hf Ev) as Fv.
  destruct (do_values h d D k l n f v t Hn Ev Hf) as [Hns|i Hi|b Hi|b Ht Hb|b Ht|x Ht|x Ht Hb|cx txt a b Ht Hx Ha Hb|x m Ht Hx Hm|x ns Ht Hx Hm|x a b Ht Hx Hm|x a b Ht Hx Hm].
  - auto.
  - simpl in Hi. destruct Hi as [Hi|[Hi|[]]]; rewrite <- Hi in H; cbn [encode_cell] in H; apply Ok_inj in H; subst c; repeat constructor; simpl in Fv; lia.
  - simpl in Hi. destruct Hi as [Hi|[Hi|[]]]; rewrite <- Hi in H; cbn [encode_cell] in H; apply Ok_inj in H; subst c; repeat constructor; destruct b; lia.
  - rewrite Ht in H. cbn [encode_cell] in H. apply Ok_inj in H. subst c. repeat constructor.
  - rewrite Ht in H. cbn [encode_cell] in H. apply Ok_inj in H. subst c. repeat constructor.
  - rewrite Ht in H. cbn [encode_cell] in H. apply Ok_inj in H. subst c. repeat constructor; apply Fv.
  - rewrite Ht in H. cbn [encode_cell] in H. apply Ok_inj in H. subst c. repeat constructor. exact Fv.
  - pose proof (Ho _ Ht) as Hl. destruct Ht as [Ht _]. rewrite Ht in H. cbn [encode_cell] in H. destruct (offset_id offs a) as [ia|] eqn:Ea; [|discriminate]. destruct (offset_id offs b) as [ib|] eqn:Eb; [|discriminate].
    apply Ok_inj in H. subst c. apply offset_id_bound in Ea, Eb. repeat constructor; lia.
  - rewrite Ht in H. cbn [encode_cell] in H. destruct (node_i h1 m) as [i|] eqn:Ei; [|discriminate]. cbn [rbind] in H. apply Ok_inj in H. subst c.
    destruct (own_list_fits x [m] [i] P S) as [G _]; [constructor; [assumption|constructor]|cbn [map mapM elem_i]; rewrite Ei; reflexivity|]. exact G.
  - rewrite Ht in H. cbn [encode_cell value_elems rbind] in H. destruct ns as [|m ns]; [apply Ok_inj in H; subst c; repeat constructor|]. 
    destruct (mapM (elem_i h1) (map Some (m :: ns))) as [is|] eqn:Eis; cbn [map] in *; try rewrite Eis in H; [|discriminate]. cbn [rbind] in H. apply Ok_inj in H. subst c.
    destruct (own_list_fits x (m :: ns) is P S Hm Eis) as [G1 G2]. constructor; [|constructor]. constructor; [|assumption]. simpl in Fv. unfold zlen in *. rewrite map_length, G2. cbn [List.length] in *. rewrite map_length in Fv. lia.
  - destruct (own_span_iter h d (do_wf h d D) x a b Hm) as (ns & En & Hne & Fo).
    assert (Ln : zlen ns < 4294967296).
    { destruct Hm as (l' & p & q & El & Pa & Pb & Hpq). destruct (df_layer h d F x l' (dget_In _ _ El)) as (_ & Hl & _). unfold at_pos in Pa, Pb. rewrite (iter_wf _ _ (do_wf h d D)) in Pa, Pb, Hl.
      apply nth_map_some in Pa, Pb. destruct (nodespan_spec h l' p q a b (wf_layers h (do_wf h d D) l') Pa Pb Hpq) as (_ & E' & _). rewrite E' in En. apply Ok_inj in En. subst ns.
      unfold run, zlen in *. rewrite firstn_length, skipn_length. rewrite map_length in Hl. lia. }
    rewrite Ht in H. cbn [encode_cell value_elems] in H. rewrite (same_nodespan h h1 a b ns (do_wf h d D) W1 S En) in H. cbn [rbind] in H.
    destruct ns as [|m ns]; [congruence|]. destruct (mapM (elem_i h1) (map Some (m :: ns))) as [is|] eqn:Eis; cbn [map] in *; try rewrite Eis in H; [|discriminate]. cbn [rbind] in H. apply Ok_inj in H. subst c.
    destruct (own_list_fits x (m :: ns) is P S Fo Eis) as [G1 G2]. constructor; [|constructor]. constructor; [|assumption]. unfold zlen in *. rewrite map_length, G2. assumption.
  - destruct Hm as (l' & p & q & El & Pa & Pb & Hpq). destruct (df_layer h d F x l' (dget_In _ _ El)) as (_ & Hl & _).
    assert (Ea : node_i h1 a = Ok (Z.of_nat p)) by (eapply P; [apply dget_In; exact El|unfold at_pos; rewrite (same_iter _ _ S); exact Pa]).
    assert (Eb : node_i h1 b = Ok (Z.of_nat q)) by (eapply P; [apply dget_In; exact El|unfold at_pos; rewrite (same_iter _ _ S); exact Pb]).
    assert (Lp : (p < length (layer_iter h l'))%nat) by (apply nth_error_Some; unfold at_pos in Pa; congruence).
    assert (Lq : (q < length (layer_iter h l'))%nat) by (apply nth_error_Some; unfold at_pos in Pb; congruence).
    rewrite Ht in H. cbn [encode_cell value_left value_right rbind elem_i] in H. rewrite Ea, Eb in H. cbn [rbind] in H. apply Ok_inj in H. subst c. unfold zlen in Hl.
    constructor; [|constructor]. constructor; [unfold zlen; simpl; lia|]. repeat constructor; lia.
Qed.
Lemma column_len h' offs t f ns : forall col, encode_column h' offs (dt_name t) f ns = Ok col -> zlen col <= 2 * zlen ns.
Proof.
  unfold zlen. induction ns as [|[n|] ns IH]; intros col H; cbn [encode_column] in H; [apply Ok_inj in H; subst; simpl; lia| |discriminate].
  destruct (encode_cell h' offs (dt_name t) _) as [c|] eqn:Ec; [|discriminate]. cbn [rbind] in H. destruct (encode_column h' offs (dt_name t) f ns) as [r|]; [|discriminate]. cbn [rbind] in H.
  apply Ok_inj in H. subst col. specialize (IH r eq_refl). rewrite app_length. destruct (encode_cell_width _ _ _ _ _ Ec) as [(x & -> & _)|(x & y & -> & _)]; cbn [List.length]; lia.
Qed.

(** all objects that are written *)
Definition section_short (os : list mobj) : Prop := forall b, pack_all os = Ok b -> zlen b < 18446744073709551616.
Definition sections_short : Prop :=
  section_short [ed_props ed] /\ section_short [texts_obj (ed_texts ed)] /\ Forall (fun el => section_short (layer_objs el)) (ed_layers ed).
Lemma pack_all_total os : Forall fits os -> exists b, pack_all os = Ok b.
Proof.
  unfold pack_all. induction 1 as [|o os Ho Fo IH]; cbn [concatM]; [eauto|]. destruct (proj2 (pack_fits o) Ho) as [p ->]. cbn [rbind]. destruct IH as [b ->]. cbn [rbind]. eauto.
Qed.
Lemma section_total os : Forall fits os -> section_short os -> exists b, section os = Ok b.
Proof.
  intros Fo Sh. unfold section. destruct (pack_all_total os Fo) as [b Eb]. rewrite Eb. cbn [rbind]. pose proof (Sh b Eb) as Hl. pose proof (zlen_nonneg b).
  destruct (proj2 (pack_fits (MInt (zlen b)))) as [n ->]; [constructor; lia|]. cbn [rbind]. eauto.
Qed.
Lemma field_fits offsets k l f t ef : compile h d ex tv = (h1, Ok offsets) -> In (k, l) (d_layers d) -> In (f, t) (l_fields (h_layer h l)) ->
  encode_field h1 offsets l f t = Ok ef -> Forall fits (field_objs ef) /\ fits (MArr (ef_col ef)).
Proof.
  intros Ec Hin Hf Hef. destruct (encode_field_inv _ _ _ _ _ _ Hef) as (En & Et & Ea & offs & Uo & Ecol). assert (Dc : declared h d k f t) by (exists l; auto).
  destruct (df_field h d F k f t Dc) as (Ff & Fo & Fov). destruct (compile_keeps h d ex tv h1 _ (do_wf h d D) (do_known h d D) Ec) as (W1 & S & P). split.
  - assert (Fts : str_fits (ef_type ef)) by (destruct (dt_name t); try discriminate; apply Ok_inj in Et; rewrite <- Et; (split; [apply Forall_forall; intros c Hc; cbv in Hc; repeat (destruct Hc as [<-|Hc]; [unfold scalar; lia|]); destruct Hc|vm_compute; reflexivity])).
    assert (Fn : str_fits (ef_name ef)) by (rewrite En; assumption). unfold field_objs. destruct (ef_args ef) as [a|]; [|repeat constructor; solve [apply Fts|apply Fn]].
    constructor; [constructor; assumption|]. constructor; [constructor|]. constructor; [constructor; assumption|]. constructor; [|constructor].
    revert Fo Fov Ea. generalize (dt_opts t). clear. intros o Fo Fov Ea. assert (G : map fst a = map fst o /\ Forall fits (map snd a)).
    { unfold dict_objs in Ea. apply mapM_Forall2 in Ea. clear Fo. induction Ea as [|[x v] [y w] o a Hv Fa IH]; [split; [reflexivity|constructor]|]. cbn [fst snd] in *.
      destruct (value_obj v) as [u|] eqn:Eu; [|discriminate]. cbn [rbind] in Hv. apply Ok_inj in Hv. injection Hv as <- <-. destruct IH as [I1 I2]; [intros; eapply Fov; right; eassumption|].
      cbn [map fst snd]. split; [congruence|]. constructor; [|assumption]. eapply value_obj_fits; [eapply Fov; left; reflexivity|eassumption]. }
    destruct G as [G1 G2]. constructor; [unfold zlen in *; rewrite <- (map_length fst), G1, map_length; assumption| |assumption]. rewrite G1. apply Forall_forall. intros x Hx.
    apply in_map_iff in Hx. destruct Hx as ([x' v] & <- & Hx). eapply Fov. eassumption.
  - assert (Hft : dget (l_fields (h_layer h l)) f = Some t) by (apply dget_nodup; [apply (wf_schema h (do_wf h d D))|assumption]).
    destruct (df_layer h d F k l Hin) as (_ & Hl & _). constructor.
    + pose proof (column_len _ _ _ _ _ _ Ecol) as Lc. rewrite (same_iter _ _ S) in Lc. lia.
    + apply Forall_forall. intros x Hx. destruct (column_nth _ _ _ _ _ _ Ecol) as [_ C2]. destruct (C2 x Hx) as (n & c & Hn & Hc & Hxc). rewrite (same_iter _ _ S) in Hn.
      assert (Fc : Forall fits c).
      { eapply (cell_fits offs k l n f t c (fun k l p n => P _ k l p n eq_refl) S W1 (conj Hin Hn) Hft); [|exact Hc].
        intros y Hy. destruct (refs_ok h d ex tv h1 ed E k f t Dc) as [_ RT]. pose proof (RT y Hy) as Hy'. apply dmem_In in Hy'. unfold dmem in Hy'. destruct (dget (d_texts d) y) as [txt|] eqn:Etx; [|discriminate].
        destruct (compile_offsets h d ex tv h1 offsets (do_wf h d D) (do_known h d D) Ec) as [_ Ho]. destruct (Ho y txt Etx) as (q & Eq & Hq). rewrite (Uo y Hy) in Eq. injection Eq as ->.
        destruct (df_text h d F y txt (dget_In _ _ Etx)) as [_ [_ Ht]]. pose proof (utf8_len_ge txt). pose proof (zlen_nonneg txt).
        assert (Hs : zlen (sorted_offsets txt q) <= Z.max 0 (zlen txt - 0 + 1)).
        { apply sorted_length; [apply sorted_offsets_sorted|]. apply Forall_forall. intros o Hoo. apply sorted_offsets_In in Hoo. destruct Hoo as [->|[->|Hoo]]; [lia|lia|].
          apply Hq in Hoo. eapply span_bounds; eassumption. }
        lia. }
      rewrite Forall_forall in Fc. auto.
Qed.
Lemma texts_fit : fits (texts_obj (ed_texts ed)).
Proof.
  destruct (codec_encode_inv _ _ _ _ _ _ E) as (offsets & Ec & Ft & _ & _).
  destruct (compile_offsets h d ex tv h1 offsets (do_wf h d D) (do_known h d D) Ec) as [_ Ho].
  assert (G : Forall2 (fun kt ke => fst ke = fst kt /\ str_fits (fst kt) /\ fits (MArr (map MStr (snd ke)))) (d_texts d) (ed_texts ed)).
  { eapply Forall2_impl'; [exact Ft|]. intros [k t] [k' sg] Hin (E1 & o & E2 & E3). cbn [fst snd] in *. subst k' sg. split; [reflexivity|].
    destruct (df_text h d F k t Hin) as [Fk Fx]. split; [assumption|]. pose proof (dget_nodup (d_texts d) k t (do_texts h d D) Hin) as Ek. destruct (Ho k t Ek) as (q & Eq & Hq).
    assert (o = sorted_offsets t q) by congruence. subst o.
    assert (Hb : Forall (fun o => 0 <= o <= zlen t) q) by (apply Forall_forall; intros z Hz; apply Hq in Hz; eapply span_bounds; eassumption).
    destruct (segmentation t q Hb) as [S1 S2].
    assert (Ls : zlen (sorted_offsets t q) <= Z.max 0 (zlen t - 0 + 1)).
    { apply sorted_length; [apply sorted_offsets_sorted|]. pose proof (zlen_nonneg t). apply Forall_forall. intros o Hoo. apply sorted_offsets_In in Hoo. destruct Hoo as [->|[->|Hoo]]; [lia|lia|].
      rewrite Forall_forall in Hb. apply Hb. assumption. }
    rewrite <- S2 in Ls. unfold zlen at 1 in Ls. rewrite seg_offsets_length in Ls. pose proof (utf8_len_ge t). pose proof (zlen_nonneg t). pose proof Fx as [_ Fu].
    constructor; [unfold zlen in *; rewrite map_length; lia|]. assert (Fs : Forall str_fits (text_compile t (sorted_offsets t q))) by (apply segs_fit; unfold join_segs in S1; rewrite S1; assumption).
    clear - Fs. induction Fs; constructor; [constructor; assumption|assumption]. }
  unfold texts_obj. constructor.
  - unfold zlen. rewrite map_length, <- (Forall2_length _ _ _ G). apply (df_texts h d F).
  - clear - G. induction G as [|[k t] [k' x] a b (H1 & H2 & H3) G IH]; constructor; [|assumption]. simpl in *. congruence.
  - clear - G. induction G as [|[k t] [k' x] a b (H1 & H2 & H3) G IH]; constructor; [|assumption]. exact H3.
Qed.
Theorem layout_total : sections_short -> exists bytes, layout ed = Ok bytes.
Proof.
  intros (S1 & S2 & S3). destruct (codec_encode_inv _ _ _ _ _ _ E) as (offsets & Ec & Ft & Fl & Ep). pose proof (fields_encoded h d ex tv h1 ed D offsets Ec Fl) as Ff.
  unfold layout. destruct (section_total [ed_props ed]) as [p ->]; [constructor; [rewrite Ep; apply (df_props h d F)|constructor]|assumption|]. cbn [rbind].
  assert (Fel : Forall (fun el => str_fits (el_name el) /\ zlen (el_fields el) < 4294967296 /\ Forall (fun ef => Forall fits (field_objs ef) /\ fits (MArr (ef_col ef))) (el_fields el) /\ fits (MInt (el_num el))) (ed_layers ed)).
  { destruct (compile_keeps h d ex tv h1 _ (do_wf h d D) (do_known h d D) Ec) as (W1 & S & _).
    assert (Hin : forall kl, In kl (d_layers d) -> In kl (d_layers d)) by auto. revert Ff Hin. generalize (ed_layers ed). generalize (d_layers d) at 1 2 as ls.
    intros ls els Ff Hin. induction Ff as [|[k l] el ls els (A1 & A2 & A3) Ff IH]; constructor; [|apply IH; intros; apply Hin; right; assumption]. cbn [fst snd] in *.
    assert (Hkl : In (k, l) (d_layers d)) by (apply Hin; left; reflexivity). destruct (df_layer h d F k l Hkl) as (B1 & B2 & B3). split; [congruence|]. split; [unfold zlen in *; rewrite <- (Forall2_length _ _ _ A3); assumption|]. split.
    - assert (Hff : forall ft, In ft (l_fields (h_layer h l)) -> In ft (l_fields (h_layer h l))) by auto. revert A3 Hff. generalize (l_fields (h_layer h l)) at 1 2 as fs. generalize (el_fields el). intros efs fs A3 Hff.
      induction A3 as [|[f t] ef fs efs Hef A3 IHf]; constructor; [|apply IHf; intros; apply Hff; right; assumption]. eapply field_fits; [exact Ec|exact Hkl|apply Hff; left; reflexivity|exact Hef].
    - rewrite A2. rewrite (ok_num _ _ (wf_layers h1 W1 l)). pose proof (zlen_nonneg (content h1 l)). rewrite <- (same_iter _ _ S), (iter_wf _ _ W1) in B2. unfold zlen in *. rewrite map_length in B2. constructor. lia. }
  assert (Esc : exists sc, pack_all (MArr (map (fun l => MStr (el_name l)) (ed_layers ed)) :: schema_objs (ed_layers ed)) = Ok sc).
  { apply pack_all_total. constructor.
    - constructor; [unfold zlen; rewrite map_length, <- (Forall2_length _ _ _ Fl); apply (df_layers h d F)|]. clear - Fel. induction Fel as [|el els (A & _) Fel IH]; constructor; [constructor; assumption|assumption].
    - unfold schema_objs. clear - Fel. induction Fel as [|el els (_ & A2 & A3 & _) Fel IH]; cbn [flat_map]; [constructor|]. constructor; [constructor; pose proof (zlen_nonneg (el_fields el)); lia|].
      apply Forall_app. split; [|assumption]. clear - A3. induction A3 as [|ef efs [B _] A3 IH]; cbn [flat_map]; [constructor|]. apply Forall_app. auto. }
  destruct Esc as [sc ->]. cbn [rbind]. destruct (section_total [texts_obj (ed_texts ed)]) as [tx ->]; [constructor; [apply texts_fit|constructor]|assumption|]. cbn [rbind].
  assert (El : exists ls, concatM (fun l => section (layer_objs l)) (ed_layers ed) = Ok ls).
  { clear - Fel S3. induction Fel as [|el els (_ & _ & A3 & A4) Fel IH]; cbn [concatM]; [eauto|]. inversion S3 as [|? ? Sh S3']; subst. destruct (section_total (layer_objs el)) as [b ->]; [|assumption|].
    - unfold layer_objs. constructor; [assumption|]. clear - A3. induction A3 as [|ef efs [_ B] A3 IH]; cbn [flat_map]; [constructor|]. constructor; [constructor|]. constructor; assumption.
    - cbn [rbind]. destruct (IH S3') as [ls ->]. cbn [rbind]. eauto. }
  destruct El as [ls ->]. cbn [rbind]. eauto.
Qed.
End Fits.
