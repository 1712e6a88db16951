(** The encoded document is the contents of the document. *)
From Verif Require Import PyBase PyBaseFacts Model_Text Model_Heap Model_Layer Model_Types Model_Msgpack Model_Document Model_Codec
  Spec_Layer Spec_Types Spec_Msgpack Spec_Document Spec_Codec Proof_Heap Proof_Layer Proof_Layer2 Proof_Layer3 Proof_History Proof_Layer4 Proof_Types
  Proof_Text Proof_Msgpack Proof_Document Proof_Layout Proof_Codec Proof_Codec2 Spec_Index Spec_Spell Proof_Spell2 Proof_Spell3 Spec_Contents.
Local Open Scope Z_scope.
Local Arguments s : simpl never.

(** ** texts *)
Lemma seg_nth ps : forall pos i x, nth_error (seg_offsets pos ps) i = Some x <-> (i <= length ps)%nat /\ x = pos + zlen (List.concat (firstn i ps)).
Proof.
  induction ps as [|p ps IH]; intros pos i x; destruct i as [|i]; cbn [seg_offsets nth_error length firstn List.concat].
  - unfold zlen. simpl. split; [intros [= <-]; lia|intros [_ ->]; f_equal; lia].
  - split; [destruct i; discriminate|intros [H _]; lia].
  - unfold zlen. simpl. split; [intros [= <-]; lia|intros [_ ->]; f_equal; lia].
  - rewrite IH. assert (E : zlen (p ++ List.concat (firstn i ps)) = zlen p + zlen (List.concat (firstn i ps))) by (unfold zlen; rewrite app_length; lia).
    rewrite E. split; intros [H1 H2]; split; lia.
Qed.
Lemma part_nth ps i x : part_at ps i x <-> nth_error (seg_offsets 0 ps) i = Some x.
Proof. rewrite seg_nth. unfold part_at. tauto. Qed.
Lemma seg_head ps pos : exists r, seg_offsets pos ps = pos :: r.
Proof. destruct ps; simpl; eauto. Qed.
Lemma seg_nonempty ps : forall pos, StronglySorted Z.lt (seg_offsets pos ps) -> forall p, In p ps -> p <> [].
Proof.
  induction ps as [|q ps IH]; intros pos Hs p Hin; [destruct Hin|]. cbn [seg_offsets] in Hs. apply StronglySorted_inv in Hs. destruct Hs as [Hs Hf].
  destruct Hin as [->|Hin]; [|eapply IH; eassumption]. destruct (seg_head ps (pos + zlen p)) as [r E]. rewrite E in Hf. apply Forall_cons_iff in Hf. destruct Hf as [Hf _].
  intros ->. unfold zlen in Hf. simpl in Hf. lia.
Qed.
Lemma span_end_offset h d c x : span_end h d c x <-> doc_offset h d c x.
Proof.
  unfold span_end, doc_offset, span_offset. split.
  - intros (k & l & n & f & t & tn & txt & a & b & [H1 H2] & H3 & H4 & H5 & H6). exists k, l. split; [assumption|]. exists n, f, t, tn, txt, a, b. auto.
  - intros (k & l & H1 & n & f & t & tn & txt & a & b & H2 & H3 & H4 & H5 & H6). exists k, l, n, f, t, tn, txt, a, b. repeat split; auto; apply H4.
Qed.

(** ** types and options *)
Lemma type_named t x : type_string t = Ok x -> t <> TExt -> In (t, x) type_names.
Proof. intros H Hx. destruct t; cbn [type_string] in H; try discriminate; try congruence; apply Ok_inj in H; subst x; unfold type_names; simpl In; tauto. Qed.
Lemma plain_obj v o : value_obj v = Ok o -> plain v o.
Proof. destruct v; cbn [value_obj]; intros H; try discriminate; apply Ok_inj in H; subst o; constructor. Qed.
Lemma objs_plain d : forall a, dict_objs d = Ok a -> Forall2 (fun kv ko => fst ko = fst kv /\ plain (snd kv) (snd ko)) d a.
Proof.
  unfold dict_objs. intros a H. apply mapM_Forall2 in H. eapply Forall2_impl'; [exact H|]. intros [k v] [k' o] _ E. cbn [fst snd] in *.
  destruct (value_obj v) as [o'|] eqn:Eo; [|discriminate]. cbn [rbind] in E. apply Ok_inj in E. injection E as <- <-. split; [reflexivity|]. apply plain_obj. assumption.
Qed.

(** ** columns *)
Lemma column_cells h offs t f ns : forall col, encode_column h offs t f ns = Ok col ->
  exists ms cs, ns = map Some ms /\ col = List.concat cs /\ Forall2 (fun n c => encode_cell h offs t (field_value h n f) = Ok c) ms cs.
Proof.
  induction ns as [|[n|] ns IH]; intros col H; cbn [encode_column] in H; [| |discriminate].
  - apply Ok_inj in H. subst col. exists [], []. repeat split. constructor.
  - fold (field_value h n f) in H. destruct (encode_cell h offs t (field_value h n f)) as [c|] eqn:Ec; [|discriminate]. cbn [rbind] in H.
    destruct (encode_column h offs t f ns) as [b|] eqn:Eb; [|discriminate]. cbn [rbind] in H. apply Ok_inj in H. subst col.
    destruct (IH b eq_refl) as (ms & cs & -> & -> & F). exists (n :: ms), (c :: cs). repeat split. constructor; assumption.
Qed.

Section Cells.
Variables (h : heap) (d : doc) (h1 : heap).
Hypothesis Wh : wf h.
Hypothesis Wh1 : wf h1.
Hypothesis Same : looks_same h h1.
Hypothesis Pos : forall k l p n, In (k, l) (d_layers d) -> at_pos h1 l p n -> node_i h1 n = Ok (Z.of_nat p).
Lemma at_number l p n k : In (k, l) (d_layers d) -> at_pos h l p n -> node_i h1 n = Ok (Z.of_nat p).
Proof. intros Hin A. eapply Pos; [eassumption|]. unfold at_pos. rewrite (same_iter _ _ Same). assumption. Qed.
Lemma list_numbers t x ns : targets_layer t x -> Forall (own_node h d x) ns ->
  exists ps, mapM (elem_i h1) (map Some ns) = Ok (map Z.of_nat ps) /\ Forall2 (number_of h d t) ns ps.
Proof.
  intros Hx F. induction F as [|n ns (l & p & El & Ap) F (ps & E & F2)]; [exists []; split; [reflexivity|constructor]|].
  exists (p :: ps). cbn [map mapM elem_i]. rewrite (at_number l p n x (dget_In _ _ El) Ap), E. split; [reflexivity|]. constructor; [|assumption].
  exists x, l. auto.
Qed.
Lemma run_numbers (c : list nid) k l (Hin : In (k, l) (d_layers d)) : layer_iter h l = map Some c -> forall m p, (p + m <= length c)%nat ->
  mapM (elem_i h1) (map Some (firstn m (skipn p c))) = Ok (map Z.of_nat (seq p m)).
Proof.
  intros Hc. induction m as [|m IH]; intros p Hp; [reflexivity|].
  destruct (nth_error c p) as [n|] eqn:En; [|apply nth_error_None in En; lia].
  assert (Es : skipn p c = n :: skipn (S p) c).
  { clear - En. revert p En. induction c as [|y c IHc]; intros [|p] En; simpl in *; try discriminate; [injection En as ->; reflexivity|]. rewrite (IHc p En). reflexivity. }
  rewrite Es. cbn [firstn map mapM elem_i seq]. rewrite (at_number l p n k Hin) by (unfold at_pos; rewrite Hc, nth_error_map, En; reflexivity). cbn [rbind].
  rewrite IH by lia. reflexivity.
Qed.
Lemma cell_written parts t ov offs c :
  type_encodable t -> (forall v, ov = Some v -> value_ok h d t v) ->
  (forall x, targets_text t x -> exists ps, dget parts x = Some ps /\ seg_offsets 0 ps = offs) ->
  (forall tn tx a b, ov = Some (VSpan tn tx a b) -> In a offs /\ In b offs) ->
  encode_cell h1 offs (dt_name t) (match ov with Some v => v | None => VNone end) = Ok c -> written h d parts t ov c.
Proof.
  intros (NE & NU & _) Hv HT Hoff Ec. destruct ov as [v|].
  2: { destruct (dt_name t) eqn:En; cbn [encode_cell] in Ec; try discriminate; apply Ok_inj in Ec; subst c; try (apply wr_unset; congruence). apply wr_unset_span. assumption. }
  destruct (Hv v eq_refl) as [Hns|i Hi|b Hi|b Ht Hb|b Ht|x Ht|x Ht Hb|cx txt a b Ht Hx Ha Hb|x n Ht Hx Ho|x ns Ht Hx Ho|x a b Ht Hx Ho|x a b Ht Hx Ho].
  - assert (c = [MNil]) by (destruct (dt_name t); cbn [encode_cell] in Ec; try contradiction; try discriminate; apply Ok_inj in Ec; congruence). subst c. constructor. assumption.
  - assert (c = [MInt i]) as -> by (simpl in Hi; destruct Hi as [Hi|[Hi|[]]]; rewrite <- Hi in Ec; cbn [encode_cell] in Ec; apply Ok_inj in Ec; congruence). constructor. assumption.
  - assert (c = [MInt (if b then 1 else 0)]) as -> by (simpl in Hi; destruct Hi as [Hi|[Hi|[]]]; rewrite <- Hi in Ec; cbn [encode_cell] in Ec; apply Ok_inj in Ec; congruence). constructor. assumption.
  - rewrite Ht in Ec. cbn [encode_cell] in Ec. apply Ok_inj in Ec. subst c. constructor. assumption.
  - rewrite Ht in Ec. cbn [encode_cell] in Ec. apply Ok_inj in Ec. subst c. constructor. assumption.
  - rewrite Ht in Ec. cbn [encode_cell] in Ec. apply Ok_inj in Ec. subst c. constructor. assumption.
  - rewrite Ht in Ec. cbn [encode_cell] in Ec. apply Ok_inj in Ec. subst c. constructor. assumption.
  - pose proof Ht as [En Eo]. rewrite En in Ec. cbn [encode_cell] in Ec. destruct (Hoff cx txt a b eq_refl) as [Ia Ib].
    destruct (offset_id_nth offs a Ia) as (ia & Ea & Na). destruct (offset_id_nth offs b Ib) as (ib & Eb & Nb). rewrite Ea, Eb in Ec. apply Ok_inj in Ec. subst c.
    destruct (HT cx Ht) as (ps & Ep & Es). eapply wr_span; [eassumption|eassumption| |]; apply part_nth; rewrite Es; assumption.
  - rewrite Ht in Ec. cbn [encode_cell] in Ec. destruct Ho as (l & q & El & Ap). rewrite (at_number l q n x (dget_In _ _ El) Ap) in Ec. cbn [rbind] in Ec.
    apply Ok_inj in Ec. subst c. apply wr_node; [assumption|]. exists x, l. auto.
  - rewrite Ht in Ec. cbn [encode_cell value_elems rbind] in Ec. destruct ns as [|n0 ns]; [apply Ok_inj in Ec; subst c; apply wr_nobody; assumption|].
    destruct (list_numbers t x (n0 :: ns) Hx Ho) as (ps & M1 & M2). cbn [map] in Ec, M1. rewrite M1 in Ec. cbn [rbind] in Ec. apply Ok_inj in Ec. subst c.
    rewrite map_map. change (Some n0 :: map Some ns) with (map Some (n0 :: ns)). apply wr_many; [assumption|discriminate|assumption].
  - destruct Ho as (l & p & q & El & Pa & Pb & Hpq). pose proof Pa as Pa'. pose proof Pb as Pb'. unfold at_pos in Pa, Pb. rewrite iter_wf in Pa, Pb by assumption. apply nth_map_some in Pa, Pb.
    destruct (nodespan_spec h l p q a b (wf_layers h Wh l) Pa Pb Hpq) as (_ & E & _).
    rewrite Ht in Ec. cbn [encode_cell value_elems] in Ec. rewrite (same_nodespan h h1 a b _ Wh Wh1 Same E) in Ec. cbn [rbind] in Ec.
    assert (Hq : (q < length (content h l))%nat) by (apply nth_error_Some; congruence).
    pose proof (run_numbers (content h l) x l (dget_In _ _ El) (iter_wf _ _ Wh) (S q - p) p ltac:(lia)) as M. unfold run in Ec.
    destruct (map Some (firstn (S q - p) (skipn p (content h l)))) as [|n0 ns] eqn:En.
    { apply (f_equal (@List.length (option nid))) in En. rewrite map_length, firstn_length, skipn_length in En. cbn [List.length] in En. lia. }
    rewrite M in Ec. cbn [rbind] in Ec. apply Ok_inj in Ec. subst c. rewrite map_map.
    apply wr_range; [assumption|exists x, l; auto|exists x, l; auto|assumption].
  - destruct Ho as (l & p & q & El & Pa & Pb & Hpq). rewrite Ht in Ec. cbn [encode_cell value_left value_right rbind elem_i] in Ec.
    rewrite (at_number l p a x (dget_In _ _ El) Pa) in Ec. cbn [rbind] in Ec. rewrite (at_number l q b x (dget_In _ _ El) Pb) in Ec. cbn [rbind] in Ec.
    apply Ok_inj in Ec. subst c. replace (Z.of_nat q - Z.of_nat p) with (Z.of_nat (q - p)) by lia.
    apply wr_nodespan; [assumption|exists x, l; auto|exists x, l; auto|assumption].
Qed.
End Cells.

Section Doc.
Variables (h : heap) (d : doc) (ex tv : bool) (h1 : heap) (ed : edoc).
Hypothesis D : doc_ok h d.
Hypothesis E : codec_encode h d ex tv = (h1, Ok ed).
Lemma encoded_contents : contents h d ed.
Proof.
  destruct (codec_encode_inv _ _ _ _ _ _ E) as (offsets & Ec & Ft & Fl & Ep).
  destruct (compile_keeps h d ex tv h1 _ (do_wf h d D) (do_known h d D) Ec) as (W1 & Sm & P).
  destruct (compile_offsets h d ex tv h1 offsets (do_wf h d D) (do_known h d D) Ec) as [Ko Ho].
  assert (Fx : Forall2 (fun kt kp => fst kp = fst kt /\ List.concat (snd kp) = snd kt /\ StronglySorted Z.lt (seg_offsets 0 (snd kp)) /\
      dget offsets (fst kt) = Some (seg_offsets 0 (snd kp)) /\
      forall x, In x (seg_offsets 0 (snd kp)) <-> x = 0 \/ x = zlen (snd kt) \/ doc_offset h d (fst kt) x) (d_texts d) (ed_texts ed)).
  { eapply Forall2_impl'; [exact Ft|]. intros [k x] [k' y] Hin (E1 & o & E2 & E3). cbn [fst snd] in *. subst k'.
    pose proof (dget_nodup (d_texts d) k x (do_texts h d D) Hin) as Ek. destruct (Ho k x Ek) as (q & Eq & Hq). assert (o = sorted_offsets x q) by congruence. subst o y.
    destruct (segmentation x q) as [S1 S2].
    { apply Forall_forall. intros z Hz. apply Hq in Hz. eapply span_bounds; eassumption. }
    split; [reflexivity|]. split; [exact S1|]. rewrite S2. split; [apply sorted_offsets_sorted|]. split; [assumption|].
    intros z. rewrite sorted_offsets_In, Hq. reflexivity. }
  constructor; [assumption| |].
  - eapply Forall2_impl'; [exact Fx|]. intros [k x] [k' y] _ (E1 & E2 & E3 & _ & E5). cbn [fst snd] in *. split; [assumption|]. split; [assumption|]. split.
    + eapply seg_nonempty. eassumption.
    + intros z. rewrite span_end_offset, <- E5. split.
      * intros [i Hi]. apply part_nth in Hi. eapply nth_error_In. eassumption.
      * intros Hin. apply In_nth_error in Hin. destruct Hin as [i Hi]. exists i. apply part_nth. assumption.
  - pose proof (fields_encoded h d ex tv h1 ed D offsets Ec Fl) as Ff. eapply Forall2_impl'; [exact Ff|]. intros [k l] el Hin (En & Em & Fe). cbn [fst snd] in *.
    split; [assumption|]. split.
    { rewrite Em, <- (same_iter _ _ Sm), (iter_wf _ _ W1). unfold zlen. rewrite map_length. exact (ok_num _ _ (wf_layers h1 W1 l)). }
    eapply Forall2_impl'; [exact Fe|]. intros [f t] ef Hf Hef. cbn [fst snd] in *. destruct (encode_field_inv _ _ _ _ _ _ Hef) as (A1 & A2 & A3 & offs & Uo & Hcol).
    assert (Dcl : declared h d k f t) by (exists l; auto). pose proof (do_types h d D k f t Dcl) as Te.
    assert (Hdt : dget (l_fields (h_layer h l)) f = Some t) by (apply dget_nodup; [apply (wf_schema h (do_wf h d D))|assumption]).
    constructor; cbn [fst snd].
    + assumption.
    + apply type_named; [assumption|apply Te].
    + unfold encode_field in Hef. destruct (type_string (dt_name t)); [|discriminate]. cbn [rbind] in Hef. destruct (dt_opts t) as [|o os] eqn:Eo.
      * destruct (ef_args ef) as [aa|] eqn:Ea; [|tauto]. cbn [rbind] in Hef.
        match type of Hef with rbind ?m _ = _ => destruct m; [|discriminate] end. cbn [rbind] in Hef.
        match type of Hef with rbind ?m _ = _ => destruct m; [|discriminate] end. cbn [rbind] in Hef. apply Ok_inj in Hef. subst ef. discriminate.
      * destruct (ef_args ef) as [aa|]; [|congruence]. split; discriminate.
    + intros a Ha. rewrite Ha in A3. apply objs_plain. assumption.
    + destruct (column_cells _ _ _ _ _ _ Hcol) as (ns & cs & E1 & E2 & Fc). exists ns, cs. rewrite <- (same_iter _ _ Sm). split; [assumption|]. split; [assumption|].
      eapply Forall2_impl'; [exact Fc|]. intros n c Hn Hc. unfold field_value in Hc. rewrite (same_fields _ _ Sm) in Hc.
      assert (Hdn : doc_node h d k l n) by (split; [assumption|rewrite <- (same_iter _ _ Sm), E1; apply in_map; assumption]).
      eapply (cell_written h d h1 (do_wf h d D) W1 Sm (fun k l p n => P _ k l p n eq_refl)); [exact Te| | | |exact Hc].
      * intros v Hv. eapply (do_values h d D); eassumption.
      * intros x Hx. destruct (refs_ok h d ex tv h1 ed E k f t Dcl) as [_ RT]. pose proof (RT x Hx) as Hi. apply dmem_In in Hi. unfold dmem in Hi.
        destruct (dget (d_texts d) x) as [txt|] eqn:Ex; [|discriminate].
        destruct (dget_Forall2 (fun k (v : pystr) w => dget offsets k = Some (seg_offsets 0 w)) (d_texts d) (ed_texts ed)) with (k := x) (v := txt) as (ps & E3 & E4); [|assumption|].
        { eapply Forall2_impl'; [exact Fx|]. intros a b _ (G1 & G2 & G3 & G4 & _). auto. }
        exists ps. split; [assumption|]. rewrite (Uo x Hx) in E4. congruence.
      * intros tn tx a b Hv. clear En A1. pose proof (do_values h d D k l n f _ t Hdn Hv Hdt) as V. inversion V as [| | | | | | |? ? ? ? Tt Tx| | | |]; subst.
        destruct (Ho tn tx Tx) as (q & Eq & Hq). rewrite (Uo tn Tt) in Eq. injection Eq as ->.
        split; apply sorted_offsets_In; right; right; apply Hq; exists k, l; (split; [assumption|]);
        exists n, f, t, tn, tx, a, b; repeat split; auto; try apply Hdn; apply Tt.
Qed.
End Doc.
Lemma written_sections e bs sch : layout e = Ok bs -> python_value (ed_props e) -> Forall2 layer_reads (ed_layers e) sch -> NoDup (dkeys (ed_texts e)) -> sections e bs.
Proof.
  intros H Pp F NT. apply layout_inv in H. destruct H as (n1 & k1 & b1 & sc & n2 & k2 & b2 & ls & P1 & -> & Q1 & Sc & P2 & -> & Q2 & L & ->).
  destruct (pack_spells _ _ (pv_int _) P1) as [X1 Y1]. destruct (pack_spells _ _ Pp Q1) as [X2 Y2]. destruct (pack_spells _ _ (pv_int _) P2) as [X3 Y3]. destruct (pack_spells _ _ (pv_texts _ NT) Q2) as [X4 Y4].
  assert (FP : Forall (fun l => Forall field_packs (el_fields l) /\ Forall (fun f => Forall python_value (ef_col f)) (el_fields l)) (ed_layers e)).
  { clear -F. induction F as [|el kf ls sch (_ & Hf & _ & Hc) F IH]; constructor; [|assumption]. split; [|assumption].
    induction Hf as [|ef ft fs fts (_ & _ & _ & Ha) Hf IHf]; constructor; [unfold field_packs; destruct (ef_args ef); tauto|]. inversion Hc; subst. auto. }
  assert (SO : Forall python_value (schema_objs (ed_layers e))).
  { clear -FP. induction FP as [|el ls [Hf _] FP IH]; [constructor|]. cbn [schema_objs flat_map]. constructor; [constructor|]. apply Forall_app. split; [|exact IH].
    induction Hf as [|f fs Hf1 Hf IHf]; [constructor|]. cbn [flat_map]. apply Forall_app. split; [|exact IHf]. unfold field_objs, field_packs in *. destruct (ef_args f); repeat constructor. inversion Hf1; assumption. inversion Hf1; assumption. }
  destruct (written_stream _ (Forall_cons _ (pv_arr _ (pv_strs (map el_name (ed_layers e)))) SO) sc) as [X5 Y5]; [rewrite map_map; exact Sc|].
  assert (LS : exists outs, ls = List.concat outs /\ Forall2 (fun l out => exists b, sized b out /\
             stream b (Some (MInt (el_num l)) :: flat_map (fun f => [Some (MBool false); Some (MArr (ef_col f))]) (el_fields l))) (ed_layers e) outs).
  { clear -FP L. revert ls L. induction FP as [|el q [_ Hc] FP IH]; intros ls L; [apply Ok_inj in L; subst; exists []; split; [reflexivity|constructor]|].
    apply concatM_cons in L. destruct L as (p1 & p2 & E1 & E2 & ->). apply section_inv in E1. destruct E1 as (n & body & z & Pn & Pb & -> & ->).
    assert (VO : Forall python_value (layer_objs el)).
    { unfold layer_objs. constructor; [constructor|]. clear -Hc. induction Hc as [|f fs Hf Hc IH]; [constructor|]. cbn [flat_map app]. repeat constructor; assumption. }
    destruct (pack_spells _ _ (pv_int _) Pn) as [A1 A2]. destruct (written_stream _ VO _ Pb) as [A3 A4]. destruct (IH _ E2) as (outs & -> & A6).
    exists ((n ++ body) :: outs). split; [reflexivity|]. constructor; [|exact A6]. exists body. split; [exists n; auto|].
    unfold layer_objs in A4. cbn [map] in A4. rewrite <- flat_map_some in A4. exact A4. }
  destruct LS as (outs & -> & LS). exists b1, (n1 ++ b1), sc, b2, (n2 ++ b2), outs. rewrite <- !app_assoc. split; [reflexivity|].
  split; [exists n1; auto|]. split; [assumption|]. split; [|split; [exists n2; auto|split; [exact Y4|exact LS]]].
  cbn [map] in Y5. unfold schema_objs in Y5. rewrite <- flat_map_some in Y5. rewrite map_map in Y5. replace (flat_map (fun l => Some (MInt (zlen (el_fields l))) :: flat_map field_values (el_fields l)) (ed_layers e))
    with (flat_map (fun x => map Some (MInt (zlen (el_fields x)) :: flat_map field_objs (el_fields x))) (ed_layers e)); [exact Y5|].
  apply flat_map_ext. intros l. cbn [map]. f_equal. rewrite <- flat_map_some. apply flat_map_ext. intros f. symmetry. apply field_values_objs.
Qed.
Theorem file_contents h d ex tv h1 bs : doc_ok h d -> msgpack_encode h d ex tv = (h1, Ok bs) -> exists e, contents h d e /\ sections e bs.
Proof.
  intros D H. destruct (msgpack_encode_inv _ _ _ _ _ _ H) as (e & E & L). exists e. split; [eapply encoded_contents; eassumption|].
  eapply written_sections; [eassumption| |eapply reads_back; eassumption|].
  - destruct (codec_encode_inv _ _ _ _ _ _ E) as (o & _ & _ & _ & ->). apply (do_props h d D).
  - rewrite (proj2 (names_back h d ex tv h1 e D E)). apply (do_texts h d D).
Qed.
