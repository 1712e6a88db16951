(** Faults in the schema and in the layer data. *)
From Verif Require Import PyBase PyBaseFacts Model_Text Model_Heap Model_Layer Model_Types Model_Msgpack Model_Document Model_Codec
  Spec_Layer Spec_Types Spec_Msgpack Spec_Document Spec_Codec Spec_Decode Proof_Msgpack Proof_Layout Proof_Codec Proof_Codec2 Proof_Decode.
Local Open Scope Z_scope.

Lemma string_type_names x : In x type_names -> exists t, string_type x = Ok t.
Proof. intros H. cbn [type_names map In] in H. repeat (destruct H as [<-|H]; [eexists; reflexivity|]). contradiction. Qed.
Lemma type_string_names t y : type_string t = Ok y -> In y type_names.
Proof. destruct t; cbn [type_string]; intros H; try discriminate; (match type of H with Ok ?z = _ => assert (y = z) by congruence; subst y end); unfold type_names; cbn [map In]; tauto. Qed.
Lemma string_type_unknown x : ~ In x type_names -> string_type x = Err KeyError.
Proof.
  intros H. unfold string_type. destruct (find _ all_types) as [t|] eqn:E; [|reflexivity]. exfalso. apply H. apply find_some in E. destruct E as [_ E].
  destruct (type_string t) as [y|] eqn:Ey; [|discriminate]. destruct (str_eqb_spec x y) as [->|]; [|discriminate]. eapply type_string_names. exact Ey.
Qed.
Lemma simple_value o : simple o -> exists v, obj_value o = Ok v.
Proof. intros [A M]. destruct o; try (eexists; reflexivity); [destruct (A l eq_refl)|edestruct M; reflexivity]. Qed.
Lemma good_reads f : good_field f -> exists ft, field_reads f ft.
Proof.
  intros [Ht Ha]. apply string_type_names in Ht. destruct Ht as (t & Ht). unfold field_reads. unfold good_args in Ha. destruct (ef_args f) as [a|].
  - destruct (Ha a eq_refl) as [Hp Hs]. assert (X : exists opts, dict_values a = Ok opts).
    { clear Ha Hp. unfold dict_values. induction a as [|[k o] a IH]; [eexists; reflexivity|]. cbn [mapM fst snd]. destruct (simple_value o) as (v & Ev); [eapply Hs; left; reflexivity|].
      rewrite Ev. cbn [rbind]. destruct IH as (os & Eo); [intros; eapply Hs; right; eassumption|]. unfold dict in *. rewrite Eo. eexists; reflexivity. }
    destruct X as (opts & Eo). exists (ef_name f, mkDT KBase t opts). auto.
  - exists (ef_name f, mkDT KBase t []). auto.
Qed.
Lemma good_fields fs : Forall good_field fs -> exists fts, Forall2 field_reads fs fts.
Proof.
  induction 1 as [|f fs Hf _ IH]; [exists []; constructor|]. destruct (good_reads f Hf) as (ft & H1). destruct IH as (fts & H2). exists (ft :: fts). constructor; assumption.
Qed.
Lemma reads_names fs fts : Forall2 field_reads fs fts -> dkeys fts = map ef_name fs.
Proof. unfold dkeys. induction 1 as [|f ft fs fts Hf _ IH]; [reflexivity|]. cbn [map]. destruct Hf as (-> & _). f_equal. exact IH. Qed.
Lemma good_layers ls : Forall good_layer ls -> exists sch, Forall2 layer_reads ls sch.
Proof.
  induction 1 as [|l ls (H1 & H2 & H3) _ IH]; [exists []; constructor|]. destruct (good_fields _ H1) as (fts & Hf). destruct IH as (sch & Hs).
  exists ((el_name l, fts) :: sch). constructor; [|assumption]. split; [reflexivity|]. split; [assumption|]. split; [|assumption]. cbn [snd]. rewrite (reads_names _ _ Hf). assumption.
Qed.

(** reading fields up to a bad one *)
Lemma read_field_bad f b rest : pack_all (field_objs f) = Ok b -> ~ In (ef_type f) type_names -> read_field (b ++ rest) = Err KeyError.
Proof.
  intros H Hn. unfold read_field, field_objs in *. assert (X : exists p1 p2 p3 q z, pack (MStr (ef_name f)) = Ok p1 /\ pack (MBool z) = Ok p2 /\ pack (MStr (ef_type f)) = Ok p3 /\ b = p1 ++ p2 ++ p3 ++ q).
  { destruct (ef_args f) as [a|]; apply pack_all_cons in H; destruct H as (p1 & q1 & P1 & H & ->); apply pack_all_cons in H; destruct H as (p2 & q2 & P2 & H & ->);
      apply pack_all_cons in H; destruct H as (p3 & q3 & P3 & _ & ->); exists p1, p2, p3, q3; eexists; repeat split; eassumption. }
  destruct X as (p1 & p2 & p3 & q & z & P1 & P2 & P3 & ->). rewrite <- !app_assoc. rewrite (unpack1_pack _ _ _ (pv_str _) P1). cbn [rbind as_str].
  rewrite (unpack1_pack _ _ _ (pv_bool _) P2). cbn [rbind]. rewrite (unpack1_pack _ _ _ (pv_str _) P3). cbn [rbind as_str]. rewrite string_type_unknown by assumption. reflexivity.
Qed.
Lemma read_fields_until fs : forall fts b bf f rest acc n e, pack_all (flat_map field_objs fs) = Ok b -> Forall2 field_reads fs fts -> NoDup (dkeys (acc ++ fts)) ->
  pack_all (field_objs f) = Ok bf ->
  (forall r, (let* (ft, r) := read_field (bf ++ r) in if dmem (acc ++ fts) (fst ft) then Err ValueError else read_fields n ((acc ++ fts) ++ [ft]) r) = Err e) ->
  read_fields (length fs + S n) acc (b ++ bf ++ rest) = Err e.
Proof.
  induction fs as [|ef fs IH]; intros fts b bf f rest acc n e H F ND Hb He; inversion F as [|? ft ? fts' F1 F2]; subst.
  - apply Ok_inj in H. subst b. cbn [length Nat.add read_fields app]. rewrite app_nil_r in He. apply He.
  - cbn [flat_map] in H. apply concatM_app in H. destruct H as (p1 & p2 & E1 & E2 & ->). cbn [length Nat.add read_fields].
    rewrite <- app_assoc. rewrite (read_field_pack _ _ _ _ E1 F1). cbn [rbind].
    assert (Hm : dmem acc (fst ft) = false).
    { destruct (dmem acc (fst ft)) eqn:E; [|reflexivity]. apply dmem_In in E. unfold dkeys in ND. rewrite map_app in ND. simpl in ND.
      apply NoDup_remove_2 in ND. exfalso. apply ND. apply in_or_app. left. assumption. }
    rewrite Hm. apply (IH fts' p2 bf f rest (acc ++ [ft]) n e E2 F2); [rewrite <- app_assoc; assumption|assumption|]. rewrite <- app_assoc. exact He.
Qed.
Lemma read_schemas_until ls : forall sch b k names rest e, pack_all (schema_objs ls) = Ok b -> Forall2 layer_reads ls sch -> read_schemas (k :: names) rest = Err e ->
  read_schemas (map el_name ls ++ k :: names) (b ++ rest) = Err e.
Proof.
  induction ls as [|el ls IH]; intros sch b k names rest e H F He; inversion F as [|? [k' fs] ? sch' F1 F2]; subst.
  - apply Ok_inj in H. subst b. exact He.
  - destruct F1 as (Hk & Hf & ND & _). cbn [fst snd] in *. subst k'. cbn [schema_objs flat_map] in H. rewrite <- app_comm_cons in H.
    apply pack_all_cons in H. destruct H as (p1 & q1 & P1 & H & ->). apply concatM_app in H. destruct H as (p2 & p3 & E2 & E3 & ->).
    cbn [map app read_schemas]. rewrite <- !app_assoc. rewrite (unpack1_pack _ _ _ (pv_int _) P1). cbn [rbind as_num].
    unfold zlen. rewrite Nat2Z.id. rewrite (read_fields_pack _ _ _ (p3 ++ rest) [] E2 Hf); [|assumption]. cbn [rbind app].
    rewrite (IH _ _ _ _ rest e E3 F2 He). reflexivity.
Qed.
Lemma schema_bad e bytes ls1 k num fs1 f fs2 ls2 x rest : layout e = Ok bytes -> ed_layers e = ls1 ++ mkEL k num (fs1 ++ f :: fs2) :: ls2 -> python_value (ed_props e) ->
  NoDup (map el_name (ed_layers e)) -> Forall good_layer ls1 -> Forall good_field fs1 -> NoDup (map ef_name fs1) ->
  (forall fts bf r n, Forall2 field_reads fs1 fts -> pack_all (field_objs f) = Ok bf ->
     (let* (ft, r) := read_field (bf ++ r) in if dmem fts (fst ft) then Err ValueError else read_fields n (fts ++ [ft]) r) = Err x) ->
  parse (bytes ++ rest) = Err x.
Proof.
  intros H El Pp ND G1 Gf Nf He. apply layout_inv in H. destruct H as (n1 & k1 & b1 & sc & n2 & k2 & b2 & ls & P1 & _ & Q1 & Sc & P2 & _ & Q2 & L & ->).
  unfold parse. rewrite <- !app_assoc. replace (firstn 4 (magic ++ n1 ++ b1 ++ sc ++ n2 ++ b2 ++ ls ++ rest)) with magic by reflexivity.
  replace (skipn 4 (magic ++ n1 ++ b1 ++ sc ++ n2 ++ b2 ++ ls ++ rest)) with (n1 ++ b1 ++ sc ++ n2 ++ b2 ++ ls ++ rest) by reflexivity.
  change (list_eqb N.eqb magic magic) with true. cbv iota.
  rewrite (skip1_pack _ _ _ (pv_int _) P1). cbn [rbind]. rewrite (unpack1_pack _ _ _ Pp Q1). cbn [rbind].
  apply pack_all_cons in Sc. destruct Sc as (p1 & p2 & Pn & E2 & ->). unfold decode_schema. rewrite <- app_assoc.
  rewrite <- map_map in Pn. rewrite (unpack1_pack _ _ _ (pv_arr _ (pv_strs _)) Pn). cbn [rbind]. rewrite as_strs_map. cbn [rbind].
  rewrite names_nodup_true by assumption. rewrite El in E2. unfold schema_objs in E2. rewrite flat_map_app in E2. apply concatM_app in E2. destruct E2 as (q1 & q2 & E1 & E2 & ->).
  cbn [flat_map el_fields] in E2. rewrite <- app_comm_cons in E2. apply pack_all_cons in E2. destruct E2 as (c & q3 & Pc & E2 & ->). apply concatM_app in E2. destruct E2 as (q4 & q5 & E3 & E4 & ->).
  rewrite flat_map_app in E3. apply concatM_app in E3. destruct E3 as (q6 & q7 & E5 & E6 & ->). cbn [flat_map] in E6. apply concatM_app in E6. destruct E6 as (q8 & q9 & E7 & E8 & ->).
  destruct (good_layers ls1 G1) as (sch & Hs). destruct (good_fields fs1 Gf) as (fts & Hf). rewrite El, map_app. cbn [map el_name]. rewrite <- !app_assoc.
  erewrite (read_schemas_until ls1 sch q1 k (map el_name ls2)); [reflexivity|exact E1|exact Hs|]. cbn [read_schemas]. rewrite (unpack1_pack _ _ _ (pv_int _) Pc). cbn [rbind as_num].
  unfold zlen. rewrite Nat2Z.id, app_length. cbn [length]. erewrite (read_fields_until fs1 fts q6 q8 f _ [] (length fs2)); [reflexivity|exact E5|exact Hf| |exact E7|].
  - cbn [app]. rewrite (reads_names _ _ Hf). assumption.
  - intros r. apply He; assumption.
Qed.
Lemma decode_unknown_type h e bytes ls1 k num fs1 f fs2 ls2 rest : layout e = Ok bytes -> ed_layers e = ls1 ++ mkEL k num (fs1 ++ f :: fs2) :: ls2 -> python_value (ed_props e) ->
  NoDup (map el_name (ed_layers e)) -> Forall good_layer ls1 -> Forall good_field fs1 -> NoDup (map ef_name fs1) -> ~ In (ef_type f) type_names ->
  msgpack_decode h (bytes ++ rest) = (h, Err KeyError).
Proof.
  intros H El Pp ND G1 Gf Nf Hn. unfold msgpack_decode. erewrite schema_bad; [reflexivity|eassumption..|]. intros fts bf r n Hf Hb. rewrite (read_field_bad f bf r Hb Hn). reflexivity.
Qed.
Lemma decode_duplicate h e bytes ls1 k num fs1 f fs2 ls2 rest : layout e = Ok bytes -> ed_layers e = ls1 ++ mkEL k num (fs1 ++ f :: fs2) :: ls2 -> python_value (ed_props e) ->
  NoDup (map el_name (ed_layers e)) -> Forall good_layer ls1 -> Forall good_field fs1 -> NoDup (map ef_name fs1) -> good_field f -> In (ef_name f) (map ef_name fs1) ->
  msgpack_decode h (bytes ++ rest) = (h, Err ValueError).
Proof.
  intros H El Pp ND G1 Gf Nf Gd Hin. unfold msgpack_decode. erewrite schema_bad; [reflexivity|eassumption..|]. intros fts bf r n Hf Hb.
  destruct (good_reads f Gd) as (ft & Hft). rewrite (read_field_pack f ft bf r Hb Hft). cbn [rbind]. destruct Hft as (Hn & _).
  assert (Hm : dmem fts (fst ft) = true) by (apply dmem_In; rewrite (reads_names _ _ Hf), Hn; exact Hin). rewrite Hm. reflexivity.
Qed.

(** special encoding *)
Lemma truthy_spec o : truthy o = false <-> false_value o.
Proof.
  unfold false_value. destruct o as [|[]|i|b|x|x|x|x]; cbn [truthy].
  - tauto.
  - split; [discriminate|intuition discriminate].
  - tauto.
  - rewrite negb_false_iff. destruct (Z.eqb_spec i 0); split; intros H; try discriminate; intuition congruence.
  - rewrite negb_false_iff. destruct (N.eqb_spec b 0), (N.eqb_spec b 9223372036854775808); cbn [orb]; split; intros H; try discriminate; intuition congruence.
  - rewrite negb_false_iff. destruct x; cbn; split; intros H; try discriminate; intuition congruence.
  - rewrite negb_false_iff. destruct x; cbn; split; intros H; try discriminate; intuition congruence.
  - rewrite negb_false_iff. destruct x; cbn; split; intros H; try discriminate; intuition congruence.
  - rewrite negb_false_iff. destruct x; cbn; split; intros H; try discriminate; intuition congruence.
Qed.
Lemma columns_until fs : forall (fts : dict dtype) b rest e, (length fs < length fts)%nat ->
  pack_all (flat_map (fun f => [MBool false; MArr (ef_col f)]) fs) = Ok b -> Forall (fun ef => Forall python_value (ef_col ef)) fs ->
  (forall ft fts, read_columns (ft :: fts) rest = Err e) -> read_columns fts (b ++ rest) = Err e.
Proof.
  induction fs as [|ef fs IH]; intros fts b rest e L H F He; destruct fts as [|ft fts]; cbn [length] in L; try lia.
  - apply Ok_inj in H. subst b. apply He.
  - cbn [flat_map app] in H. apply pack_all_cons in H. destruct H as (p1 & q1 & P1 & H & ->).
    apply pack_all_cons in H. destruct H as (p2 & q2 & P2 & H & ->). inversion F; subst. cbn [read_columns].
    rewrite <- !app_assoc. rewrite (unpack1_pack _ _ _ (pv_bool _) P1). cbn [rbind truthy].
    rewrite (unpack1_pack _ _ _ (pv_arr _ H2) P2). cbn [rbind]. rewrite (IH fts q2 rest e); [reflexivity|lia|assumption|assumption|assumption].
Qed.
Lemma layers_until ls : forall sch kf sch2 b rest e, concatM (fun l => section (layer_objs l)) ls = Ok b -> Forall2 layer_reads ls sch -> read_layers (kf :: sch2) rest = Err e ->
  read_layers (sch ++ kf :: sch2) (b ++ rest) = Err e.
Proof.
  induction ls as [|el ls IH]; intros sch kf sch2 b rest e H F He; inversion F as [|? [k fs] ? sch' F1 F2]; subst.
  - apply Ok_inj in H. subst b. exact He.
  - apply concatM_cons in H. destruct H as (p1 & p2 & P1 & E2 & ->). apply section_inv in P1. destruct P1 as (n & body & z & Pn & Pb & -> & _).
    destruct F1 as (Hk & Hf & ND & Hc). cbn [fst snd] in *. cbn [app read_layers]. rewrite <- !app_assoc. rewrite (skip1_pack _ _ _ (pv_int _) Pn). cbn [rbind].
    rewrite (read_layer_pack el fs body (p2 ++ rest)); [|symmetry; eapply Forall2_length; eassumption|assumption|assumption]. cbn [rbind].
    rewrite (IH _ _ _ _ rest e E2 F2 He). reflexivity.
Qed.
Lemma decode_special h props texts ls1 l ls2 fs1 f fs2 b o ob rest : file_front props texts ls1 l ls2 fs1 b -> el_fields l = fs1 ++ f :: fs2 ->
  python_value props -> NoDup (dkeys texts) -> NoDup (map el_name (ls1 ++ l :: ls2)) -> Forall good_layer (ls1 ++ l :: ls2) ->
  python_value o -> pack o = Ok ob -> ~ false_value o -> msgpack_decode h (b ++ ob ++ rest) = (h, Err NotImplementedError).
Proof.
  intros (p & sc & tx & d1 & k & n & nb & cols & Sp & Ssc & Stx & Sd & Sn & Snb & Sc & ->) El Pp NT ND G Po Eo Hf. unfold msgpack_decode.
  assert (X : parse ((magic ++ p ++ sc ++ tx ++ d1 ++ n ++ nb ++ cols) ++ ob ++ rest) = Err NotImplementedError); [|rewrite X; reflexivity].
  destruct (good_layers _ G) as (sch & Hs). pose proof Hs as Hs'. apply Forall2_app_inv_l in Hs'. destruct Hs' as (sch1 & sch' & H1 & H2 & ->). inversion H2 as [|? [k' fts] ? sch2 H3 H4]; subst.
  apply section_inv in Sp. destruct Sp as (n1 & b1 & k1 & P1 & Q1 & -> & ->). apply pack_all_cons in Q1. destruct Q1 as (b1' & b1'' & Q1 & Q1' & ->). apply Ok_inj in Q1'. subst b1''.
  apply section_inv in Stx. destruct Stx as (n2 & b2 & k2 & P2 & Q2 & -> & ->). apply pack_all_cons in Q2. destruct Q2 as (b2' & b2'' & Q2 & Q2' & ->). apply Ok_inj in Q2'. subst b2''.
  unfold parse. rewrite <- !app_assoc. set (tail := n1 ++ _). replace (firstn 4 (magic ++ tail)) with magic by reflexivity. replace (skipn 4 (magic ++ tail)) with tail by reflexivity. subst tail.
  change (list_eqb N.eqb magic magic) with true. cbv iota.
  rewrite (skip1_pack _ _ _ (pv_int _) P1). cbn [rbind]. rewrite (unpack1_pack _ _ _ Pp Q1). cbn [rbind app].
  rewrite (decode_schema_pack _ _ _ _ Ssc Hs ND). cbn [rbind]. rewrite (skip1_pack _ _ _ (pv_int _) P2). cbn [rbind].
  rewrite (unpack1_pack _ _ _ (pv_texts _ NT) Q2). cbn [rbind app]. rewrite as_texts_map. cbn [rbind].
  rewrite (layers_until ls1 sch1 (k', fts) sch2 d1 _ NotImplementedError Sd H1); [reflexivity|]. cbn [read_layers]. rewrite (skip1_pack _ _ _ (pv_int _) Sn). cbn [rbind].
  unfold read_layer. rewrite (unpack1_pack _ _ _ (pv_int _) Snb). cbn [rbind as_num]. destruct H3 as (_ & Hfs & _ & Hc). cbn [snd] in Hfs. rewrite El in Hc. apply Forall_app in Hc. destruct Hc as [Hc _].
  rewrite (columns_until fs1 fts cols (ob ++ rest) NotImplementedError); [reflexivity| |exact Sc|exact Hc|].
  - apply Forall2_length in Hfs. rewrite <- Hfs, El, app_length. cbn [length]. lia.
  - intros ft fts'. cbn [read_columns]. rewrite (unpack1_pack _ _ _ Po Eo). cbn [rbind]. destruct (truthy o) eqn:Et; [reflexivity|]. apply truthy_spec in Et. contradiction.
Qed.
Lemma decode_magic h bs : firstn 4 bs <> magic -> msgpack_decode h bs = (h, Err ValueError).
Proof. intros H. unfold msgpack_decode, parse. destruct (list_eqb_spec N.eqb N.eqb_spec (firstn 4 bs) magic); [contradiction|reflexivity]. Qed.
