(** Reading back the MessagePack layout of an encoded document. *)
From Verif Require Import PyBase PyBaseFacts Model_Text Model_Heap Model_Layer Model_Types Model_Msgpack Model_Document Model_Codec
  Spec_Msgpack Proof_Msgpack.
Local Open Scope Z_scope.

Lemma Forall2_length {A B} (R : A -> B -> Prop) a b : Forall2 R a b -> length a = length b.
Proof. induction 1; simpl; congruence. Qed.
Lemma concatM_app {A} (f : A -> res (list N)) a : forall b p, concatM f (a ++ b) = Ok p ->
  exists p1 p2, concatM f a = Ok p1 /\ concatM f b = Ok p2 /\ p = p1 ++ p2.
Proof.
  induction a as [|x a IH]; intros b p H.
  - exists [], p. auto.
  - cbn [app concatM] in *. destruct (f x) as [px|]; [|discriminate]. cbn [rbind] in *.
    destruct (concatM f (a ++ b)) as [q|] eqn:E; [|discriminate]. cbn [rbind] in H. apply Ok_inj in H. subst p.
    destruct (IH _ _ E) as (p1 & p2 & E1 & E2 & ->). exists (px ++ p1), p2. rewrite E1. cbn [rbind]. rewrite app_assoc. auto.
Qed.
Lemma concatM_cons {A} (f : A -> res (list N)) x l p : concatM f (x :: l) = Ok p ->
  exists p1 p2, f x = Ok p1 /\ concatM f l = Ok p2 /\ p = p1 ++ p2.
Proof.
  cbn [concatM]. intros H. destruct (f x) as [px|]; [|discriminate]. cbn [rbind] in *.
  destruct (concatM f l) as [q|] eqn:E; [|discriminate]. cbn [rbind] in H. apply Ok_inj in H. subst p. eauto.
Qed.
Lemma pack_all_cons o os p : pack_all (o :: os) = Ok p -> exists p1 p2, pack o = Ok p1 /\ pack_all os = Ok p2 /\ p = p1 ++ p2.
Proof. apply concatM_cons. Qed.
Lemma section_inv os b : section os = Ok b -> exists n body k, pack (MInt k) = Ok n /\ pack_all os = Ok body /\ b = n ++ body /\ k = zlen body.
Proof.
  unfold section. intros H. destruct (pack_all os) as [body|] eqn:E; [|discriminate]. cbn [rbind] in H.
  destruct (pack (MInt (zlen body))) as [n|] eqn:E2; [|discriminate]. cbn [rbind] in H. apply Ok_inj in H. subst b. exists n, body, (zlen body). auto.
Qed.

(** the type that a schema field is read as *)
Definition field_reads (ef : efield) (ft : pystr * dtype) : Prop :=
  fst ft = ef_name ef /\ dt_class (snd ft) = KBase /\ string_type (ef_type ef) = Ok (dt_name (snd ft)) /\
  match ef_args ef with
  | None => dt_opts (snd ft) = []
  | Some a => dict_values a = Ok (dt_opts (snd ft)) /\ python_value (MMap a)
  end.
Lemma read_field_pack ef ft b rest : pack_all (field_objs ef) = Ok b -> field_reads ef ft -> read_field (b ++ rest) = Ok (ft, rest).
Proof.
  destruct ft as [f [c t o]]. intros H (Hn & Hc & Ht & Ha). cbn [fst snd dt_class dt_name dt_opts] in *. subst f c. unfold field_objs in H.
  unfold read_field. destruct (ef_args ef) as [a|].
  - destruct Ha as [Ha Hp].
    apply pack_all_cons in H. destruct H as (p1 & q1 & P1 & H & ->).
    apply pack_all_cons in H. destruct H as (p2 & q2 & P2 & H & ->).
    apply pack_all_cons in H. destruct H as (p3 & q3 & P3 & H & ->).
    apply pack_all_cons in H. destruct H as (p4 & q4 & P4 & H & ->). apply Ok_inj in H. subst q4.
    rewrite <- !app_assoc. rewrite (unpack1_pack _ _ _ (pv_str _) P1). cbn [rbind as_str].
    rewrite (unpack1_pack _ _ _ (pv_bool _) P2). cbn [rbind]. rewrite (unpack1_pack _ _ _ (pv_str _) P3). cbn [rbind as_str]. rewrite Ht. cbn [rbind].
    rewrite (unpack1_pack _ _ _ Hp P4). cbn [rbind]. rewrite Ha. reflexivity.
  - subst o.
    apply pack_all_cons in H. destruct H as (p1 & q1 & P1 & H & ->).
    apply pack_all_cons in H. destruct H as (p2 & q2 & P2 & H & ->).
    apply pack_all_cons in H. destruct H as (p3 & q3 & P3 & H & ->). apply Ok_inj in H. subst q3.
    rewrite <- !app_assoc. rewrite (unpack1_pack _ _ _ (pv_str _) P1). cbn [rbind as_str].
    rewrite (unpack1_pack _ _ _ (pv_bool _) P2). cbn [rbind]. rewrite (unpack1_pack _ _ _ (pv_str _) P3). cbn [rbind as_str]. rewrite Ht. reflexivity.
Qed.
Lemma read_fields_pack fs : forall fts b rest acc, pack_all (flat_map field_objs fs) = Ok b -> Forall2 field_reads fs fts ->
  NoDup (dkeys (acc ++ fts)) -> read_fields (length fs) acc (b ++ rest) = Ok (acc ++ fts, rest).
Proof.
  induction fs as [|ef fs IH]; intros fts b rest acc H F ND; inversion F as [|? ft ? fts' F1 F2]; subst.
  - apply Ok_inj in H. subst b. rewrite app_nil_r. reflexivity.
  - cbn [flat_map] in H. apply concatM_app in H. destruct H as (p1 & p2 & E1 & E2 & ->). cbn [length read_fields].
    rewrite <- app_assoc. rewrite (read_field_pack _ _ _ _ E1 F1). cbn [rbind].
    assert (Hm : dmem acc (fst ft) = false).
    { destruct (dmem acc (fst ft)) eqn:E; [|reflexivity]. apply dmem_In in E. unfold dkeys in ND. rewrite map_app in ND. simpl in ND.
      apply NoDup_remove_2 in ND. exfalso. apply ND. apply in_or_app. left. assumption. }
    rewrite Hm. rewrite (IH fts' p2 rest (acc ++ [ft]) E2 F2).
    + rewrite <- app_assoc. reflexivity.
    + rewrite <- app_assoc. assumption.
Qed.

Definition layer_reads (el : elayer) (kf : pystr * dict dtype) : Prop :=
  fst kf = el_name el /\ Forall2 field_reads (el_fields el) (snd kf) /\ NoDup (dkeys (snd kf)) /\
  Forall (fun ef => Forall python_value (ef_col ef)) (el_fields el).
Lemma read_schemas_pack ls : forall sch b rest, pack_all (schema_objs ls) = Ok b -> Forall2 layer_reads ls sch ->
  read_schemas (map el_name ls) (b ++ rest) = Ok (sch, rest).
Proof.
  induction ls as [|el ls IH]; intros sch b rest H F; inversion F as [|? [k fs] ? sch' F1 F2]; subst.
  - apply Ok_inj in H. subst b. reflexivity.
  - destruct F1 as (Hk & Hf & ND & _). cbn [fst snd] in *. subst k. cbn [schema_objs flat_map] in H. rewrite <- app_comm_cons in H.
    apply pack_all_cons in H. destruct H as (p1 & q1 & P1 & H & ->). apply concatM_app in H. destruct H as (p2 & p3 & E2 & E3 & ->).
    cbn [map read_schemas]. rewrite <- !app_assoc. rewrite (unpack1_pack _ _ _ (pv_int _) P1). cbn [rbind as_num].
    unfold zlen. rewrite Nat2Z.id. rewrite (read_fields_pack _ _ _ (p3 ++ rest) [] E2 Hf); [|assumption]. cbn [rbind app].
    rewrite (IH _ _ rest E3 F2). reflexivity.
Qed.
Lemma names_nodup_true l : NoDup l -> names_nodup l = true.
Proof.
  induction 1 as [|x l Hx _ IH]; simpl; [reflexivity|]. rewrite IH, andb_true_r. destruct (existsb (str_eqb x) l) eqn:E; [|reflexivity].
  apply existsb_exists in E. destruct E as (y & Hy & Ey). apply str_eqb_eq in Ey. subst y. contradiction.
Qed.
Lemma as_strs_map l : as_strs (MArr (map MStr l)) = Ok l.
Proof. induction l as [|x l IH]; [reflexivity|]. cbn in *. rewrite IH. reflexivity. Qed.
Lemma pv_strs l : Forall python_value (map MStr l).
Proof. apply Forall_forall. intros o Ho. apply in_map_iff in Ho. destruct Ho as (x & <- & _). constructor. Qed.
Lemma decode_schema_pack ls sch b rest : pack_all (MArr (map (fun l => MStr (el_name l)) ls) :: schema_objs ls) = Ok b ->
  Forall2 layer_reads ls sch -> NoDup (map el_name ls) -> decode_schema (b ++ rest) = Ok (sch, rest).
Proof.
  intros H F ND. apply pack_all_cons in H. destruct H as (p1 & p2 & P1 & E2 & ->). unfold decode_schema. rewrite <- app_assoc.
  rewrite <- map_map in P1. rewrite (unpack1_pack _ _ _ (pv_arr _ (pv_strs _)) P1). cbn [rbind]. rewrite as_strs_map. cbn [rbind].
  rewrite names_nodup_true by assumption. apply read_schemas_pack; assumption.
Qed.
Lemma as_texts_map ts : as_texts (texts_obj ts) = Ok ts.
Proof.
  unfold texts_obj, as_texts. induction ts as [|[k l] ts IH]; [reflexivity|]. cbn [map mapM fst snd]. rewrite as_strs_map. cbn [rbind] in *. rewrite IH. reflexivity.
Qed.
Lemma pv_texts ts : NoDup (dkeys ts) -> python_value (texts_obj ts).
Proof.
  intros ND. constructor.
  - rewrite map_map. simpl. assumption.
  - rewrite map_map. apply Forall_forall. intros o Ho. apply in_map_iff in Ho. destruct Ho as ([k l] & <- & _). constructor. apply pv_strs.
Qed.
Lemma read_columns_pack fs : forall (fts : dict dtype) b rest, length fts = length fs ->
  pack_all (flat_map (fun f => [MBool false; MArr (ef_col f)]) fs) = Ok b -> Forall (fun ef => Forall python_value (ef_col ef)) fs ->
  read_columns fts (b ++ rest) = Ok (map ef_col fs, rest).
Proof.
  induction fs as [|ef fs IH]; intros fts b rest L H F; destruct fts as [|ft fts]; try discriminate.
  - apply Ok_inj in H. subst b. reflexivity.
  - cbn [flat_map app] in H. apply pack_all_cons in H. destruct H as (p1 & q1 & P1 & H & ->).
    apply pack_all_cons in H. destruct H as (p2 & q2 & P2 & H & ->). inversion F; subst. cbn [read_columns].
    rewrite <- !app_assoc. rewrite (unpack1_pack _ _ _ (pv_bool _) P1). cbn [rbind truthy].
    rewrite (unpack1_pack _ _ _ (pv_arr _ H2) P2). cbn [rbind]. rewrite (IH fts q2 rest); [reflexivity|simpl in L; congruence|assumption|assumption].
Qed.
Lemma read_layer_pack el (fts : dict dtype) b rest : length fts = length (el_fields el) -> pack_all (layer_objs el) = Ok b ->
  Forall (fun ef => Forall python_value (ef_col ef)) (el_fields el) ->
  read_layer fts (b ++ rest) = Ok (el_num el, map ef_col (el_fields el), rest).
Proof.
  intros L H F. unfold layer_objs in H. apply pack_all_cons in H. destruct H as (p1 & q1 & P1 & H & ->). unfold read_layer.
  rewrite <- app_assoc. rewrite (unpack1_pack _ _ _ (pv_int _) P1). cbn [rbind as_num]. rewrite (read_columns_pack _ fts _ rest L H F). reflexivity.
Qed.
Definition layer_data (el : elayer) : Z * list (list mobj) := (el_num el, map ef_col (el_fields el)).
Lemma read_layers_pack ls : forall sch b rest, concatM (fun l => section (layer_objs l)) ls = Ok b -> Forall2 layer_reads ls sch ->
  read_layers sch (b ++ rest) = Ok (map layer_data ls, rest).
Proof.
  induction ls as [|el ls IH]; intros sch b rest H F; inversion F as [|? [k fs] ? sch' F1 F2]; subst.
  - apply Ok_inj in H. subst b. reflexivity.
  - apply concatM_cons in H. destruct H as (p1 & p2 & P1 & E2 & ->). apply section_inv in P1. destruct P1 as (n & body & z & Pn & Pb & -> & _).
    destruct F1 as (Hk & Hf & ND & Hc). cbn [fst snd] in *. cbn [read_layers]. rewrite <- !app_assoc. rewrite (skip1_pack _ _ _ (pv_int _) Pn). cbn [rbind].
    rewrite (read_layer_pack el fs body (p2 ++ rest)); [|symmetry; eapply Forall2_length; eassumption|assumption|assumption]. cbn [rbind].
    rewrite (IH _ _ rest E2 F2). reflexivity.
Qed.

Definition read_as (e : edoc) (sch : list (pystr * dict dtype)) : pdoc :=
  mkPD (ed_props e) sch (ed_texts e) (map layer_data (ed_layers e)).
Lemma layout_inv e bytes : layout e = Ok bytes -> exists n1 k1 b1 sc n2 k2 b2 ls,
  pack (MInt k1) = Ok n1 /\ k1 = zlen b1 /\ pack (ed_props e) = Ok b1 /\
  pack_all (MArr (map (fun l => MStr (el_name l)) (ed_layers e)) :: schema_objs (ed_layers e)) = Ok sc /\
  pack (MInt k2) = Ok n2 /\ k2 = zlen b2 /\ pack (texts_obj (ed_texts e)) = Ok b2 /\
  concatM (fun l => section (layer_objs l)) (ed_layers e) = Ok ls /\
  bytes = magic ++ n1 ++ b1 ++ sc ++ n2 ++ b2 ++ ls.
Proof.
  unfold layout. intros H. destruct (section [ed_props e]) as [p|] eqn:E1; [|discriminate]. cbn [rbind] in H.
  destruct (pack_all (_ :: schema_objs (ed_layers e))) as [sc|] eqn:E2; [|discriminate]. cbn [rbind] in H.
  destruct (section [texts_obj (ed_texts e)]) as [tx|] eqn:E3; [|discriminate]. cbn [rbind] in H.
  destruct (concatM _ (ed_layers e)) as [ls|] eqn:E4; [|discriminate]. cbn [rbind] in H. apply Ok_inj in H. subst bytes.
  apply section_inv in E1. destruct E1 as (n1 & b1 & k1 & P1 & Q1 & -> & ->). apply pack_all_cons in Q1. destruct Q1 as (b1' & b1'' & Q1 & Q1' & ->).
  apply Ok_inj in Q1'. subst b1''. rewrite app_nil_r in *.
  apply section_inv in E3. destruct E3 as (n2 & b2 & k2 & P2 & Q2 & -> & ->). apply pack_all_cons in Q2. destruct Q2 as (b2' & b2'' & Q2 & Q2' & ->).
  apply Ok_inj in Q2'. subst b2''. rewrite app_nil_r in *.
  exists n1, (zlen b1'), b1', sc, n2, (zlen b2'), b2', ls. repeat (split; [auto; fail|]). rewrite <- !app_assoc. reflexivity.
Qed.
Lemma parse_layout e sch bytes rest : layout e = Ok bytes -> python_value (ed_props e) -> Forall2 layer_reads (ed_layers e) sch ->
  NoDup (map el_name (ed_layers e)) -> NoDup (dkeys (ed_texts e)) -> parse (bytes ++ rest) = Ok (read_as e sch).
Proof.
  intros H Pp F ND NT. apply layout_inv in H. destruct H as (n1 & k1 & b1 & sc & n2 & k2 & b2 & ls & P1 & _ & Q1 & S & P2 & _ & Q2 & L & ->).
  unfold parse. rewrite <- !app_assoc. replace (firstn 4 (magic ++ n1 ++ b1 ++ sc ++ n2 ++ b2 ++ ls ++ rest)) with magic by reflexivity.
  replace (skipn 4 (magic ++ n1 ++ b1 ++ sc ++ n2 ++ b2 ++ ls ++ rest)) with (n1 ++ b1 ++ sc ++ n2 ++ b2 ++ ls ++ rest) by reflexivity.
  change (list_eqb N.eqb magic magic) with true. cbv iota.
  rewrite (skip1_pack _ _ _ (pv_int _) P1). cbn [rbind]. rewrite (unpack1_pack _ _ _ Pp Q1). cbn [rbind].
  rewrite (decode_schema_pack _ _ _ _ S F ND). cbn [rbind]. rewrite (skip1_pack _ _ _ (pv_int _) P2). cbn [rbind].
  rewrite (unpack1_pack _ _ _ (pv_texts _ NT) Q2). cbn [rbind]. rewrite as_texts_map. cbn [rbind].
  rewrite (read_layers_pack _ _ _ _ L F). reflexivity.
Qed.
