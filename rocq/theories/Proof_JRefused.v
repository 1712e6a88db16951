(** What the Java decoder refuses (MsgpackCodec.java 428-613, 653-665), after Spec_JRefused.v. *)
From Verif Require Import PyBase PyBaseFacts Model_Text Model_Heap Model_Layer Model_Types Model_Msgpack Model_Document Model_Codec Model_JUnits Model_JLayer Model_JStream Model_JCodec
  Spec_Layer Spec_Types Spec_Msgpack Spec_Document Spec_Codec Spec_JUnits Spec_JCodec Spec_Names Spec_JRefused Proof_Text Proof_Msgpack Proof_Layout Proof_Codec Proof_JStream Proof_JUnits Proof_JCodec Proof_Names.
Local Open Scope Z_scope.
Local Arguments s : simpl never.
Notation entry := (fun kv : pystr * mobj => let* k := pack_str (fst kv) in let* v := pack (snd kv) in Ok (k ++ v)).

(** ** maps *)
Lemma kept_prop o : kept o -> exists v, jprop o = Ok v.
Proof. destruct o; cbn; try contradiction; eauto. Qed.
Lemma kept_arg o : kept o -> exists v, jarg o = Ok v.
Proof. destruct o; cbn; try contradiction; eauto. Qed.
Lemma other_prop o : ~ kept o -> jprop o = Err NotImplementedError.
Proof. destruct o; cbn; tauto. Qed.
Lemma other_arg o : ~ kept o -> jarg o = Err NotImplementedError.
Proof. destruct o; cbn; tauto. Qed.
Lemma map_kept conv (C : forall o, kept o -> exists v, conv o = Ok v) d : kept_all d -> forall acc b rest m, concatM entry d = Ok b -> short b ->
  exists acc', jread_map conv (length d + m) acc (b ++ rest) = jread_map conv m acc' rest.
Proof.
  induction 1 as [|[k o] d [K P] _ IH]; intros acc b rest m E S.
  - apply Ok_inj in E. subst b. exists acc. reflexivity.
  - apply concatM_cons in E. destruct E as (q1 & q2 & E1 & E2 & ->). apply entry_inv in E1. destruct E1 as (p1 & p2 & Ek & Ev & ->). cbn [fst snd] in *.
    destruct (C o K) as [v Hv]. cbn [length Nat.add jread_map]. rewrite <- !app_assoc. rewrite (mu_string_pack _ _ _ Ek (short_l _ _ (short_l _ _ S))). cbn [rbind].
    rewrite (mu_value_pack _ _ _ P Ev). cbn [rbind]. rewrite Hv. cbn [rbind]. apply IH; [exact E2|exact (short_r _ _ S)].
Qed.
Lemma map_refused conv (C : forall o, kept o -> exists v, conv o = Ok v) (Cn : forall o, ~ kept o -> conv o = Err NotImplementedError) a k o a' b rest :
  kept_all a -> ~ kept o -> python_value o -> concatM entry (a ++ (k, o) :: a') = Ok b -> short b ->
  jread_map conv (length (a ++ (k, o) :: a')) [] (b ++ rest) = Err NotImplementedError.
Proof.
  intros Ka Ko P E S. apply concatM_app in E. destruct E as (b1 & b2 & E1 & E2 & ->). rewrite app_length, <- app_assoc.
  destruct (map_kept conv C a Ka [] b1 (b2 ++ rest) (length ((k, o) :: a')) E1 (short_l _ _ S)) as [acc ->]. cbn [length jread_map].
  apply concatM_cons in E2. destruct E2 as (q1 & q2 & E2 & E3 & ->). apply entry_inv in E2. destruct E2 as (p1 & p2 & Ek & Ev & ->). cbn [fst snd] in *. pose proof (short_r _ _ S) as S2.
  rewrite <- !app_assoc. rewrite (mu_string_pack _ _ _ Ek (short_l _ _ (short_l _ _ S2))). cbn [rbind]. rewrite (mu_value_pack _ _ _ P Ev). cbn [rbind]. rewrite (Cn o Ko). reflexivity.
Qed.
Lemma map_whole conv (C : forall o, kept o -> exists v, conv o = Ok v) d b rest : kept_all d -> concatM entry d = Ok b -> short b -> exists acc, jread_map conv (length d) [] (b ++ rest) = Ok (acc, rest).
Proof.
  intros K E S. destruct (map_kept conv C d K [] b rest O E S) as [acc H]. rewrite Nat.add_0_r in H. exists acc. exact H.
Qed.
(** ** properties *)
Lemma props_read ps n b rest : pack (MInt (zlen b)) = Ok n -> pack (MMap ps) = Ok b -> short b -> exists b', concatM entry ps = Ok b' /\ short b' /\
  jread_props (n ++ b ++ rest) = jread_map jprop (length ps) [] (b' ++ rest).
Proof.
  intros Hn H S. unfold jread_props. rewrite (mu_int_pack _ _ _ Hn) by (pose proof (zlen_nonneg b); unfold int_range; lia). cbn [rbind].
  pose proof (map_short _ _ H S) as R. destruct (map_inv' _ _ H) as (hd & b' & Hh & E & ->). rewrite <- app_assoc. rewrite (mu_map_pack _ _ _ R Hh). cbn [rbind]. unfold zlen. rewrite Nat2Z.id.
  exists b'. split; [exact E|]. split; [exact (short_r _ _ S)|reflexivity].
Qed.
(** ** fields *)
Lemma bare_ok x : In x bare_types -> exists t, jplain x = Ok t.
Proof. cbn. intros H. repeat (destruct H as [<-|H]; [eexists; vm_compute; reflexivity|]). destruct H. Qed.
Lemma field_step f b rest : pack_all (field_objs f) = Ok b -> short b -> field_kept f -> exists t, jread_field (b ++ rest) = Ok (ef_name f, t, rest).
Proof.
  unfold field_kept, field_objs, jread_field. intros H S K. destruct (ef_args f) as [a|].
  - apply pack_all_cons in H. destruct H as (p1 & q1 & E1 & H & ->). apply pack_all_cons in H. destruct H as (p2 & q2 & E2 & H & ->).
    apply pack_all_cons in H. destruct H as (p3 & q3 & E3 & H & ->). apply pack_all_cons in H. destruct H as (p4 & q4 & E4 & H & ->). apply Ok_inj in H. subst q4.
    rewrite app_nil_r in *. rewrite <- !app_assoc. rewrite (mu_string_pack _ _ _ E1) by (apply short_l in S; exact S). cbn [rbind]. apply short_r in S.
    rewrite (mu_bool_pack _ _ _ E2). cbn [rbind]. apply short_r in S. rewrite (mu_string_pack _ _ _ E3) by (apply short_l in S; exact S). cbn [rbind]. apply short_r in S.
    pose proof (map_short _ _ E4 S) as R. destruct (map_inv' _ _ E4) as (hd & b' & Hh & E & ->). rewrite <- app_assoc. rewrite (mu_map_pack _ _ _ R Hh). cbn [rbind].
    unfold zlen. rewrite Nat2Z.id. apply short_r in S. destruct (map_whole jarg kept_arg a b' rest K E S) as [acc ->]. cbn [rbind]. eauto.
  - apply pack_all_cons in H. destruct H as (p1 & q1 & E1 & H & ->). apply pack_all_cons in H. destruct H as (p2 & q2 & E2 & H & ->).
    apply pack_all_cons in H. destruct H as (p3 & q3 & E3 & H & ->). apply Ok_inj in H. subst q3.
    rewrite app_nil_r in *. rewrite <- !app_assoc. rewrite (mu_string_pack _ _ _ E1) by (apply short_l in S; exact S). cbn [rbind]. apply short_r in S.
    rewrite (mu_bool_pack _ _ _ E2). cbn [rbind]. apply short_r in S. rewrite (mu_string_pack _ _ _ E3) by exact S. cbn [rbind]. destruct (bare_ok _ K) as [t ->]. cbn [rbind]. eauto.
Qed.
Lemma plain_unknown x : ~ In x (map snd wire_names) -> jplain x = Err AttributeError.
Proof. intros H. unfold jplain. rewrite (proj2 (names_read x JTMissing)); [reflexivity|]. right. auto. Qed.
Lemma plain_bare x : In x (map snd wire_names) -> ~ In x bare_types -> jplain x = Err NotImplementedError.
Proof. cbn [map snd wire_names]. intros H N. repeat (destruct H as [<-|H]; [first [vm_compute; reflexivity|exfalso; apply N; vm_compute; tauto]|]). destruct H. Qed.
Lemma field_flaw names f x b rest : pack_all (field_objs f) = Ok b -> short b -> field_refused names f x -> (exists t, x = ValueError /\ In (ef_name f) names /\ jread_field (b ++ rest) = Ok (ef_name f, t, rest)) \/ jread_field (b ++ rest) = Err x.
Proof.
  intros H S R. destruct R as [A U|A I U|a k o a' A Ka Ko P|K I].
  - right. unfold field_objs in H. rewrite A in H. unfold jread_field. apply pack_all_cons in H. destruct H as (p1 & q1 & E1 & H & ->). apply pack_all_cons in H. destruct H as (p2 & q2 & E2 & H & ->).
    apply pack_all_cons in H. destruct H as (p3 & q3 & E3 & H & ->). rewrite <- !app_assoc. rewrite (mu_string_pack _ _ _ E1) by (apply short_l in S; exact S). cbn [rbind]. apply short_r in S.
    rewrite (mu_bool_pack _ _ _ E2). cbn [rbind]. apply short_r in S. rewrite (mu_string_pack _ _ _ E3) by (apply short_l in S; exact S). cbn [rbind]. rewrite (plain_unknown _ U). reflexivity.
  - right. unfold field_objs in H. rewrite A in H. unfold jread_field. apply pack_all_cons in H. destruct H as (p1 & q1 & E1 & H & ->). apply pack_all_cons in H. destruct H as (p2 & q2 & E2 & H & ->).
    apply pack_all_cons in H. destruct H as (p3 & q3 & E3 & H & ->). rewrite <- !app_assoc. rewrite (mu_string_pack _ _ _ E1) by (apply short_l in S; exact S). cbn [rbind]. apply short_r in S.
    rewrite (mu_bool_pack _ _ _ E2). cbn [rbind]. apply short_r in S. rewrite (mu_string_pack _ _ _ E3) by (apply short_l in S; exact S). cbn [rbind]. rewrite (plain_bare _ I U). reflexivity.
  - right. unfold field_objs in H. rewrite A in H. unfold jread_field. apply pack_all_cons in H. destruct H as (p1 & q1 & E1 & H & ->). apply pack_all_cons in H. destruct H as (p2 & q2 & E2 & H & ->).
    apply pack_all_cons in H. destruct H as (p3 & q3 & E3 & H & ->). apply pack_all_cons in H. destruct H as (p4 & q4 & E4 & H & ->). apply Ok_inj in H. subst q4.
    rewrite app_nil_r in *. rewrite <- !app_assoc. rewrite (mu_string_pack _ _ _ E1) by (apply short_l in S; exact S). cbn [rbind]. apply short_r in S.
    rewrite (mu_bool_pack _ _ _ E2). cbn [rbind]. apply short_r in S. rewrite (mu_string_pack _ _ _ E3) by (apply short_l in S; exact S). cbn [rbind]. apply short_r in S.
    pose proof (map_short _ _ E4 S) as R. destruct (map_inv' _ _ E4) as (hd & b' & Hh & E & ->). rewrite <- app_assoc. rewrite (mu_map_pack _ _ _ R Hh). cbn [rbind].
    unfold zlen. rewrite Nat2Z.id. apply short_r in S. rewrite (map_refused jarg kept_arg other_arg a k o a' b' rest Ka Ko P E S). reflexivity.
  - left. destruct (field_step f b rest H S K) as [t E]. exists t. auto.
Qed.
Lemma fields_steps fs : Forall field_kept fs -> forall acc b rest m, pack_all (flat_map field_objs fs) = Ok b -> short b -> NoDup (dkeys acc ++ map ef_name fs) ->
  exists fts, map fst fts = map ef_name fs /\ jread_fields (length fs + m) acc (b ++ rest) = jread_fields m (acc ++ fts) rest.
Proof.
  induction 1 as [|f fs K _ IH]; intros acc b rest m H S ND; cbn [flat_map length Nat.add jread_fields map] in *.
  - apply Ok_inj in H. subst b. exists []. rewrite app_nil_r. auto.
  - apply concatM_app in H. destruct H as (p1 & p2 & E1 & E2 & ->). rewrite <- app_assoc. destruct (field_step f p1 (p2 ++ rest) E1 (short_l _ _ S) K) as [t ->]. cbn [rbind fst].
    rewrite not_in_dmem by (apply NoDup_remove_2 in ND; intros I; apply ND; apply in_or_app; left; exact I).
    destruct (IH (acc ++ [(ef_name f, t)]) p2 rest m E2 (short_r _ _ S)) as (fts & Ef & ->); [unfold dkeys in *; rewrite map_app; cbn [map fst]; rewrite <- app_assoc; exact ND|].
    exists ((ef_name f, t) :: fts). cbn [map fst]. rewrite Ef, <- app_assoc. auto.
Qed.
Lemma fields_flaw fs f fs' x b rest : Forall field_kept fs -> NoDup (map ef_name fs) -> field_refused (map ef_name fs) f x -> pack_all (flat_map field_objs (fs ++ f :: fs')) = Ok b -> short b ->
  jread_fields (length (fs ++ f :: fs')) [] (b ++ rest) = Err x.
Proof.
  intros K ND R H S. rewrite flat_map_app in H. apply concatM_app in H. destruct H as (p1 & p2 & E1 & E2 & ->). rewrite app_length, <- app_assoc.
  destruct (fields_steps fs K [] p1 (p2 ++ rest) (length (f :: fs')) E1 (short_l _ _ S) ND) as (fts & Ef & ->). cbn [length jread_fields app]. cbn [flat_map] in E2. apply concatM_app in E2. destruct E2 as (p3 & p4 & E3 & E4 & ->).
  rewrite <- app_assoc. destruct (field_flaw _ f x p3 (p4 ++ rest) E3 (short_l _ _ (short_r _ _ S)) R) as [(t & -> & I & ->)| ->]; [|reflexivity]. cbn [rbind fst].
  assert (D : dmem fts (ef_name f) = true) by (apply dmem_In; unfold dkeys; rewrite Ef; exact I). rewrite D. reflexivity.
Qed.
(** ** layers of the schema *)
Lemma schemas_steps ls : Forall layer_kept ls -> forall b rest more, pack_all (schema_objs ls) = Ok b -> short b -> exists sch, map fst sch = map el_name ls /\ Forall2 (fun l kf => dkeys (snd kf) = map ef_name (el_fields l)) ls sch /\
  jread_schemas (map el_name ls ++ more) (b ++ rest) = let* (q, r) := jread_schemas more rest in Ok (sch ++ q, r).
Proof.
  induction 1 as [|l ls [K ND] _ IH]; intros b rest more H S.
  - apply Ok_inj in H. subst b. exists []. split; [reflexivity|]. split; [constructor|]. cbn [map app]. destruct (jread_schemas more rest) as [[q r]|]; reflexivity.
  - unfold schema_objs in H. cbn [flat_map] in H. rewrite <- app_comm_cons in H. apply pack_all_cons in H. destruct H as (p1 & q1 & E1 & H & ->). fold (schema_objs ls) in H.
    apply concatM_app in H. destruct H as (p2 & p3 & E2 & E3 & ->). pose proof (fields_len _ _ E2) as FL. pose proof (zlen_nonneg (el_fields l)) as FN.
    pose proof (short_l _ _ (short_r _ _ S)) as S2. pose proof (short_r _ _ (short_r _ _ S)) as S3. rewrite <- !app_assoc. cbn [map app jread_schemas].
    rewrite (mu_int_pack _ _ _ E1) by (unfold int_range; lia). cbn [rbind]. unfold zlen at 1. rewrite Nat2Z.id.
    destruct (fields_steps (el_fields l) K [] p2 (p3 ++ rest) O E2 S2 ND) as (fts & Ef & G). rewrite Nat.add_0_r in G. rewrite G. cbn [jread_fields rbind app].
    destruct (IH p3 rest more E3 S3) as (sch & A & B & ->). exists ((el_name l, fts) :: sch). cbn [map fst]. rewrite A. split; [reflexivity|]. split; [constructor; [exact Ef|exact B]|].
    destruct (jread_schemas more rest) as [[q r]|]; reflexivity.
Qed.
Lemma schema_names ls b rest : pack_all (MArr (map (fun l => MStr (el_name l)) ls) :: schema_objs ls) = Ok b -> short b -> NoDup (map el_name ls) ->
  exists b', pack_all (schema_objs ls) = Ok b' /\ short b' /\ jread_schema (b ++ rest) = jread_schemas (map el_name ls) (b' ++ rest).
Proof.
  intros H S ND. apply pack_all_cons in H. destruct H as (p1 & p2 & E1 & E2 & ->). rewrite <- app_assoc. unfold jread_schema.
  pose proof (short_l _ _ S) as S1. pose proof (arr_short _ _ E1 S1) as R. destruct (arr_inv _ _ E1) as (hd & b' & Hh & E & ->). rewrite <- app_assoc.
  rewrite (mu_array_pack _ _ _ R Hh). cbn [rbind]. unfold zlen. rewrite Nat2Z.id, map_length. rewrite <- (map_length el_name ls).
  replace (map (fun l => MStr (el_name l)) ls) with (map MStr (map el_name ls)) in E by (rewrite map_map; reflexivity).
  rewrite (jread_names_pack _ _ _ E (short_r _ _ S1)). cbn [rbind]. rewrite (names_nodup_true _ ND). exists p2. split; [exact E2|]. split; [exact (short_r _ _ S)|reflexivity].
Qed.
Lemma schema_flaw ls l ls' fs f fs' x b rest : Forall layer_kept ls -> el_fields l = fs ++ f :: fs' -> Forall field_kept fs -> NoDup (map ef_name fs) -> field_refused (map ef_name fs) f x ->
  pack_all (schema_objs (ls ++ l :: ls')) = Ok b -> short b -> jread_schemas (map el_name (ls ++ l :: ls')) (b ++ rest) = Err x.
Proof.
  intros K El Kf ND R H S. unfold schema_objs in H. rewrite flat_map_app in H. apply concatM_app in H. destruct H as (p1 & p2 & E1 & E2 & ->). rewrite map_app, <- app_assoc.
  destruct (schemas_steps ls K p1 (p2 ++ rest) (map el_name (l :: ls')) E1 (short_l _ _ S)) as (sch & _ & _ & ->). apply short_r in S.
  cbn [flat_map] in E2. rewrite <- app_comm_cons in E2. apply pack_all_cons in E2. destruct E2 as (q1 & q2 & F1 & F2 & ->). apply concatM_app in F2. destruct F2 as (p3 & p4 & E3 & E4 & ->).
  pose proof (fields_len _ _ E3) as FL. pose proof (zlen_nonneg (el_fields l)) as FN. pose proof (short_l _ _ (short_r _ _ S)) as S2. rewrite <- !app_assoc. cbn [map jread_schemas].
  rewrite (mu_int_pack _ _ _ F1) by (unfold int_range; lia). cbn [rbind]. unfold zlen at 1. rewrite Nat2Z.id. rewrite El in *. rewrite (fields_flaw fs f fs' x p3 (p4 ++ rest) Kf ND R E3 S2). reflexivity.
Qed.
(** ** texts *)
Notation text_entries ts := (map (fun kt : pystr * list pystr => (fst kt, MArr (map MStr (snd kt)))) ts).
Lemma texts_steps ts : forall acc b rest m, concatM entry (text_entries ts) = Ok b -> short b -> NoDup (dkeys acc ++ map fst ts) ->
  jread_texts_n (length ts + m) acc (b ++ rest) = jread_texts_n m (acc ++ map jentry ts) rest.
Proof.
  induction ts as [|[k parts] ts IH]; intros acc b rest m H S ND; cbn [map length Nat.add jread_texts_n] in *; [apply Ok_inj in H; subst b; rewrite app_nil_r; reflexivity|].
  apply concatM_cons in H. destruct H as (q1 & q2 & E1 & E2 & ->). apply entry_inv in E1. destruct E1 as (p1 & p2 & Ek & Ev & ->). cbn [fst snd] in *.
  pose proof (short_l _ _ (short_l _ _ S)) as S1. pose proof (short_r _ _ (short_l _ _ S)) as S2. pose proof (short_r _ _ S) as S3. rewrite <- !app_assoc.
  rewrite (mu_string_pack _ _ _ Ek S1). cbn [rbind]. pose proof (arr_short _ _ Ev S2) as R. destruct (arr_inv _ _ Ev) as (hd & b' & Hh & E & ->). rewrite <- app_assoc.
  rewrite (mu_array_pack _ _ _ R Hh). cbn [rbind]. unfold zlen at 1. rewrite Nat2Z.id, map_length. rewrite (jread_parts_pack parts [] [0] b' _ E (short_r _ _ S2)). cbn [rbind].
  rewrite not_in_dmem by (apply NoDup_remove_2 in ND; intros I; apply ND; apply in_or_app; left; exact I).
  rewrite (IH _ q2 rest m E2 S3); [rewrite <- app_assoc; reflexivity|]. unfold dkeys in *. rewrite map_app. cbn [map fst] in *. rewrite <- app_assoc. exact ND.
Qed.
Lemma texts_flaw ts k p ts' n b rest : NoDup (map fst ts) -> In k (map fst ts) -> pack (MInt (zlen b)) = Ok n -> pack (texts_obj (ts ++ (k, p) :: ts')) = Ok b -> short b -> jread_texts (n ++ b ++ rest) = Err ValueError.
Proof.
  intros ND I Hn H S. unfold jread_texts. rewrite (mu_int_pack _ _ _ Hn) by (pose proof (zlen_nonneg b); unfold int_range; lia). cbn [rbind].
  unfold texts_obj in H. pose proof (map_short _ _ H S) as R. destruct (map_inv' _ _ H) as (hd & b' & Hh & E & ->). rewrite <- app_assoc. rewrite (mu_map_pack _ _ _ R Hh). cbn [rbind].
  unfold zlen. rewrite Nat2Z.id, map_length, app_length. apply short_r in S. rewrite map_app in E. apply concatM_app in E. destruct E as (b1 & b2 & E1 & E2 & ->). rewrite <- app_assoc.
  rewrite (texts_steps ts [] b1 (b2 ++ rest) (length ((k, p) :: ts')) E1 (short_l _ _ S) ND). cbn [length jread_texts_n app map] in *. apply short_r in S.
  apply concatM_cons in E2. destruct E2 as (q1 & q2 & F1 & F2 & ->). apply entry_inv in F1. destruct F1 as (p1 & p2 & Ek & Ev & ->). cbn [fst snd] in *.
  pose proof (short_l _ _ (short_l _ _ S)) as S1. pose proof (short_r _ _ (short_l _ _ S)) as S2. rewrite <- !app_assoc. rewrite (mu_string_pack _ _ _ Ek S1). cbn [rbind].
  pose proof (arr_short _ _ Ev S2) as R2. destruct (arr_inv _ _ Ev) as (hd2 & b3 & Hh2 & E3 & ->). rewrite <- app_assoc. rewrite (mu_array_pack _ _ _ R2 Hh2). cbn [rbind]. unfold zlen at 1. rewrite Nat2Z.id, map_length.
  rewrite (jread_parts_pack p [] [0] b3 _ E3 (short_r _ _ S2)). cbn [rbind].
  assert (D : dmem (map jentry ts) k = true) by (apply dmem_In; unfold dkeys; rewrite map_map; exact I). rewrite D. reflexivity.
Qed.
(** ** the whole *)
Theorem contents_refuse e x bytes rest : layout e = Ok bytes -> short bytes -> NoDup (map el_name (ed_layers e)) -> contents_refused e x -> java_decode (bytes ++ rest) = Err x.
Proof.
  intros L Sb Nl R. destruct (layout_inv _ _ L) as (n1 & k1 & b1 & sc & n2 & k2 & b2 & bl & H1 & -> & H2 & H3 & H4 & -> & H5 & H6 & ->). clear L.
  pose proof (short_r _ _ Sb) as S0. pose proof (short_r _ _ S0) as S1. pose proof (short_l _ _ S1) as Sb1. pose proof (short_r _ _ S1) as S2. pose proof (short_l _ _ S2) as Ssc. pose proof (short_r _ _ S2) as S3.
  pose proof (short_r _ _ S3) as S4. pose proof (short_l _ _ S4) as Sb2. pose proof (short_r _ _ S4) as Sbl.
  unfold java_decode. rewrite <- !app_assoc. unfold mu_payload. rewrite (take_app 4 magic) by reflexivity. cbn [rbind]. change (negb (list_eqb N.eqb magic magic)) with false. cbv iota.
  destruct R as [a k o a' Ep Ka Ko P|ps ls l ls' fs f fs' x Ep Kp El Kl Ef Kf ND R|ps ts k p ts' Ep Kp Kl Et ND I|ps l ls Ep Kp Kl ND El Nn]; rewrite Ep in H2.
  - destruct (props_read _ n1 b1 (sc ++ n2 ++ b2 ++ bl ++ rest) H1 H2 Sb1) as (b' & E & S & ->). rewrite (map_refused jprop kept_prop other_prop a k o a' b' _ Ka Ko P E S). reflexivity.
  - destruct (props_read _ n1 b1 (sc ++ n2 ++ b2 ++ bl ++ rest) H1 H2 Sb1) as (b' & E & S & ->). destruct (map_whole jprop kept_prop ps b' (sc ++ n2 ++ b2 ++ bl ++ rest) Kp E S) as [acc ->]. cbn [rbind].
    destruct (schema_names _ sc (n2 ++ b2 ++ bl ++ rest) H3 Ssc Nl) as (sb & Es & Ss & ->). rewrite El in *. rewrite (schema_flaw ls l ls' fs f fs' x sb _ Kl Ef Kf ND R Es Ss). reflexivity.
  - destruct (props_read _ n1 b1 (sc ++ n2 ++ b2 ++ bl ++ rest) H1 H2 Sb1) as (b' & E & S & ->). destruct (map_whole jprop kept_prop ps b' (sc ++ n2 ++ b2 ++ bl ++ rest) Kp E S) as [acc ->]. cbn [rbind].
    destruct (schema_names _ sc (n2 ++ b2 ++ bl ++ rest) H3 Ssc Nl) as (sb & Es & Ss & ->). destruct (schemas_steps _ Kl sb (n2 ++ b2 ++ bl ++ rest) [] Es Ss) as (sch & _ & _ & G). rewrite app_nil_r in G. rewrite G. cbn [jread_schemas rbind].
    rewrite Et in H5. rewrite (texts_flaw ts k p ts' n2 b2 (bl ++ rest) ND I H4 H5 Sb2). reflexivity.
  - destruct (props_read _ n1 b1 (sc ++ n2 ++ b2 ++ bl ++ rest) H1 H2 Sb1) as (b' & E & S & ->). destruct (map_whole jprop kept_prop ps b' (sc ++ n2 ++ b2 ++ bl ++ rest) Kp E S) as [acc ->]. cbn [rbind].
    destruct (schema_names _ sc (n2 ++ b2 ++ bl ++ rest) H3 Ssc Nl) as (sb & Es & Ss & ->). destruct (schemas_steps _ Kl sb (n2 ++ b2 ++ bl ++ rest) [] Es Ss) as (sch & _ & Fs & G). rewrite app_nil_r in G. rewrite G. cbn [jread_schemas rbind]. rewrite app_nil_r.
    rewrite (jread_texts_pack (ed_texts e) n2 b2 (bl ++ rest) ND H4 H5 Sb2). cbn [rbind]. rewrite El in *. inversion Fs as [|? [k fs] ? sch' _ Fs']; subst. cbn [jread_layers].
    apply concatM_cons in H6. destruct H6 as (c1 & c2 & E1 & E2 & ->). destruct (section_inv _ _ E1) as (m1 & body & q & M1 & M2 & -> & ->).
    unfold layer_objs in M2. apply pack_all_cons in M2. destruct M2 as (m2 & m3 & M2 & M3 & ->). unfold jread_layer. rewrite <- !app_assoc. pose proof (short_r _ _ (short_l _ _ Sbl)) as Sm.
    rewrite (mu_int_pack _ _ _ M1) by (match goal with |- int_range (zlen ?y) => pose proof (zlen_nonneg y) end; unfold int_range; lia). cbn [rbind].
    rewrite (mu_int_pack _ _ _ M2) by (unfold int_range; lia). cbn [rbind]. destruct (Z.ltb_spec (el_num l) 0); [reflexivity|lia].
Qed.
(** ** the first four bytes *)
Lemma no_magic bs : zlen bs < 4 -> java_decode bs = Err OutOfData.
Proof.
  intros H. unfold java_decode, mu_payload, take. destruct (Z.ltb_spec (zlen bs) 4); [reflexivity|lia].
Qed.
Lemma other_magic a bs : zlen a = 4 -> a <> [68; 77; 95; 49]%N -> java_decode (a ++ bs) = Err IOError.
Proof.
  intros L N. unfold java_decode, mu_payload. rewrite (take_app 4 a bs L). cbn [rbind]. destruct (list_eqb N.eqb a magic) eqn:E; [|reflexivity]. exfalso. apply N.
  revert E. unfold magic. unfold zlen in L. destruct a as [|x1 [|x2 [|x3 [|x4 [|x5 a]]]]]; cbn [length] in L; try lia. cbn [list_eqb]. rewrite !Bool.andb_true_iff, !N.eqb_eq. intros (-> & -> & -> & -> & _). reflexivity.
Qed.
