(** Documents in other spellings. *)
From Verif Require Import PyBase PyBaseFacts Model_Text Model_Heap Model_Layer Model_Types Model_Msgpack Model_Document Model_Codec Spec_Layer Spec_Codec Spec_Msgpack Spec_Spell
  Proof_Msgpack Proof_Layout Proof_Codec2 Proof_Spell Proof_Spell2.
Local Open Scope Z_scope.

(** ** packed bytes are bytes *)
Lemma utf8_char_bytes c b : utf8_char c = Ok b -> bytes b.
Proof.
  intros H. apply utf8_of_char in H. destruct H as [c H|c H|c H _|c H]; unfold bytes; repeat (apply Forall_cons || apply Forall_nil); try lia;
  repeat match goal with |- context [(?a mod 64)%N] => pose proof (N.mod_upper_bound a 64 ltac:(lia)); generalize dependent (a mod 64)%N; intros end; try lia.
  - assert (c / 64 < 32)%N by (apply N.div_lt_upper_bound; lia). lia.
  - assert (c / 4096 < 16)%N by (apply N.div_lt_upper_bound; lia). lia.
  - assert (c / 262144 < 5)%N by (apply N.div_lt_upper_bound; lia). lia.
Qed.
Lemma utf8_bytes x : forall b, utf8_encode x = Ok b -> bytes b.
Proof.
  induction x as [|c x IH]; intros b H; cbn [utf8_encode] in H; [apply Ok_inj in H; subst; constructor|]. destruct (utf8_char c) as [a|] eqn:E; [|discriminate]. cbn [rbind] in H.
  destruct (utf8_encode x) as [q|]; [|discriminate]. apply Ok_inj in H. subst b. apply bytes_app. split; [eapply utf8_char_bytes; eassumption|apply IH; reflexivity].
Qed.
Lemma pack_int_bytes z p : pack_int z = Ok p -> bytes p.
Proof.
  unfold pack_int. repeat match goal with |- context [?a <? ?b] => destruct (Z.ltb_spec a b) end; intros H'; try discriminate; apply Ok_inj in H'; subst p;
    try (constructor; [lia|apply be_bytes]); constructor; try constructor; try lia.
Qed.
Ltac head_bytes := repeat match goal with |- context [?a <? ?b] => destruct (Z.ltb_spec a b) end; intros H'; try discriminate; apply Ok_inj in H'; subst; (constructor; [lia|first [apply be_bytes|constructor]]).
Lemma str_head_bytes n p : 0 <= n -> str_head n = Ok p -> bytes p.
Proof. intros Hn. unfold str_head. head_bytes. Qed.
Lemma bin_head_bytes n p : 0 <= n -> bin_head n = Ok p -> bytes p.
Proof. intros Hn. unfold bin_head. head_bytes. Qed.
Lemma arr_head_bytes n p : 0 <= n -> arr_head n = Ok p -> bytes p.
Proof. intros Hn. unfold arr_head. head_bytes. Qed.
Lemma map_head_bytes n p : 0 <= n -> map_head n = Ok p -> bytes p.
Proof. intros Hn. unfold map_head. head_bytes. Qed.
Lemma pack_str_bytes x p : pack_str x = Ok p -> bytes p.
Proof.
  unfold pack_str. intros H. destruct (utf8_encode x) as [b|] eqn:E; [|discriminate]. cbn [rbind] in H. destruct (str_head (zlen b)) as [hd|] eqn:Eh; [|discriminate]. cbn [rbind] in H. apply Ok_inj in H. subst p.
  apply bytes_app. split; [refine (str_head_bytes _ _ (zlen_nonneg _) _); eassumption|eapply utf8_bytes; eassumption].
Qed.
Lemma concat_bytes {A} (f : A -> res (list N)) l : Forall (fun x => forall p, f x = Ok p -> bytes p) l -> forall p, concatM f l = Ok p -> bytes p.
Proof.
  induction 1 as [|x l Hx Hl IH]; intros p Hp; cbn [concatM] in Hp; [apply Ok_inj in Hp; subst; constructor|]. destruct (f x) as [a|]; [|discriminate]. cbn [rbind] in Hp.
  destruct (concatM f l) as [b|]; [|discriminate]. apply Ok_inj in Hp. subst p. apply bytes_app. split; [apply Hx; reflexivity|apply IH; reflexivity].
Qed.
Lemma pack_bytes o : python_value o -> forall p, pack o = Ok p -> bytes p.
Proof.
  induction o using mobj_rect'; intros V p Hp; cbn [pack] in Hp.
  - apply Ok_inj in Hp. subst p. constructor; [lia|constructor].
  - destruct b; apply Ok_inj in Hp; subst p; (constructor; [lia|constructor]).
  - eapply pack_int_bytes; eassumption.
  - apply Ok_inj in Hp. subst p. constructor; [lia|apply be_bytes].
  - eapply pack_str_bytes; eassumption.
  - destruct (bin_head (zlen x)) as [hd|] eqn:E; [|discriminate]. cbn [rbind] in Hp. apply Ok_inj in Hp. subst p. inversion V; subst. apply bytes_app. split; [refine (bin_head_bytes _ _ (zlen_nonneg _) _); eassumption|assumption].
  - destruct (arr_head (zlen l)) as [hd|] eqn:E; [|discriminate]. cbn [rbind] in Hp. destruct (concatM pack l) as [b|] eqn:Eb; [|discriminate]. apply Ok_inj in Hp. subst p. inversion V as [| | | | | |? Vl|]; subst.
    apply bytes_app. split; [refine (arr_head_bytes _ _ (zlen_nonneg _) _); eassumption|]. refine (concat_bytes pack l _ b Eb). rewrite Forall_forall in *. intros o Ho. apply H; [assumption|apply Vl; assumption].
  - destruct (map_head (zlen d)) as [hd|] eqn:E; [|discriminate]. cbn [rbind] in Hp.
    match type of Hp with (let* b := ?g in _) = _ => destruct g as [b|] eqn:Eb end; [|discriminate]. apply Ok_inj in Hp. subst p. inversion V as [| | | | | | |? _ Vl]; subst.
    apply bytes_app. split; [refine (map_head_bytes _ _ (zlen_nonneg _) _); eassumption|]. refine (concat_bytes _ d _ b Eb). rewrite Forall_forall in *. intros [k v] Hkv q Hq. cbn [fst snd] in Hq.
    destruct (pack_str k) as [a|] eqn:Ea; [|discriminate]. cbn [rbind] in Hq. destruct (pack v) as [c|] eqn:Ec; [|discriminate]. apply Ok_inj in Hq. subst q. apply bytes_app.
    split; [eapply pack_str_bytes; eassumption|]. apply (H v); [apply (in_map snd) in Hkv; exact Hkv| |assumption]. apply Vl. apply (in_map snd) in Hkv. exact Hkv.
Qed.
Lemma pack_spells o p : python_value o -> pack o = Ok p -> bytes p /\ spells p o.
Proof.
  intros V H. pose proof (pack_bytes o V p H) as B. split; [assumption|]. pose proof (unpack1_pack o p [] V H) as U. rewrite app_nil_r in U.
  apply unpack_spells in U; [|assumption]. destruct U as (q & E & S). rewrite app_nil_r in E. subst q. assumption.
Qed.

(** ** reading a file in any spelling *)
Lemma stream_app a : forall b bs, stream bs (a ++ b) <-> exists p q, bs = p ++ q /\ stream p a /\ stream q b.
Proof.
  induction a as [|o a IH]; intros b bs; cbn [app].
  - split; [intros H; exists [], bs; repeat split; [constructor|assumption]|]. intros (p & q & -> & Hp & Hq). inversion Hp; subst. assumption.
  - split.
    + intros H. inversion H as [|p x r os Hp Hr|p x r os Hp Hr]; subst; apply IH in Hr; destruct Hr as (p1 & q & -> & H1 & H2); exists (p ++ p1), q; rewrite app_assoc; (split; [reflexivity|]); (split; [econstructor; eassumption|assumption]).
    + intros (p & q & -> & Hp & Hq). inversion Hp as [|p1 x r os Hx Hr|p1 x r os Hx Hr]; subst; rewrite <- app_assoc; econstructor; try eassumption; apply IH; exists r, q; auto.
Qed.
Lemma stream_some o os bs : stream bs (Some o :: os) -> exists p q, bs = p ++ q /\ spells p o /\ stream q os.
Proof. intros H. inversion H; subst. eauto. Qed.
Lemma stream_any os bs : stream bs (None :: os) -> exists p o q, bs = p ++ q /\ spells p o /\ stream q os.
Proof. intros H. inversion H; subst. eauto 6. Qed.
Ltac some H B := let p := fresh "p" in let q := fresh "q" in let S := fresh "S" in apply stream_some in H; destruct H as (p & q & -> & S & H); apply bytes_app in B; let B1 := fresh "B" in destruct B as [B1 B];
  rewrite <- ?app_assoc; rewrite (spelled_unpack1 _ _ _ B1 S); cbn [rbind as_str as_num truthy].
Lemma skip_spelled p o rest : bytes p -> spells p o -> skip1 (p ++ rest) = Ok (tt, rest).
Proof. intros B S. exact (skip1_unpack1 _ _ _ (spelled_unpack1 p o rest B S)). Qed.
Lemma read_field_any ef ft b rest : bytes b -> stream b (field_values ef) -> field_reads ef ft -> read_field (b ++ rest) = Ok (ft, rest).
Proof.
  destruct ft as [f [c t o]]. intros B H (Hn & Hc & Ht & Ha). cbn [fst snd dt_class dt_name dt_opts] in *. subst f c. unfold field_values in H. unfold read_field. some H B.
  destruct (ef_args ef) as [a|].
  - destruct Ha as [Ha Hp]. some H B. some H B. rewrite Ht. cbn [rbind]. some H B. rewrite Ha. cbn [rbind]. inversion H; subst. reflexivity.
  - subst o. some H B. some H B. rewrite Ht. cbn [rbind]. inversion H; subst. reflexivity.
Qed.
Lemma read_fields_any fs : forall fts b rest acc, bytes b -> stream b (flat_map field_values fs) -> Forall2 field_reads fs fts ->
  NoDup (dkeys (acc ++ fts)) -> read_fields (length fs) acc (b ++ rest) = Ok (acc ++ fts, rest).
Proof.
  induction fs as [|ef fs IH]; intros fts b rest acc B H F ND; inversion F as [|? ft ? fts' F1 F2]; subst.
  - inversion H; subst. rewrite app_nil_r. reflexivity.
  - cbn [flat_map] in H. apply stream_app in H. destruct H as (p1 & p2 & -> & E1 & E2). apply bytes_app in B. destruct B as [B1 B]. cbn [length read_fields].
    rewrite <- app_assoc. rewrite (read_field_any _ _ _ _ B1 E1 F1). cbn [rbind].
    assert (Hm : dmem acc (fst ft) = false).
    { destruct (dmem acc (fst ft)) eqn:E; [|reflexivity]. apply dmem_In in E. unfold dkeys in ND. rewrite map_app in ND. simpl in ND.
      apply NoDup_remove_2 in ND. exfalso. apply ND. apply in_or_app. left. assumption. }
    rewrite Hm. rewrite (IH fts' p2 rest (acc ++ [ft]) B E2 F2).
    + rewrite <- app_assoc. reflexivity.
    + rewrite <- app_assoc. assumption.
Qed.
Lemma read_schemas_any ls : forall sch b rest, bytes b -> stream b (flat_map (fun l => Some (MInt (zlen (el_fields l))) :: flat_map field_values (el_fields l)) ls) -> Forall2 layer_reads ls sch ->
  read_schemas (map el_name ls) (b ++ rest) = Ok (sch, rest).
Proof.
  induction ls as [|el ls IH]; intros sch b rest B H F; inversion F as [|? [k fs] ? sch' F1 F2]; subst.
  - inversion H; subst. reflexivity.
  - destruct F1 as (Hk & Hf & ND & _). cbn [fst snd] in *. subst k. cbn [flat_map] in H. rewrite <- app_comm_cons in H. cbn [map read_schemas]. some H B.
    apply stream_app in H. destruct H as (p2 & p3 & -> & E2 & E3). apply bytes_app in B. destruct B as [B1 B]. rewrite <- !app_assoc.
    unfold zlen. rewrite Nat2Z.id. rewrite (read_fields_any _ _ _ (p3 ++ rest) [] B1 E2 Hf); [|assumption]. cbn [rbind app].
    rewrite (IH _ _ rest B E3 F2). reflexivity.
Qed.
Lemma read_columns_any fs : forall (fts : dict dtype) b rest, length fts = length fs -> bytes b ->
  stream b (flat_map (fun f => [Some (MBool false); Some (MArr (ef_col f))]) fs) -> read_columns fts (b ++ rest) = Ok (map ef_col fs, rest).
Proof.
  induction fs as [|ef fs IH]; intros fts b rest L B H; destruct fts as [|ft fts]; try discriminate.
  - inversion H; subst. reflexivity.
  - cbn [flat_map app] in H. cbn [read_columns]. some H B. some H B. rewrite (IH fts q0 rest); [reflexivity|simpl in L; congruence|assumption|assumption].
Qed.
Lemma read_layers_any ls : forall sch b rest, bytes b ->
  stream b (flat_map (fun l => None :: Some (MInt (el_num l)) :: flat_map (fun f => [Some (MBool false); Some (MArr (ef_col f))]) (el_fields l)) ls) -> Forall2 layer_reads ls sch ->
  read_layers sch (b ++ rest) = Ok (map layer_data ls, rest).
Proof.
  induction ls as [|el ls IH]; intros sch b rest B H F; inversion F as [|? [k fs] ? sch' F1 F2]; subst.
  - inversion H; subst. reflexivity.
  - cbn [flat_map] in H. rewrite <- !app_comm_cons in H. destruct F1 as (Hk & Hf & ND & Hc). cbn [fst snd] in *. cbn [read_layers].
    apply stream_any in H. destruct H as (p & o & q & -> & S & H). apply bytes_app in B. destruct B as [B1 B]. rewrite <- !app_assoc, (skip_spelled _ _ _ B1 S). cbn [rbind]. unfold read_layer. some H B.
    apply stream_app in H. destruct H as (p2 & p3 & -> & E2 & E3). apply bytes_app in B. destruct B as [B2 B]. rewrite <- !app_assoc.
    rewrite (read_columns_any (el_fields el) fs p2 (p3 ++ rest)); [|symmetry; eapply Forall2_length; eassumption|assumption|assumption]. cbn [rbind].
    rewrite (IH _ _ rest B E3 F2). reflexivity.
Qed.
Lemma parse_any e sch bs rest : file_of e bs -> Forall2 layer_reads (ed_layers e) sch -> NoDup (map el_name (ed_layers e)) -> parse (bs ++ rest) = Ok (read_as e sch).
Proof.
  intros (B & b & -> & H) F ND. apply bytes_app in B. destruct B as [_ B]. unfold parse. rewrite <- app_assoc.
  change (firstn 4 ([68; 77; 95; 49]%N ++ b ++ rest)) with magic. change (skipn 4 ([68; 77; 95; 49]%N ++ b ++ rest)) with (b ++ rest). change (list_eqb N.eqb magic magic) with true. cbv iota.
  unfold file_values in H. cbn [app] in H. apply stream_any in H. destruct H as (p & o & q & -> & S & H). apply bytes_app in B. destruct B as [B1 B]. rewrite <- !app_assoc, (skip_spelled _ _ _ B1 S). cbn [rbind].
  some H B. unfold decode_schema. some H B. rewrite <- (map_map el_name MStr), as_strs_map. cbn [rbind]. rewrite names_nodup_true by assumption.
  apply stream_app in H. destruct H as (p2 & p3 & -> & E2 & H). apply bytes_app in B. destruct B as [B9 B]. rewrite <- !app_assoc.
  rewrite (read_schemas_any _ sch _ _ B9 E2 F). cbn [rbind].
  apply stream_any in H. destruct H as (p4 & o4 & q4 & -> & S4 & H). apply bytes_app in B. destruct B as [B8 B]. rewrite <- !app_assoc, (skip_spelled _ _ _ B8 S4). cbn [rbind].
  some H B. fold (texts_obj (ed_texts e)). rewrite as_texts_map. cbn [rbind]. rewrite (read_layers_any _ sch _ _ B H F). reflexivity.
Qed.

(** ** the writer's own file *)
Lemma written_stream os : Forall python_value os -> forall b, pack_all os = Ok b -> bytes b /\ stream b (map Some os).
Proof.
  induction 1 as [|o os Ho H IH]; intros b Hb; [apply Ok_inj in Hb; subst; split; constructor|]. apply pack_all_cons in Hb. destruct Hb as (p1 & p2 & P1 & P2 & ->).
  destruct (pack_spells _ _ Ho P1). destruct (IH _ P2). split; [apply bytes_app; auto|constructor; assumption].
Qed.
Lemma field_values_objs f : field_values f = map Some (field_objs f).
Proof. unfold field_values, field_objs. destruct (ef_args f); reflexivity. Qed.
Lemma flat_map_some {A} (f : A -> list mobj) l : flat_map (fun x => map Some (f x)) l = map Some (flat_map f l).
Proof. induction l as [|x l IH]; [reflexivity|]. cbn [flat_map]. rewrite map_app, IH. reflexivity. Qed.
Definition field_packs (f : efield) : Prop := match ef_args f with Some a => python_value (MMap a) | None => True end.
Lemma written_file e bs sch : layout e = Ok bs -> python_value (ed_props e) -> Forall2 layer_reads (ed_layers e) sch -> NoDup (dkeys (ed_texts e)) -> file_of e bs.
Proof.
  intros H Pp F NT. apply layout_inv in H. destruct H as (n1 & k1 & b1 & sc & n2 & k2 & b2 & ls & P1 & _ & Q1 & Sc & P2 & _ & Q2 & L & ->).
  destruct (pack_spells _ _ (pv_int _) P1) as [X1 Y1]. destruct (pack_spells _ _ Pp Q1) as [X2 Y2]. destruct (pack_spells _ _ (pv_int _) P2) as [X3 Y3]. destruct (pack_spells _ _ (pv_texts _ NT) Q2) as [X4 Y4].
  assert (FP : Forall (fun l => Forall field_packs (el_fields l) /\ Forall (fun f => Forall python_value (ef_col f)) (el_fields l)) (ed_layers e)).
  { clear -F. induction F as [|el kf ls sch (_ & Hf & _ & Hc) F IH]; constructor; [|assumption]. split; [|assumption].
    induction Hf as [|ef ft fs fts (_ & _ & _ & Ha) Hf IHf]; constructor; [unfold field_packs; destruct (ef_args ef); tauto|]. inversion Hc; subst. auto. }
  assert (SO : Forall python_value (schema_objs (ed_layers e))).
  { clear -FP. induction FP as [|el ls [Hf _] FP IH]; [constructor|]. cbn [schema_objs flat_map]. constructor; [constructor|]. apply Forall_app. split; [|exact IH].
    induction Hf as [|f fs Hf1 Hf IHf]; [constructor|]. cbn [flat_map]. apply Forall_app. split; [|exact IHf]. unfold field_objs, field_packs in *. destruct (ef_args f); repeat constructor. inversion Hf1; assumption. inversion Hf1; assumption. }
  destruct (written_stream _ (Forall_cons _ (pv_arr _ (pv_strs (map el_name (ed_layers e)))) SO) sc) as [X5 Y5]; [rewrite map_map; exact Sc|].
  assert (LS : bytes ls /\ stream ls (flat_map (fun l => None :: Some (MInt (el_num l)) :: flat_map (fun f => [Some (MBool false); Some (MArr (ef_col f))]) (el_fields l)) (ed_layers e))).
  { clear -FP L. revert ls L. induction FP as [|el q [_ Hc] FP IH]; intros ls L; [apply Ok_inj in L; subst; split; constructor|].
    apply concatM_cons in L. destruct L as (p1 & p2 & E1 & E2 & ->). apply section_inv in E1. destruct E1 as (n & body & z & Pn & Pb & -> & _).
    assert (VO : Forall python_value (layer_objs el)).
    { unfold layer_objs. constructor; [constructor|]. clear -Hc. induction Hc as [|f fs Hf Hc IH]; [constructor|]. cbn [flat_map app]. repeat constructor; assumption. }
    destruct (pack_spells _ _ (pv_int _) Pn) as [A1 A2]. destruct (written_stream _ VO _ Pb) as [A3 A4]. destruct (IH _ E2) as [A5 A6]. split; [rewrite !bytes_app; auto|].
    cbn [flat_map]. rewrite <- !app_comm_cons, <- !app_assoc. eapply st_any; [exact A2|]. apply (stream_app (Some (MInt (el_num el)) :: _)). exists body, p2. split; [reflexivity|]. split; [|exact A6].
    unfold layer_objs in A4. cbn [map] in A4. rewrite <- flat_map_some in A4. exact A4. }
  destruct LS as [X6 Y6]. split.
  - rewrite !bytes_app. repeat split; try assumption. repeat constructor.
  - eexists. split; [reflexivity|]. unfold file_values. rewrite <- ?app_assoc. cbn [app]. eapply st_any; [exact Y1|]. eapply st_some; [exact Y2|].
    apply (stream_app (Some _ :: _)). exists sc, (n2 ++ b2 ++ ls). split; [reflexivity|]. split.
    + cbn [map] in Y5. unfold schema_objs in Y5. rewrite <- flat_map_some in Y5. rewrite map_map in Y5. replace (flat_map (fun l => Some (MInt (zlen (el_fields l))) :: flat_map field_values (el_fields l)) (ed_layers e))
        with (flat_map (fun x => map Some (MInt (zlen (el_fields x)) :: flat_map field_objs (el_fields x))) (ed_layers e)); [exact Y5|].
      apply flat_map_ext. intros l. cbn [map]. f_equal. rewrite <- flat_map_some. apply flat_map_ext. intros f. symmetry. apply field_values_objs.
    + eapply st_any; [exact Y3|]. eapply st_some; [exact Y4|]. exact Y6.
Qed.
Lemma respelled h d ex tv h1 bs : doc_ok h d -> msgpack_encode h d ex tv = (h1, Ok bs) ->
  exists e, codec_encode h d ex tv = (h1, Ok e) /\ file_of e bs /\ forall bs' rest h0, file_of e bs' -> msgpack_decode h0 (bs' ++ rest) = msgpack_decode h0 bs.
Proof.
  intros D H. destruct (msgpack_encode_inv _ _ _ _ _ _ H) as (e & E & L). exists e. split; [assumption|].
  assert (Pp : python_value (ed_props e)) by (destruct (codec_encode_inv _ _ _ _ _ _ E) as (o & _ & _ & _ & ->); apply (do_props h d D)).
  assert (R : Forall2 layer_reads (ed_layers e) (schema_of h d)) by (eapply reads_back; eassumption).
  assert (N1 : NoDup (map el_name (ed_layers e))) by (rewrite (proj1 (names_back h d ex tv h1 e D E)); apply (do_layers h d D)).
  assert (N2 : NoDup (dkeys (ed_texts e))) by (rewrite (proj2 (names_back h d ex tv h1 e D E)); apply (do_texts h d D)).
  split; [eapply written_file; eassumption|]. intros bs' rest h0 F. unfold msgpack_decode. rewrite (parse_any e _ bs' rest F R N1).
  pose proof (parse_back h d ex tv h1 e bs [] D E L) as P. rewrite app_nil_r in P. rewrite P. reflexivity.
Qed.
(** reading as a way to show that bytes are values *)
Fixpoint reads (b : list N) (os : list (option mobj)) : Prop :=
  match os with
  | [] => b = []
  | x :: os => match unpack1 b with Ok (o, r) => (match x with Some o' => o = o' | None => True end) /\ reads r os | Err _ => False end
  end.
Lemma stream_reads os : forall b, bytes b -> reads b os -> stream b os.
Proof.
  induction os as [|x os IH]; intros b B R; cbn [reads] in R; [subst; constructor|]. destruct (unpack1 b) as [[o r]|] eqn:U; [|contradiction]. destruct R as [R1 R2].
  apply unpack_spells in U; [|assumption]. destruct U as (p & -> & S). apply bytes_app in B. destruct B as [_ B]. destruct x as [o'|]; [subst o'; eapply st_some|eapply st_any]; eauto.
Qed.
