(** JSON texts of documents. *)
From Verif Require Import PyBase PyBaseFacts Model_Text Model_Heap Model_Layer Model_Types Model_Msgpack Model_Document Model_Coerce Model_Codec Model_Json Model_JsonText.
From Verif Require Import Spec_Layer Spec_Types Spec_Msgpack Spec_Document Spec_Codec Spec_JsonText Proof_Layer4 Proof_Types Proof_Document Proof_Text Proof_Msgpack Proof_Codec Proof_Codec2 Proof_Codec3 Proof_Json Proof_JsonText2 Proof_JsonText3.
Local Open Scope Z_scope.

Lemma safe_join a b : text_safe (a ++ b) -> text_safe a /\ text_safe b.
Proof.
  induction a as [|c a IH]; cbn [app]; intros H; [split; [constructor|exact H]|]. inversion H as [|? ? Hc P Sx]; subst. destruct (IH Sx) as [A B]. split; [|exact B]. constructor; [exact Hc| |exact A].
  intros (Hh & d & y & -> & L). apply P. split; [exact Hh|]. exists d, (y ++ b). auto.
Qed.
Lemma safe_concat l : text_safe (List.concat l) -> Forall text_safe l.
Proof. induction l as [|x l IH]; [constructor|]. cbn [List.concat]. intros H. apply safe_join in H. constructor; [apply H|apply IH, H]. Qed.
Lemma value_obj_safe v o : value_json v -> value_obj v = Ok o -> json_safe o.
Proof. destruct v; intros F H; try discriminate; apply Ok_inj in H; subst o; first [exact F|constructor; exact F|solve [constructor]|contradiction]. Qed.
Lemma other_elems_safe h v c : other_elems h v = Ok c -> Forall json_safe c.
Proof.
  unfold other_elems. intros H. destruct (py_len h v) as [[k|]|]; cbn [rbind] in H; [|discriminate|destruct v; discriminate].
  destruct (k =? 0); [apply Ok_inj in H; subst c; repeat constructor|]. destruct v; try discriminate. destruct (span_str _); [apply Ok_inj in H; subst c; repeat constructor|discriminate].
Qed.
Lemma cell_safe h h0 d0 offs dt v c : v = VNone \/ value_ok h0 d0 dt v -> value_json v -> encode_cell h offs (dt_name dt) v = Ok c -> Forall json_safe c.
Proof.
  intros T V H. assert (T0 : forall t, dt_name dt = t -> In t [TI32; TI64; TF64; TBool; TString; TBinary] -> v = VNone \/ match v with
    | VInt _ => t = TI32 \/ t = TI64 | VBool _ => t = TI32 \/ t = TI64 \/ t = TBool | VFloat _ => t = TF64 | VStr _ => t = TString | VBytes _ => t = TBinary | _ => False end).
  { clear H V. intros t <- I0. destruct T as [T|T]; [left; exact T|]. destruct T; [left; reflexivity|right..]; unfold targets_text in *; simpl in I0 |- *; simpl in *; repeat match goal with H : _ \/ _ |- _ => destruct H | H : _ /\ _ |- _ => destruct H end; try contradiction; try congruence; solve [left; congruence|right; congruence|right; left; congruence|right; right; congruence]. }
  clear T. specialize (T0 _ eq_refl). set (t := dt_name dt) in *. clearbody t. assert (N0 : Ok [MNil] = Ok c -> Forall json_safe c) by (intros E; apply Ok_inj in E; subst c; repeat constructor).
  destruct t; cbn [encode_cell] in H.
  all: try discriminate.
  1-6: destruct T0 as [->|T0]; [simpl; tauto|apply N0; exact H|]; destruct v; try contradiction; try discriminate; try (exfalso; intuition discriminate); 
    try contradiction; apply Ok_inj in H; subst c; (constructor; [|constructor]); try exact V; constructor; exact V.
  - destruct v; try discriminate; [auto|]. destruct (node_i h n); [|discriminate]. apply Ok_inj in H. subst c. repeat constructor.
  - assert (H' : Ok [MNil] = Ok c \/ match value_elems h v with
             | Some r => (let* l := r in match l with [] => Ok [MNil] | _ => let* is := mapM (elem_i h) l in Ok [MArr (map MInt is)] end)
             | None => other_elems h v end = Ok c) by (destruct v; auto).
    destruct H' as [H'|H']; [auto|]. destruct (value_elems h v) as [[l|]|]; try discriminate; [|apply other_elems_safe in H'; exact H']. cbn [rbind] in H'. destruct l as [|x l]; [auto|].
    destruct (mapM (elem_i h) (x :: l)) as [is|]; [|discriminate]. cbn [rbind] in H'. apply Ok_inj in H'. subst c. constructor; [|constructor]. constructor. apply Forall_forall. intros o I. apply in_map_iff in I. destruct I as (i & <- & _). constructor.
  - destruct v; try discriminate; [apply Ok_inj in H; subst c; repeat constructor|]. destruct (offset_id offs start), (offset_id offs stop); try discriminate. apply Ok_inj in H. subst c. repeat constructor.
  - assert (H' : Ok [MNil] = Ok c \/ (let* a := value_left h v in let* ia := elem_i h a in let* b := value_right h v in let* ib := elem_i h b in Ok [MArr [MInt ia; MInt (ib - ia)]]) = Ok c) by (destruct v; auto).
    destruct H' as [H'|H']; [auto|]. destruct (value_left h v); [|discriminate]. cbn [rbind] in H'. destruct (elem_i h a); [|discriminate]. cbn [rbind] in H'. destruct (value_right h v); [|discriminate]. cbn [rbind] in H'.
    destruct (elem_i h a1); [|discriminate]. apply Ok_inj in H'. subst c. repeat constructor.
Qed.

(** dicts with given names *)
Fixpoint nodupb (l : list pystr) : bool := match l with [] => true | x :: r => negb (existsb (str_eqb x) r) && nodupb r end.
Lemma nodupb_ok l : nodupb l = true -> NoDup l.
Proof.
  induction l as [|x l IH]; [constructor|]. cbn [nodupb]. intros H. apply andb_prop in H. destruct H as [A B]. constructor; [|apply IH, B]. intros I. apply negb_true_iff in A. assert (K : existsb (str_eqb x) l = true) by (apply existsb_exists; exists x; split; [exact I|apply str_eqb_refl]). congruence.
Qed.
Lemma ascii_safe x : forallb (fun c => (c <? 128)%N) x = true -> text_safe x.
Proof.
  induction x as [|c x IH]; intros F; [constructor|]. cbn [forallb] in F. apply andb_prop in F. destruct F as [F1 F2]. apply N.ltb_lt in F1. constructor; [lia| |apply IH, F2]. intros [H _]. unfold high in H. lia.
Qed.
Lemma lit_map d : nodupb (map fst d) && forallb (forallb (fun c => (c <? 128)%N)) (map fst d) = true -> Forall json_safe (map snd d) -> json_safe (MMap d).
Proof.
  intros H F. apply andb_prop in H. destruct H as [A B]. constructor; [apply nodupb_ok, A| |exact F]. apply Forall_forall. intros x Hx. apply ascii_safe. rewrite forallb_forall in B. apply B, Hx.
Qed.

Section Safe.
Variables (h : heap) (d : doc) (h1 : heap) (ed : edoc).
Hypothesis D : doc_ok h d.
Hypothesis E : codec_encode h d false true = (h1, Ok ed).
Hypothesis J : doc_json h d.

Lemma type_safe t ts : type_string t = Ok ts -> text_safe ts.
Proof.
  destruct t; intros H; try discriminate; apply Ok_inj in H; subst ts; apply ascii_safe; reflexivity.
Qed.
Lemma args_safe o a : NoDup (dkeys o) -> (forall k v, In (k, v) o -> text_safe k /\ value_json v) -> dict_objs o = Ok a -> json_safe (MMap a).
Proof.
  intros ND F Ea. assert (G : map fst a = map fst o /\ Forall json_safe (map snd a)).
  { clear ND. unfold dict_objs in Ea. apply mapM_Forall2 in Ea. induction Ea as [|[x v] [y w] o a Hv Fa IH]; [split; [reflexivity|constructor]|]. cbn [fst snd] in *.
    destruct (value_obj v) as [u|] eqn:Eu; [|discriminate]. cbn [rbind] in Hv. apply Ok_inj in Hv. injection Hv as <- <-. destruct IH as [I1 I2]; [intros; eapply F; right; eassumption|].
    cbn [map fst snd]. split; [congruence|]. constructor; [|assumption]. eapply value_obj_safe; [eapply F; left; reflexivity|eassumption]. }
  destruct G as [G1 G2]. constructor; [rewrite G1; exact ND| |exact G2]. rewrite G1. apply Forall_forall. intros x Hx. apply in_map_iff in Hx. destruct Hx as ([x' v] & <- & Hx). eapply F. eassumption.
Qed.
Lemma field_safe offsets k l f t ef : compile h d false true = (h1, Ok offsets) -> In (k, l) (d_layers d) -> In (f, t) (l_fields (h_layer h l)) -> encode_field h1 offsets l f t = Ok ef ->
  ef_name ef = f /\ text_safe f /\ json_safe (json_type ef) /\ json_safe (MArr (ef_col ef)).
Proof.
  intros Ec Hin Hf Hef. destruct (encode_field_inv _ _ _ _ _ _ Hef) as (En & Et & Ea & offs & Uo & Ecol). assert (Dc : declared h d k f t) by (exists l; auto).
  destruct (dj_fields h d J k f t Dc) as (Ff & Fo). destruct (compile_keeps h d false true h1 _ (do_wf h d D) (do_known h d D) Ec) as (W1 & S & P).
  split; [exact En|]. split; [exact Ff|]. apply type_safe in Et. split.
  - unfold json_type. destruct (ef_args ef) as [a|]; [|constructor; exact Et]. destruct (do_types h d D k f t Dc) as (_ & _ & _ & ND & _).
    apply lit_map; [reflexivity|]. cbn [map snd]. constructor; [constructor; exact Et|]. constructor; [|constructor]. apply (args_safe (dt_opts t)); assumption.
  - constructor. apply Forall_forall. intros x Hx. destruct (column_nth _ _ _ _ _ _ Ecol) as [_ C2]. destruct (C2 x Hx) as (n & c & Hn & Hc & Hxc). rewrite (same_iter _ _ S) in Hn.
    assert (Hft : dget (l_fields (h_layer h l)) f = Some t) by (apply dget_nodup; [apply (wf_schema h (do_wf h d D))|assumption]).
    assert (Fc : Forall json_safe c); [|rewrite Forall_forall in Fc; auto]. eapply (cell_safe h1 h d); [| |exact Hc]; unfold field_value; rewrite (same_fields _ _ S); destruct (dget (n_fieldsof h n) f) as [v|] eqn:Ev; [right; apply (do_values h d D k l n f v t (conj Hin Hn) Ev Hft)|left; reflexivity| |exact I].
    apply (dj_values h d J k l n f t v (conj Hin Hn) Hft Ev).
Qed.
Lemma texts_safe : json_safe (texts_obj (ed_texts ed)).
Proof.
  destruct (codec_encode_inv _ _ _ _ _ _ E) as (offsets & Ec & Ft & _ & _). destruct (names_back h d false true h1 ed D E) as [_ Nt].
  destruct (compile_offsets h d false true h1 offsets (do_wf h d D) (do_known h d D) Ec) as [_ Ho].
  assert (G : Forall2 (fun kt ke => fst ke = fst kt /\ text_safe (fst kt) /\ json_safe (MArr (map MStr (snd ke)))) (d_texts d) (ed_texts ed)).
  { eapply Forall2_impl'; [exact Ft|]. intros [k t] [k' sg] Hin (E1 & o & E2 & E3). cbn [fst snd] in *. subst k' sg. split; [reflexivity|].
    destruct (dj_texts h d J k t Hin) as [Fk Fx]. split; [assumption|]. pose proof (dget_nodup (d_texts d) k t (do_texts h d D) Hin) as Ek. destruct (Ho k t Ek) as (q & Eq & Hq).
    assert (o = sorted_offsets t q) by congruence. subst o.
    assert (Hb : Forall (fun o => 0 <= o <= zlen t) q) by (apply Forall_forall; intros z Hz; apply Hq in Hz; eapply span_bounds; eassumption).
    destruct (segmentation t q Hb) as [S1 _]. assert (Fs : Forall text_safe (text_compile t (sorted_offsets t q))) by (apply safe_concat; unfold join_segs in S1; rewrite S1; assumption).
    constructor. clear - Fs. induction Fs; constructor; [constructor; assumption|assumption]. }
  unfold texts_obj. constructor.
  - rewrite map_map. cbn [fst]. fold (dkeys (ed_texts ed)). change (map (fun x : pystr * list pystr => fst x) (ed_texts ed)) with (dkeys (ed_texts ed)). rewrite Nt. apply (do_texts h d D).
  - clear - G. induction G as [|[k t] [k' x] a b (H1 & H2 & H3) G IH]; constructor; [|assumption]. simpl in *. congruence.
  - clear - G. induction G as [|[k t] [k' x] a b (H1 & H2 & H3) G IH]; constructor; [|assumption]. exact H3.
Qed.
(** a dict over the layers *)
Lemma over_layers (g : elayer -> mobj) : (forall el, In el (ed_layers ed) -> json_safe (g el)) -> json_safe (MMap (map (fun l => (el_name l, g l)) (ed_layers ed))).
Proof.
  intros G. destruct (names_back h d false true h1 ed D E) as [Nl _].
  assert (K : map fst (map (fun l => (el_name l, g l)) (ed_layers ed)) = dkeys (d_layers d)) by (rewrite map_map, <- Nl; reflexivity). constructor.
  - rewrite K. apply (do_layers h d D).
  - rewrite K. apply Forall_forall. intros k Hk. apply in_map_iff in Hk. destruct Hk as ([k' l] & <- & Hk). apply (dj_layers h d J _ _ Hk).
  - rewrite map_map. cbn [snd]. apply Forall_forall. intros o Ho. apply in_map_iff in Ho. destruct Ho as (el & <- & Hel). apply G, Hel.
Qed.
Lemma layer_fields el : In el (ed_layers ed) -> NoDup (map ef_name (el_fields el)) /\ forall ef, In ef (el_fields el) -> text_safe (ef_name ef) /\ json_safe (json_type ef) /\ json_safe (MArr (ef_col ef)).
Proof.
  intros Hel. destruct (codec_encode_inv _ _ _ _ _ _ E) as (offsets & Ec & _ & Fl & _). pose proof (fields_encoded h d false true h1 ed D offsets Ec Fl) as Ff.
  assert (G : exists kl, In kl (d_layers d) /\ Forall2 (fun ft ef => encode_field h1 offsets (snd kl) (fst ft) (snd ft) = Ok ef) (l_fields (h_layer h (snd kl))) (el_fields el)).
  { clear - Hel Ff. induction Ff as [|kl el' a b (_ & _ & H) F IH]; [contradiction|]. destruct Hel as [->|Hel]; [exists kl; split; [left; reflexivity|exact H]|]. destruct (IH Hel) as (kl' & A & B). exists kl'. split; [right; exact A|exact B]. }
  destruct G as ([k l] & Hin & F). cbn [snd] in F.
  assert (G : Forall2 (fun ft ef => ef_name ef = fst ft /\ text_safe (ef_name ef) /\ json_safe (json_type ef) /\ json_safe (MArr (ef_col ef))) (l_fields (h_layer h l)) (el_fields el)).
  { eapply Forall2_impl'; [exact F|]. intros [f t] ef Hf Hef. cbn [fst snd] in *. destruct (field_safe offsets k l f t ef Ec Hin Hf Hef) as (A1 & A2 & A3 & A4). rewrite A1. auto. }
  split.
  - assert (Q : map ef_name (el_fields el) = dkeys (l_fields (h_layer h l))); [|rewrite Q; apply (wf_schema h (do_wf h d D))].
    clear - G. induction G as [|[f t] ef a b (H & _) F IH]; [reflexivity|]. cbn [map dkeys fst] in *. unfold dkeys in *. cbn [map fst]. congruence.
  - clear - G. induction G as [|[f t] ef a b H F IH]; [intros ? []|]. intros ef' [<-|I]; [tauto|auto].
Qed.
Lemma over_fields el (g : efield -> mobj) : In el (ed_layers ed) -> (forall ef, In ef (el_fields el) -> json_safe (g ef)) -> json_safe (MMap (map (fun f => (ef_name f, g f)) (el_fields el))).
Proof.
  intros Hel G. destruct (layer_fields el Hel) as [ND F]. constructor; rewrite map_map; cbn [fst snd].
  - exact ND.
  - apply Forall_forall. intros x Hx. apply in_map_iff in Hx. destruct Hx as (ef & <- & Hx). apply F, Hx.
  - apply Forall_forall. intros o Ho. apply in_map_iff in Ho. destruct Ho as (ef & <- & Hx). apply G, Hx.
Qed.
Lemma object_safe : json_safe (json_object ed).
Proof.
  destruct (codec_encode_inv _ _ _ _ _ _ E) as (_ & _ & _ & _ & Ep). unfold json_object. apply lit_map; [reflexivity|]. constructor; [|constructor]. apply lit_map; [reflexivity|]. repeat apply Forall_cons; [| | | | |constructor]; cbn [snd].
  - rewrite Ep. apply (dj_props h d J).
  - apply texts_safe.
  - apply over_layers. intros; constructor.
  - apply over_layers. intros el Hel. apply over_fields; [exact Hel|]. intros ef Hef. apply (layer_fields el Hel), Hef.
  - apply over_layers. intros el Hel. apply over_fields; [exact Hel|]. intros ef Hef. apply (layer_fields el Hel), Hef.
Qed.
End Safe.

Lemma json_dumps_inv frepr h d h1 t : json_dumps frepr h d = (h1, Ok t) -> exists o, json_encode h d = (h1, Ok o) /\ dumps frepr o = Ok t.
Proof. unfold json_dumps. destruct (json_encode h d) as [h2 [o|]]; [|discriminate]. intros H. assert (H' := f_equal fst H). assert (H2 := f_equal snd H). cbn in H', H2. subst h2. eauto. Qed.
Lemma json_object_head ed : exists b, json_object ed = MMap [(s "DM10", b)].
Proof. eexists. reflexivity. Qed.
Theorem text_round frepr fparse h d h1 t h0 : floats_ok frepr fparse -> doc_ok h d -> doc_json h d -> json_dumps frepr h d = (h1, Ok t) -> wf h0 ->
  exists h2 d', json_loads fparse h0 t = (h2, Ok d') /\ same_doc h d h2 d' /\ wf h2 /\ untouched h0 h2.
Proof.
  intros FO D J H W. destruct (json_dumps_inv _ _ _ _ _ H) as (o & E & Dt). destruct (json_encode_inv _ _ _ _ E) as (ed & Ee & ->).
  destruct (dumps_loads frepr fparse _ FO (object_safe h d h1 ed D Ee J)) as (t' & Dt' & L). assert (t' = t) by congruence. subst t'.
  destruct (json_round h d h1 _ h0 D E W) as (h2 & d' & R & Q). exists h2, d'. split; [|exact Q]. unfold json_loads. rewrite L. destruct (json_object_head ed) as [b Hb]. rewrite Hb in *. exact R.
Qed.
Theorem text_total frepr fparse h d : floats_ok frepr fparse -> doc_valid h d -> doc_json h d -> exists h1 t, json_dumps frepr h d = (h1, Ok t).
Proof.
  intros FO V J. destruct (json_total h d V) as (h1 & o & E). destruct (json_encode_inv _ _ _ _ E) as (ed & Ee & ->). destruct (dumps_json frepr fparse _ FO (object_safe h d h1 ed (dv_ok h d V) Ee J)) as (t & Dt & _).
  exists h1, t. unfold json_dumps. rewrite E, Dt. reflexivity.
Qed.
Lemma loads_text frepr fparse h d h1 o t h0 : floats_ok frepr fparse -> doc_ok h d -> doc_json h d -> json_encode h d = (h1, Ok o) -> dumps frepr o = Ok t -> json_loads fparse h0 t = json_decode h0 o.
Proof.
  intros FO D J E Dt. destruct (json_encode_inv _ _ _ _ E) as (ed & Ee & ->).
  destruct (dumps_loads frepr fparse _ FO (object_safe h d h1 ed D Ee J)) as (t' & Dt' & L). assert (t' = t) by congruence. subst t'.
  unfold json_loads. rewrite L. destruct (json_object_head ed) as [b Hb]. rewrite Hb in *. reflexivity.
Qed.
Theorem text_stable frepr fparse h d h1 t h0 : floats_ok frepr fparse -> doc_ok h d -> doc_json h d -> json_dumps frepr h d = (h1, Ok t) -> wf h0 ->
  exists h2 d' h3, json_loads fparse h0 t = (h2, Ok d') /\ json_dumps frepr h2 d' = (h3, Ok t).
Proof.
  intros FO D J H W. destruct (json_dumps_inv _ _ _ _ _ H) as (o & E & Dt). destruct (json_stable h d h1 o h0 D E W) as (h2 & d' & h3 & A & B). exists h2, d', h3.
  rewrite (loads_text frepr fparse h d h1 o t h0 FO D J E Dt). split; [exact A|]. unfold json_dumps. rewrite B, Dt. reflexivity.
Qed.
Theorem text_msgpack frepr fparse h d h1 t h2 bytes ex tv rest h0 : floats_ok frepr fparse -> doc_ok h d -> doc_json h d -> json_dumps frepr h d = (h1, Ok t) -> msgpack_encode h d ex tv = (h2, Ok bytes) ->
  json_loads fparse h0 t = msgpack_decode h0 (bytes ++ rest).
Proof.
  intros FO D J H M. destruct (json_dumps_inv _ _ _ _ _ H) as (o & E & Dt). rewrite (loads_text frepr fparse h d h1 o t h0 FO D J E Dt). apply (json_msgpack h d h1 h2 o bytes ex tv rest h0 D E M).
Qed.

(** ** Bytes *)
Lemma no_bytes_entry d k o : no_bytes (MMap d) -> In (k, o) d -> no_bytes o.
Proof. intros H I. inversion H as [| | | | | |d' F]; subst. rewrite Forall_forall in F. apply F. apply in_map_iff. exists (k, o). auto. Qed.
Lemma Forall2_in_l {A B} (R : A -> B -> Prop) a b x : Forall2 R a b -> In x a -> exists y, In y b /\ R x y.
Proof. induction 1 as [|x' y a b H F IH]; [intros []|]. intros [->|I]; [exists y; split; [left; reflexivity|exact H]|]. destruct (IH I) as (y' & A1 & A2). exists y'. split; [right; exact A1|exact A2]. Qed.
Lemma bytes_inside h d h1 ed k l n f t x : doc_ok h d -> codec_encode h d false true = (h1, Ok ed) -> doc_node h d k l n -> dget (l_fields (h_layer h l)) f = Some t -> dget (n_fieldsof h n) f = Some (VBytes x) ->
  ~ no_bytes (json_object ed).
Proof.
  intros D E [Hin Hn] Hf Hv NB. destruct (codec_encode_inv _ _ _ _ _ _ E) as (offsets & Ec & _ & Fl & _). pose proof (fields_encoded h d false true h1 ed D offsets Ec Fl) as Ff.
  destruct (compile_keeps h d false true h1 _ (do_wf h d D) (do_known h d D) Ec) as (W1 & S & P). destruct (Forall2_in_l _ _ _ _ Ff Hin) as (el & Hel & En & _ & Fe). cbn [fst snd] in *.
  apply dget_In in Hf. destruct (Forall2_in_l _ _ _ _ Fe Hf) as (ef & Hef & Ee). cbn [fst snd] in Ee. destruct (encode_field_inv _ _ _ _ _ _ Ee) as (Ef & _ & _ & offs & _ & Ecol).
  apply In_nth_error in Hn. destruct Hn as [p Hp]. rewrite <- (same_iter _ _ S) in Hp. destruct (column_nth _ _ _ _ _ _ Ecol) as [C1 _]. destruct (C1 p n Hp) as (c & Hc & Hat).
  unfold field_value in Hc. rewrite (same_fields _ _ S), Hv in Hc.
  assert (Hbin : c = [MBin x]).
  { apply (dget_nodup (l_fields (h_layer h l)) f t (wf_schema h (do_wf h d D) l)) in Hf. pose proof (do_values h d D k l n f _ t (conj Hin (nth_error_In _ _ (eq_trans (eq_sym (f_equal (fun q => nth_error q p) (same_iter _ _ S l))) Hp))) Hv Hf) as Hok.
    inversion Hok as [| | | | | |y Ht _| | | | |]; subst. rewrite Ht in Hc. cbn [encode_cell] in Hc. apply Ok_inj in Hc. symmetry. exact Hc. }
  subst c. destruct Hat as [_ Hat]. apply nth_error_In in Hat. unfold json_object in NB.
  eapply no_bytes_entry in NB; [|left; reflexivity]. eapply no_bytes_entry in NB; [|right; right; right; left; reflexivity].
  eapply no_bytes_entry in NB; [|apply in_map_iff; exists el; split; [reflexivity|exact Hel]]. eapply no_bytes_entry in NB; [|apply in_map_iff; exists ef; split; [reflexivity|exact Hef]].
  inversion NB as [| | | | |l' F|]; subst. rewrite Forall_forall in F. specialize (F _ Hat). inversion F.
Qed.
Theorem text_bytes frepr h d k l n f t x : doc_valid h d -> doc_node h d k l n -> dget (l_fields (h_layer h l)) f = Some t -> dget (n_fieldsof h n) f = Some (VBytes x) ->
  exists h1, json_dumps frepr h d = (h1, Err TypeError).
Proof.
  intros V Hn Hf Hv. destruct (json_total h d V) as (h1 & o & E). destruct (json_encode_inv _ _ _ _ E) as (ed & Ee & ->). exists h1. unfold json_dumps. rewrite E.
  destruct (dumps_bytes frepr (json_object ed)) as [[NB _]|[_ ->]]; [|reflexivity]. exfalso. eapply bytes_inside; try eassumption. apply (dv_ok h d V).
Qed.

(** ** Refused texts *)
Theorem text_refused fparse h x : 
  ((forall o, ~ exists w t w', x = w ++ t ++ w' /\ blank w /\ blank w' /\ json fparse t o) -> json_loads fparse h x = (h, Err ValueError)) /\
  (forall o w t w', x = w ++ t ++ w' -> blank w -> blank w' -> json fparse t o -> (forall dict, o = MMap dict -> ~ In (s "DM10") (map fst dict)) -> json_loads fparse h x = (h, Err DataError)).
Proof.
  split.
  - intros H. unfold json_loads. destruct (loads fparse x) as [o|e] eqn:L; [exfalso; apply (H o), loads_iff, L|]. rewrite (loads_error _ _ _ L). reflexivity.
  - intros o w t w' E B B' J N. assert (L : loads fparse x = Ok o) by (apply loads_iff; exists w, t, w'; auto). unfold json_loads. rewrite L. destruct o; try reflexivity.
    destruct (dmem d (s "DM10")) eqn:M; [|reflexivity]. exfalso. apply (N d eq_refl). apply dmem_In in M. exact M.
Qed.
