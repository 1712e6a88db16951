(** The JSON object of a document decodes to what the MessagePack bytes decode to. *)
From Verif Require Import PyBase PyBaseFacts Model_Text Model_Heap Model_Layer Model_Types Model_Msgpack Model_Document Model_Codec Model_Json
  Spec_Layer Spec_Types Spec_Msgpack Spec_Document Spec_Codec Proof_Types Proof_Msgpack Proof_Document Proof_Layout Proof_Codec Proof_Codec2 Proof_Codec3 Proof_Codec4 Proof_Codec6 Proof_Lazy.
Local Open Scope Z_scope.
Local Arguments s : simpl never.

Lemma dgetE_map {A B} (key : A -> pystr) (val : A -> B) xs x : NoDup (map key xs) -> In x xs -> dgetE (map (fun y => (key y, val y)) xs) (key x) = Ok (val x).
Proof.
  intros ND Hx. unfold dgetE. rewrite (dget_nodup _ (key x) (val x)); [reflexivity| |apply in_map_iff; exists x; auto]. unfold dkeys. rewrite map_map. exact ND.
Qed.
Lemma json_field_back ef ft : field_reads ef ft -> json_field (ef_name ef, json_type ef) = Ok ft.
Proof.
  destruct ft as [f [c t o]]. intros (Hn & Hc & Ht & Ha). cbn [fst snd dt_class dt_name dt_opts] in *. subst f c. unfold json_field, json_type. cbn [fst snd].
  destruct (ef_args ef) as [a|].
  - destruct Ha as [Ha _].
    assert (E1 : forall x y, item (MMap [(s "type", x); (s "args", y)]) (s "type") = Ok x) by reflexivity.
    assert (E2 : forall x y, item (MMap [(s "type", x); (s "args", y)]) (s "args") = Ok y) by reflexivity.
    rewrite E1. cbn [rbind as_str]. rewrite Ht. cbn [rbind]. rewrite E2. cbn [rbind as_map]. rewrite Ha. reflexivity.
  - rewrite Ht. cbn [rbind]. subst o. reflexivity.
Qed.
Lemma fields_back efs : forall fs, Forall2 field_reads efs fs -> mapM json_field (map (fun f => (ef_name f, json_type f)) efs) = Ok fs.
Proof. induction 1 as [|ef ft efs fs H F IH]; [reflexivity|]. cbn [map mapM]. rewrite (json_field_back ef ft H). cbn [rbind]. rewrite IH. reflexivity. Qed.
Lemma schema_back els : forall sch, Forall2 layer_reads els sch ->
  mapM json_schema (map (fun l => (el_name l, MMap (map (fun f => (ef_name f, json_type f)) (el_fields l)))) els) = Ok sch.
Proof.
  induction 1 as [|el [k fs] els sch (Hk & Hf & _ & _) F IH]; [reflexivity|]. cbn [map mapM]. unfold json_schema at 1. cbn [fst snd as_map rbind] in *. rewrite (fields_back _ _ Hf). cbn [rbind]. rewrite IH. cbn [rbind]. subst k. reflexivity.
Qed.
Definition text_there (texts : dict (list pystr)) (t : dtype) : Prop :=
  dt_name t <> TExt /\ (dt_name t = TSpan -> exists c, opt_name t (s "context") = Ok c /\ In c (dkeys texts)).
Lemma columns_back texts efs all : forall fs, Forall2 field_reads efs fs -> NoDup (map ef_name all) -> (forall ef, In ef efs -> In ef all) -> Forall (fun ft => text_there texts (snd ft)) fs ->
  mapM (json_column texts (MMap (map (fun f => (ef_name f, MArr (ef_col f))) all))) fs = Ok (map ef_col efs).
Proof.
  intros fs F ND. induction F as [|ef ft efs fs H F IH]; intros Hi T; [reflexivity|]. inversion T as [|? ? [T1 T2] T']; subst. cbn [mapM map]. unfold json_column at 1.
  match goal with |- context [rbind ?m (fun _ => let* col := item _ _ in _)] => assert (E : exists y, m = Ok y) end.
  { destruct (dt_name (snd ft)); try (eexists; reflexivity); try congruence. destruct (T2 eq_refl) as (c & -> & Hc). cbn [rbind]. apply (dgetE_In texts c Hc). }
  destruct E as [y ->]. cbn [rbind item as_map]. destruct H as (-> & _). rewrite (dgetE_map ef_name (fun f => MArr (ef_col f)) all ef ND (Hi ef (or_introl eq_refl))). cbn [rbind].
  rewrite IH; [reflexivity|intros; apply Hi; right; assumption|assumption].
Qed.
Lemma names_same efs : forall (fs : dict dtype), Forall2 field_reads efs fs -> map ef_name efs = dkeys fs.
Proof. induction 1 as [|ef ft efs fs (H & _) F IH]; [reflexivity|]. cbn [map dkeys] in *. unfold dkeys in *. congruence. Qed.
Lemma json_parse_back e sch : Forall2 layer_reads (ed_layers e) sch -> NoDup (map el_name (ed_layers e)) ->
  (forall k fs f t, In (k, fs) sch -> In (f, t) fs -> text_there (ed_texts e) t) -> json_parse (json_object e) = Ok (read_as e sch).
Proof.
  intros F ND T. unfold json_parse, json_object, read_as.
  assert (E0 : forall x, item (MMap [(s "DM10", x)]) (s "DM10") = Ok x) by reflexivity. rewrite E0. cbn [rbind].
  assert (E1 : forall a b c t u, item (MMap [(s "props", a); (s "texts", b); (s "num_nodes", c); (s "types", t); (s "schema", u)]) (s "props") = Ok a) by reflexivity.
  assert (E2 : forall a b c t u, item (MMap [(s "props", a); (s "texts", b); (s "num_nodes", c); (s "types", t); (s "schema", u)]) (s "texts") = Ok b) by reflexivity.
  assert (E3 : forall a b c t u, item (MMap [(s "props", a); (s "texts", b); (s "num_nodes", c); (s "types", t); (s "schema", u)]) (s "num_nodes") = Ok c) by reflexivity.
  assert (E4 : forall a b c t u, item (MMap [(s "props", a); (s "texts", b); (s "num_nodes", c); (s "types", t); (s "schema", u)]) (s "types") = Ok t) by reflexivity.
  assert (E5 : forall a b c t u, item (MMap [(s "props", a); (s "texts", b); (s "num_nodes", c); (s "types", t); (s "schema", u)]) (s "schema") = Ok u) by reflexivity.
  rewrite E1. cbn [rbind]. rewrite E5. cbn [rbind]. rewrite E2. rewrite E3. rewrite E4.
  cbn [rbind as_map]. rewrite (schema_back _ _ F). cbn [rbind]. rewrite as_texts_map. cbn [rbind].
  set (nums := MMap (map (fun l => (el_name l, MInt (el_num l))) (ed_layers e))).
  set (types := MMap (map (fun l => (el_name l, MMap (map (fun f => (ef_name f, MArr (ef_col f))) (el_fields l)))) (ed_layers e))).
  assert (Hl : forall els sch', Forall2 layer_reads els sch' -> (forall el, In el els -> In el (ed_layers e)) -> (forall kf, In kf sch' -> In kf sch) ->
     mapM (json_layer (ed_texts e) nums types) sch' = Ok (map layer_data els)).
  { induction 1 as [|el [k fs] els sch' (Hk & Hf & ND' & _) F' IH]; intros Hi Hs; [reflexivity|]. cbn [mapM map fst snd] in *. unfold json_layer at 1. cbn [fst snd]. subst k.
    assert (Hel : In el (ed_layers e)) by (apply Hi; left; reflexivity).
    assert (En : item nums (el_name el) = Ok (MInt (el_num el))) by exact (dgetE_map el_name (fun l => MInt (el_num l)) _ el ND Hel).
    rewrite En. cbn [rbind as_num].
    assert (Ec : match fs with [] => Ok [] | p :: l => let* t := item types (el_name el) in mapM (json_column (ed_texts e) t) (p :: l) end = Ok (map ef_col (el_fields el))).
    { destruct fs as [|ft fs]; [inversion Hf; reflexivity|]. unfold types. cbn [item as_map rbind].
      rewrite (dgetE_map el_name (fun l => MMap (map (fun f => (ef_name f, MArr (ef_col f))) (el_fields l))) _ el ND Hel). cbn [rbind].
      apply columns_back; [assumption|rewrite (names_same _ _ Hf); assumption|auto|]. apply Forall_forall. intros [f t] Hft. eapply T; [apply Hs; left; reflexivity|exact Hft]. }
    rewrite Ec. cbn [rbind]. rewrite IH; [reflexivity|intros; apply Hi; right; assumption|intros; apply Hs; right; assumption]. }
  destruct sch as [|kf sch]; [inversion F; reflexivity|]. cbv iota. cbn [rbind]. rewrite (Hl _ _ F); [reflexivity|auto|auto].
Qed.

Lemma json_back h d ex tv h1 ed : doc_ok h d -> codec_encode h d ex tv = (h1, Ok ed) -> json_parse (json_object ed) = Ok (read_as ed (schema_of h d)).
Proof.
  intros D E. apply json_parse_back.
  - eapply reads_back; eassumption.
  - rewrite (proj1 (names_back h d ex tv h1 ed D E)). apply (do_layers h d D).
  - intros k fs f t Hk Hf. unfold schema_of in Hk. apply in_map_iff in Hk. destruct Hk as ([k' l] & [= <- <-] & Hl). apply in_map_iff in Hf. destruct Hf as ([f' t'] & [= <- <-] & Hf).
    assert (Dc : declared h d k' f' t') by (exists l; auto). destruct (do_types h d D k' f' t' Dc) as (T1 & _ & T3 & _). split; [exact T1|]. cbn [base_type dt_name dt_opts]. intros Es.
    destruct T3 as [_ T3]. destruct (T3 Es) as [x Hx]. exists x. split; [apply opt_name_ok; exact Hx|]. rewrite (proj2 (names_back h d ex tv h1 ed D E)).
    apply (proj2 (refs_ok h d ex tv h1 ed E k' f' t' Dc)). split; assumption.
Qed.
Lemma json_encode_inv h d h1 o : json_encode h d = (h1, Ok o) -> exists ed, codec_encode h d false true = (h1, Ok ed) /\ o = json_object ed.
Proof. unfold json_encode. destruct (codec_encode h d false true) as [h' [ed|]]; [|discriminate]. intros [= <- <-]. eauto. Qed.
Theorem json_round h d h1 o h0 : doc_ok h d -> json_encode h d = (h1, Ok o) -> wf h0 ->
  exists h2 d', json_decode h0 o = (h2, Ok d') /\ same_doc h d h2 d' /\ wf h2 /\ untouched h0 h2.
Proof.
  intros D H W0. destruct (json_encode_inv _ _ _ _ H) as (ed & E & ->). unfold json_decode. rewrite (json_back h d false true h1 ed D E).
  destruct (decode_round h d false true h1 ed D E h0 W0) as (h2 & d' & A & B & C & U & _). exists h2, d'. auto.
Qed.
Theorem json_total h d : doc_valid h d -> exists h1 o, json_encode h d = (h1, Ok o).
Proof. intros V. destruct (encode_total h d V false true) as (h1 & ed & E). exists h1, (json_object ed). unfold json_encode. rewrite E. reflexivity. Qed.
Theorem json_msgpack h d h1 h2 o bytes ex tv rest h0 : doc_ok h d -> json_encode h d = (h1, Ok o) -> msgpack_encode h d ex tv = (h2, Ok bytes) ->
  json_decode h0 o = msgpack_decode h0 (bytes ++ rest).
Proof.
  intros D H M. destruct (json_encode_inv _ _ _ _ H) as (ed & E & ->). destruct (msgpack_encode_inv _ _ _ _ _ _ M) as (ed' & E' & L).
  unfold json_decode, msgpack_decode. rewrite (json_back h d false true h1 ed D E), (parse_back h d ex tv h2 ed' bytes rest D E' L).
  assert (ed' = ed); [|subst; reflexivity].
  destruct (decode_round h d false true h1 ed D E empty_heap) as (h3 & d' & B & S & W3 & U & K & _); [apply Proof_Codec6.wf_empty|].
  destruct (encode_again h d false true h1 ed h3 d' true true D E S W3 K) as [h4 E4]. destruct (encode_again h d ex tv h2 ed' h3 d' true true D E' S W3 K) as [h5 E5]. congruence.
Qed.
Theorem json_stable h d h1 o h0 : doc_ok h d -> json_encode h d = (h1, Ok o) -> wf h0 ->
  exists h2 d' h3, json_decode h0 o = (h2, Ok d') /\ json_encode h2 d' = (h3, Ok o).
Proof.
  intros D H W0. destruct (json_encode_inv _ _ _ _ H) as (ed & E & ->). unfold json_decode. rewrite (json_back h d false true h1 ed D E).
  destruct (decode_round h d false true h1 ed D E h0 W0) as (h2 & d' & A & B & C & U & K & _). destruct (encode_again h d false true h1 ed h2 d' false true D E B C K) as [h3 E3].
  exists h2, d', h3. split; [assumption|]. unfold json_encode. rewrite E3. reflexivity.
Qed.
