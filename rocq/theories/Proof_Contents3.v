(** The JSON object of a document is its contents, and any such object is read as the document. *)
From Verif Require Import PyBase PyBaseFacts Model_Text Model_Heap Model_Layer Model_Types Model_Msgpack Model_Document Model_Codec Model_Json
  Spec_Layer Spec_Types Spec_Msgpack Spec_Document Spec_Codec Proof_Types Proof_Msgpack Proof_Document Proof_Layout Proof_Codec Proof_Codec2 Proof_Codec3 Proof_Codec4 Proof_Codec6 Proof_Lazy Proof_Json
  Spec_Spell Spec_Contents Proof_Contents Proof_Contents2.
Local Open Scope Z_scope.
Local Arguments s : simpl never.

Lemma key_item o k v : at_key o k v <-> item o k = Ok v.
Proof.
  unfold at_key, item, dgetE. split.
  - intros (m & -> & E). cbn [as_map rbind]. rewrite E. reflexivity.
  - destruct o as [| | | | | | |m]; try discriminate. cbn [as_map rbind]. intros H. exists m. split; [reflexivity|]. destruct (dget m k); [apply Ok_inj in H; subst; reflexivity|discriminate].
Qed.
Lemma json_field_any ef ft k o : k = ef_name ef -> json_typed ef o -> field_reads ef ft -> json_field (k, o) = Ok ft.
Proof.
  destruct ft as [f [c t os]]. intros -> Hj (Hn & Hc & Ht & Ha). cbn [fst snd dt_class dt_name dt_opts] in *. subst f c. unfold json_field, json_typed in *. cbn [fst snd].
  destruct (ef_args ef) as [a|].
  - destruct Ha as [Ha _]. destruct Hj as [J1 J2]. pose proof J1 as (m & -> & _). apply key_item in J1, J2. rewrite J1. cbn [rbind as_str]. rewrite Ht. cbn [rbind]. rewrite J2. cbn [rbind as_map]. rewrite Ha. reflexivity.
  - subst o os. rewrite Ht. reflexivity.
Qed.
Lemma json_parse_any e o sch : json_says e o -> Forall2 layer_reads (ed_layers e) sch ->
  (forall k fs f t, In (k, fs) sch -> In (f, t) fs -> text_there (ed_texts e) t) -> json_parse o = Ok (read_as e sch).
Proof.
  intros (b & tx & nums & types & sc & J1 & J2 & J3 & J4 & J5 & J6 & Ft & Fs & Fl) F T. apply key_item in J1, J2, J3, J4, J5, J6.
  unfold json_parse, read_as. rewrite J1. cbn [rbind]. rewrite J2. cbn [rbind]. rewrite J6. cbn [rbind as_map].
  assert (Es : mapM json_schema sc = Ok sch).
  { clear - Fs F. revert sch F. induction Fs as [|el [k v] els sc (Hk & fs & Hv & Hf) Fs IH]; intros sch F; inversion F as [|? [k' fts] ? sch' (Gk & Gf & _) F']; subst; [reflexivity|].
    cbn [mapM fst snd] in *. subst k k' v. unfold json_schema at 1. cbn [fst snd as_map rbind].
    assert (E : mapM json_field fs = Ok fts).
    { clear - Hf Gf. revert fts Gf. induction Hf as [|f [k o] l fs (H1 & H2) Hf IHf]; intros fts Gf; inversion Gf as [|? ft ? fts' G1 G2]; subst; [reflexivity|].
      cbn [mapM fst snd] in *. rewrite (json_field_any f ft k o H1 H2 G1). cbn [rbind]. rewrite (IHf _ G2). reflexivity. }
    rewrite E. cbn [rbind]. rewrite (IH _ F'). reflexivity. }
  rewrite Es. cbn [rbind]. rewrite J3. cbn [rbind].
  assert (Et : MMap tx = texts_obj (ed_texts e)).
  { unfold texts_obj. f_equal. clear - Ft. induction Ft as [|[k t] [k' v] a b (H1 & H2) Ft IH]; [reflexivity|]. cbn [map fst snd] in *. subst. f_equal. }
  rewrite Et, as_texts_map. cbn [rbind]. rewrite J4. cbn [rbind].
  assert (Hl : forall els sch', Forall2 layer_reads els sch' -> (forall el, In el els -> In el (ed_layers e)) -> (forall kf, In kf sch' -> In kf sch) ->
     mapM (json_layer (ed_texts e) nums types) sch' = Ok (map layer_data els)).
  { induction 1 as [|el [k fs] els sch' (Hk & Hf & ND' & _) F' IH]; intros Hi Hs; [reflexivity|]. cbn [mapM map fst snd] in *. unfold json_layer at 1. cbn [fst snd]. subst k.
    destruct (Fl el (Hi el (or_introl eq_refl))) as (En & cols & Ec & Hc). apply key_item in En, Ec. rewrite En. cbn [rbind as_num].
    assert (E : match fs with [] => Ok [] | p :: l => let* t := item types (el_name el) in mapM (json_column (ed_texts e) t) (p :: l) end = Ok (map ef_col (el_fields el))).
    { assert (E : mapM (json_column (ed_texts e) cols) fs = Ok (map ef_col (el_fields el))).
      { assert (Tf : Forall (fun ft => text_there (ed_texts e) (snd ft)) fs) by (apply Forall_forall; intros [f t] Hft; eapply T; [apply Hs; left; reflexivity|exact Hft]).
        clear - Hf Hc Tf. induction Hf as [|ef ft efs fs H Hf IH]; [reflexivity|]. inversion Tf as [|? ? [T1 T2] T']; subst. cbn [mapM map]. unfold json_column at 1.
        match goal with |- context [rbind ?m (fun _ => let* col := item _ _ in _)] => assert (E : exists y, m = Ok y) end.
        { destruct (dt_name (snd ft)); try (eexists; reflexivity); try congruence. destruct (T2 eq_refl) as (c & -> & Hcx). cbn [rbind]. apply (dgetE_In (ed_texts e) c Hcx). }
        destruct E as [y ->]. cbn [rbind]. destruct H as (-> & _). rewrite (proj1 (key_item _ _ _) (Hc ef (or_introl eq_refl))). cbn [rbind].
        rewrite IH; [reflexivity|intros; apply Hc; right; assumption|assumption]. }
      destruct fs as [|ft fs]; [exact E|]. rewrite Ec. cbn [rbind]. exact E. }
    rewrite E. cbn [rbind]. rewrite IH; [reflexivity|intros; apply Hi; right; assumption|intros; apply Hs; right; assumption]. }
  destruct sch as [|kf sch]; [inversion F; reflexivity|]. rewrite J5. cbn [rbind]. rewrite (Hl _ _ F); [reflexivity|auto|auto].
Qed.
Lemma object_says e : NoDup (map el_name (ed_layers e)) -> (forall l, In l (ed_layers e) -> NoDup (map ef_name (el_fields l))) -> json_says e (json_object e).
Proof.
  intros ND NF. unfold json_says, json_object, texts_obj. do 5 eexists.
  split; [eexists; split; reflexivity|]. split; [eexists; split; reflexivity|]. split; [eexists; split; reflexivity|].
  split; [eexists; split; reflexivity|]. split; [eexists; split; reflexivity|]. split; [eexists; split; reflexivity|]. split; [|split].
  - clear. induction (ed_texts e) as [|kt l IH]; constructor; auto.
  - clear. induction (ed_layers e) as [|l ls IH]; constructor; [|exact IH]. split; [reflexivity|]. eexists. split; [reflexivity|].
    induction (el_fields l) as [|f fs IHf]; constructor; [|exact IHf]. split; [reflexivity|]. unfold json_typed, json_type. cbn [snd].
    destruct (ef_args f) as [a|]; [split; eexists; split; reflexivity|reflexivity].
  - intros l Hl. assert (E : forall (A : Type) (key : A -> pystr) (val : A -> mobj) xs x, NoDup (map key xs) -> In x xs -> at_key (MMap (map (fun y => (key y, val y)) xs)) (key x) (val x)).
    { intros A key val xs x H Hx. apply key_item. exact (dgetE_map key val xs x H Hx). }
    split; [exact (E _ el_name (fun l => MInt (el_num l)) _ l ND Hl)|]. eexists. split; [exact (E _ el_name (fun l => MMap (map (fun f => (ef_name f, MArr (ef_col f))) (el_fields l))) _ l ND Hl)|].
    intros f Hf. exact (E _ ef_name (fun f => MArr (ef_col f)) _ f (NF l Hl) Hf).
Qed.
Theorem json_contents h d h1 o : doc_ok h d -> json_encode h d = (h1, Ok o) -> exists e, contents h d e /\ json_says e o.
Proof.
  intros D H. destruct (json_encode_inv _ _ _ _ H) as (e & E & ->). exists e. pose proof (encoded_contents h d false true h1 e D E) as C. split; [exact C|]. apply object_says.
  - rewrite (proj1 (names_back h d false true h1 e D E)). apply (do_layers h d D).
  - destruct C as [_ _ C]. intros el Hel. assert (G : exists l, Forall2 (field_written h d (ed_texts e) l) (l_fields (h_layer h l)) (el_fields el)).
    { clear - C Hel. induction C as [|kl x a b (_ & _ & G) C IH]; [destruct Hel|]. destruct Hel as [->|Hel]; [eauto|auto]. }
    destruct G as [l G]. pose proof (wf_schema h (do_wf h d D) l) as N. replace (map ef_name (el_fields el)) with (dkeys (l_fields (h_layer h l))); [exact N|].
    clear - G. induction G as [|ft ef a b G1 G IH]; [reflexivity|]. unfold dkeys in *. cbn [map]. rewrite IH, (fw_name _ _ _ _ _ _ G1). reflexivity.
Qed.
Theorem json_contents_read h d h1 o e o' h0 : doc_ok h d -> json_encode h d = (h1, Ok o) -> contents h d e -> json_says e o' -> wf h0 ->
  exists h2 d', json_decode h0 o' = (h2, Ok d') /\ same_doc h d h2 d' /\ wf h2 /\ untouched h0 h2.
Proof.
  intros D H C J W. destruct (json_encode_inv _ _ _ _ H) as (e0 & E & ->). rewrite (contents_unique h d e e0 D C (encoded_contents h d false true h1 e0 D E)) in J.
  assert (P : json_parse o' = json_parse (json_object e0)).
  { rewrite (json_back h d false true h1 e0 D E). apply json_parse_any; [assumption|eapply reads_back; eassumption|].
    intros k fs f t Hk Hf. unfold schema_of in Hk. apply in_map_iff in Hk. destruct Hk as ([k' l] & [= <- <-] & Hl). apply in_map_iff in Hf. destruct Hf as ([f' t'] & [= <- <-] & Hf).
    assert (Dc : declared h d k' f' t') by (exists l; auto). destruct (do_types h d D k' f' t' Dc) as (T1 & _ & T3 & _). split; [exact T1|]. cbn [base_type dt_name dt_opts]. intros Es.
    destruct T3 as [_ T3]. destruct (T3 Es) as [x Hx]. exists x. split; [apply opt_name_ok; exact Hx|]. rewrite (proj2 (names_back h d false true h1 e0 D E)).
    apply (proj2 (refs_ok h d false true h1 e0 E k' f' t' Dc)). split; assumption. }
  destruct (json_round h d h1 (json_object e0) h0 D H W) as (h2 & d' & A & B). exists h2, d'. unfold json_decode in *. rewrite P. auto.
Qed.
