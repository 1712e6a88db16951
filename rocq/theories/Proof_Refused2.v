(** Proofs for C116: documents whose nodes have undeclared fields.  The first part is Proof_Codec3.v under weaker hypotheses. *)
From Verif Require Import PyBase PyBaseFacts Model_Text Model_Heap Model_Layer Model_Types Model_Msgpack Model_Document Model_Codec
  Spec_Layer Spec_Types Spec_Msgpack Spec_Document Spec_Codec Spec_Refused Proof_Heap Proof_Layer Proof_Layer2 Proof_Layer3 Proof_History Proof_Layer4 Proof_Types
  Proof_Text Proof_Msgpack Proof_Document Proof_Layout Proof_Codec Proof_Codec2 Proof_Codec3 Proof_Codec5.
Local Open Scope Z_scope.
Local Arguments s : simpl never.

Section Nearly.
Variables (h : heap) (d : doc).
Hypothesis V : doc_nearly h d.
Let D : doc_ok h d := dn_ok h d V.

Lemma doc_value k l n f t v : doc_node h d k l n -> dget (l_fields (h_layer h l)) f = Some t -> dget (n_fieldsof h n) f = Some v -> value_ok h d t v.
Proof. intros Hn Ht Hv. eapply (do_values h d D); eassumption. Qed.
Lemma at_member l p n : at_pos h l p n -> n_collof h n = Some l.
Proof.
  intros Hp. unfold at_pos in Hp. rewrite (iter_wf _ _ (do_wf h d D)) in Hp. rewrite nth_error_map in Hp. destruct (nth_error (content h l) p) as [m|] eqn:E; [|discriminate].
  injection Hp as ->. apply layer_ok_member; [apply (wf_layers h (do_wf h d D))|eapply nth_error_In; eassumption].
Qed.
Lemma value_joined t a b : value_ok h d t (VNodeSpan a b) -> n_collof h a = n_collof h b.
Proof. intros H. inversion H; subst; match goal with J : own_span _ _ _ _ _ |- _ => destruct J as (l & p & q & _ & Pa & Pb & _) end; rewrite (at_member l p a), (at_member l q b); auto. Qed.
Lemma field_offsets_total k l f t ns : In (k, l) (d_layers d) -> dget (l_fields (h_layer h l)) f = Some t -> dt_name t = TSpan ->
  (forall x, In x ns -> exists n, x = Some n /\ doc_node h d k l n) -> exists q, field_offsets h f ns = Ok q.
Proof.
  intros Hin Hf Ht. induction ns as [|x ns IH]; intros H; cbn [field_offsets]; [eauto|]. destruct (H x (or_introl eq_refl)) as (n & -> & Hn).
  destruct IH as [q Eq]; [intros y Hy; apply H; right; assumption|]. destruct (dget (n_fieldsof h n) f) as [v|] eqn:Ev; [|eauto].
  pose proof (doc_value k l n f t v Hn Hf Ev) as Vo. inversion Vo; subst; try congruence; try (match goal with J : In (dt_name t) _ |- _ => rewrite Ht in J; simpl in J; intuition discriminate end).
  rewrite Eq. cbn [rbind]. eauto.
Qed.
Lemma iter_nodes k l x : In (k, l) (d_layers d) -> In x (layer_iter h l) -> exists n, x = Some n /\ doc_node h d k l n.
Proof.
  intros Hin Hx. pose proof Hx as Hx'. rewrite (iter_wf _ _ (do_wf h d D)) in Hx'. apply in_map_iff in Hx'. destruct Hx' as (n & <- & _). exists n. split; [reflexivity|]. split; assumption.
Qed.
Lemma collect_fields_total k l fs : In (k, l) (d_layers d) -> (forall f t, In (f, t) fs -> dget (l_fields (h_layer h l)) f = Some t) ->
  forall acc, (forall c, In c (dkeys (d_texts d)) -> In c (dkeys acc)) -> exists r, collect_fields h (layer_iter h l) fs acc = Ok r.
Proof.
  intros Hin. induction fs as [|[f t] fs IH]; intros Hfs acc Ha; cbn [collect_fields]; [eauto|].
  destruct (dt_name t) eqn:En; try (apply IH; [intros; apply Hfs; right; assumption|assumption]).
  pose proof (Hfs f t (or_introl eq_refl)) as Hf. assert (Dc : declared h d k f t) by (exists l; split; [assumption|apply dget_In; assumption]).
  destruct (do_types h d D k f t Dc) as (_ & _ & (_ & O2) & _). destruct (O2 En) as [c Hc]. rewrite (proj2 (opt_name_ok t (s "context") c) Hc). cbn [rbind].
  assert (Hcin : In c (dkeys acc)) by (apply Ha; eapply (dn_text_targets h d V); [exact Dc|split; assumption]).
  apply dmem_In in Hcin. unfold dmem in Hcin. unfold dgetE. destruct (dget acc c) as [old|] eqn:Eo; [|discriminate]. cbn [rbind].
  destruct (field_offsets_total k l f t (layer_iter h l) Hin Hf En (fun x => iter_nodes k l x Hin)) as [q ->]. cbn [rbind].
  apply IH; [intros; apply Hfs; right; assumption|]. intros x Hx. rewrite (dkeys_dset_mem acc c _ old Eo). apply Ha. assumption.
Qed.
Lemma collect_layers_total ls : (forall k l, In (k, l) ls -> In (k, l) (d_layers d)) ->
  forall acc, (forall c, In c (dkeys (d_texts d)) -> In c (dkeys acc)) -> exists r, collect_layers h ls acc = Ok r /\ forall c, In c (dkeys (d_texts d)) -> In c (dkeys r).
Proof.
  induction ls as [|[k l] ls IH]; intros Hl acc Ha; cbn [collect_layers]; [eauto|].
  destruct (collect_fields_total k l (l_fields (h_layer h l)) (Hl k l (or_introl eq_refl))) with (acc := acc) as [r Er]; [intros f t Hf; apply dget_nodup; [apply (wf_schema h (do_wf h d D))|assumption]|assumption|].
  rewrite Er. cbn [rbind]. apply IH; [intros; apply Hl; right; assumption|]. intros c Hc. destruct (collect_fields_spec _ _ _ _ _ Er) as [-> _]. auto.
Qed.
Lemma unchecked_layers ls : forall h' acc r, wf h' -> looks_same h h' -> h_lnext h' = h_lnext h ->
  (forall k l, In (k, l) ls -> In (k, l) (d_layers d)) -> collect_layers h ls acc = Ok r -> exists h1, compile_layers h' ls false acc = (h1, Ok r).
Proof.
  induction ls as [|[k l] ls IH]; intros h' acc r W' S L Hl Hc; cbn [collect_layers] in Hc; cbn [compile_layers]; [exists h'; congruence|].
  destruct (prepare_same h' l W') as (W1 & S1 & L1); [rewrite L; eapply (do_known h d D); apply (Hl k l); left; reflexivity|].
  pose proof (looks_same_trans _ _ _ S S1) as S2. unfold compile_layer. rewrite (same_iter _ _ S2), (same_schema _ _ S2).
  rewrite (collect_fields_same h _ _ _ (same_fields _ _ S2)). destruct (collect_fields h _ _ acc) as [acc'|]; [|discriminate]. cbn [rbind] in Hc.
  apply IH; auto; [congruence|]. intros; apply Hl; right; assumption.
Qed.
Lemma refs_there : check_refs h d = Ok tt.
Proof.
  apply check_refs_total.
  - intros k f t Hd. apply (do_types h d D k f t Hd).
  - apply (dn_layer_targets h d V).
  - apply (dn_text_targets h d V).
Qed.
Lemma compile_unchecked ex tv : tv && negb ex = false -> exists h1 o, compile h d ex tv = (h1, Ok o).
Proof.
  intros Ck. unfold compile. rewrite refs_there, Ck.
  destruct (collect_layers_total (d_layers d) (fun k l H => H) (map (fun kt => (fst kt, [])) (d_texts d))) as (r & Er & Kr).
  { intros c Hc. unfold dkeys. rewrite map_map. exact Hc. }
  destruct (unchecked_layers (d_layers d) h (map (fun kt => (fst kt, [])) (d_texts d)) r (do_wf h d D)) as [h1 ->]; auto; [split; reflexivity|].
  destruct (final_offsets_total (d_texts d) r) as [o ->]; [|eauto]. intros k t Hk. apply Kr. apply in_map_iff. exists (k, t). auto.
Qed.

(** ** columns *)
Lemma cell_total h1 offs k l n f t : wf h1 -> looks_same h h1 ->
  (forall k l p n, In (k, l) (d_layers d) -> at_pos h1 l p n -> node_i h1 n = Ok (Z.of_nat p)) ->
  doc_node h d k l n -> dget (l_fields (h_layer h l)) f = Some t ->
  (forall tn tx a b, dget (n_fieldsof h n) f = Some (VSpan tn tx a b) -> In a offs /\ In b offs) ->
  exists c, encode_cell h1 offs (dt_name t) (field_value h1 n f) = Ok c.
Proof.
  intros W1 S P Hn Hf Ho. unfold field_value. rewrite (same_fields _ _ S).
  assert (Dc : declared h d k f t) by (exists l; split; [apply Hn|apply dget_In; assumption]).
  destruct (do_types h d D k f t Dc) as (NE & NU & _).
  assert (Own : forall x m, own_node h d x m -> exists i, node_i h1 m = Ok i).
  { intros x m (l' & p & El & Pm). exists (Z.of_nat p). eapply P; [apply dget_In; exact El|]. unfold at_pos. rewrite (same_iter _ _ S). exact Pm. }
  assert (Owns : forall x ms, Forall (own_node h d x) ms -> exists is, mapM (elem_i h1) (map Some ms) = Ok is).
  { intros x ms F. induction F as [|m ms Hm F IH]; cbn [map mapM elem_i]; [eauto|]. destruct (Own x m Hm) as [i ->]. cbn [rbind]. destruct IH as [is ->]. cbn [rbind]. eauto. }
  destruct (dget (n_fieldsof h n) f) as [v|] eqn:Ev.
  2: { destruct (dt_name t); cbn [encode_cell]; try congruence; eauto. }
  destruct (doc_value k l n f t v Hn Hf Ev) as [Hns|i Hi|b Hi|b Ht Hb|b Ht|x Ht|x Ht Hb|cx txt a b Ht Hx Ha Hb|x m Ht Hx Hm|x ns Ht Hx Hm|x a b Ht Hx Hm|x a b Ht Hx Hm].
  - destruct (dt_name t); cbn [encode_cell]; try congruence; eauto.
  - simpl in Hi. destruct Hi as [Hi|[Hi|[]]]; rewrite <- Hi; cbn [encode_cell]; eauto.
  - simpl in Hi. destruct Hi as [Hi|[Hi|[]]]; rewrite <- Hi; cbn [encode_cell]; eauto.
  - rewrite Ht. cbn [encode_cell]. eauto.
  - rewrite Ht. cbn [encode_cell]. eauto.
  - rewrite Ht. cbn [encode_cell]. eauto.
  - rewrite Ht. cbn [encode_cell]. eauto.
  - destruct Ht as [-> _]. cbn [encode_cell]. destruct (Ho _ _ _ _ eq_refl) as [Ia Ib]. destruct (offset_id_nth offs a Ia) as (ia & -> & _). destruct (offset_id_nth offs b Ib) as (ib & -> & _). eauto.
  - rewrite Ht. cbn [encode_cell]. destruct (Own x m Hm) as [i ->]. cbn [rbind]. eauto.
  - rewrite Ht. cbn [encode_cell value_elems rbind]. destruct ns as [|m ns]; [eexists; reflexivity|]. destruct (Owns x (m :: ns) Hm) as [is Eis]. cbn [map] in *. rewrite Eis. cbn [rbind]. eauto.
  - rewrite Ht. cbn [encode_cell value_elems]. destruct (own_span_iter h d (do_wf h d D) x a b Hm) as (ns & En & _ & Fo).
    rewrite (same_nodespan h h1 a b ns (do_wf h d D) W1 S En). cbn [rbind]. destruct (Owns x ns Fo) as [is Eis]. destruct ns as [|m ns]; cbn [map] in *; [eauto|]. rewrite Eis. cbn [rbind]. eauto.
  - destruct Hm as (l' & p & q & El & Pa & Pb & _). destruct (Own x a) as [ia Ea]; [exists l', p; auto|]. destruct (Own x b) as [ib Eb]; [exists l', q; auto|].
    rewrite Ht. cbn [encode_cell value_left value_right rbind elem_i]. rewrite Ea, Eb. cbn [rbind]. eauto.
Qed.
Lemma encode_unchecked ex tv : tv && negb ex = false -> exists h1 ed, codec_encode h d ex tv = (h1, Ok ed).
Proof.
  intros Ck. destruct (compile_unchecked ex tv Ck) as (h1 & o & Ec). unfold codec_encode. rewrite Ec. exists h1.
  destruct (compile_keeps h d ex tv h1 _ (do_wf h d D) (do_known h d D) Ec) as (W1 & S & P).
  destruct (compile_offsets h d ex tv h1 o (do_wf h d D) (do_known h d D) Ec) as [Ko Ho].
  assert (E1 : exists ts, mapM (fun kt => let* o := dgetE o (fst kt) in Ok (fst kt, text_compile (snd kt) o)) (d_texts d) = Ok ts).
  { apply mapM_total. intros [k t] Hin. cbn [fst snd]. pose proof (dget_nodup (d_texts d) k t (do_texts h d D) Hin) as Ek. destruct (Ho k t Ek) as (q & Eq & _). unfold dgetE. rewrite Eq. cbn [rbind]. eauto. }
  destruct E1 as [ts ->]. cbn [rbind].
  assert (E2 : exists els, mapM (encode_layer h1 o) (d_layers d) = Ok els).
  { apply mapM_total. intros [k l] Hin. unfold encode_layer. cbn [fst snd].
    match goal with |- exists y, rbind ?m _ = _ => assert (Em : exists r, m = Ok r) end.
    { apply mapM_total. intros [f t] Hf. cbn [fst snd]. rewrite (same_schema _ _ S) in Hf. unfold encode_field.
      assert (Dc : declared h d k f t) by (exists l; auto). destruct (do_types h d D k f t Dc) as (NE & NU & (O1 & O2) & ND & Ov).
      assert (Hft : dget (l_fields (h_layer h l)) f = Some t) by (apply dget_nodup; [apply (wf_schema h (do_wf h d D))|assumption]).
      assert (Et : exists ts, type_string (dt_name t) = Ok ts) by (destruct (dt_name t); try congruence; eexists; reflexivity). destruct Et as [tstr ->]. cbn [rbind].
      match goal with |- exists y, rbind ?m _ = _ => assert (Ea : exists r, m = Ok r) end.
      { destruct (dt_opts t) as [|x r] eqn:Eo; [eauto|]. destruct (dict_objs_ok (x :: r) Ov) as [a ->]. cbn [rbind]. eauto. }
      destruct Ea as [args ->]. cbn [rbind].
      assert (Eo : exists offs, match dt_name t with TSpan => let* c := opt_name t (s "context") in dgetE o c | TExt => Err KeyError | _ => Ok [] end = Ok offs /\ uses_offsets o t offs).
      { destruct (dt_name t) eqn:En; try congruence; try (exists []; split; [reflexivity|]; intros c [Hc _]; congruence).
        destruct (O2 eq_refl) as [c Hc]. rewrite (proj2 (opt_name_ok t (s "context") c) Hc). cbn [rbind].
        assert (Hin' : In c (dkeys o)) by (rewrite Ko; eapply (dn_text_targets h d V); [exact Dc|split; assumption]). apply dmem_In in Hin'. unfold dmem in Hin'. unfold dgetE.
        destruct (dget o c) as [offs|] eqn:Eoc; [|discriminate]. exists offs. split; [reflexivity|]. intros c' [_ Hc']. assert (c' = c) by congruence. subst c'. assumption. }
      destruct Eo as (offs & -> & Uo). cbn [rbind].
      assert (Ecol : forall ns, (forall x, In x ns -> exists n, x = Some n /\ doc_node h d k l n) -> exists col, encode_column h1 offs (dt_name t) f ns = Ok col).
      { induction ns as [|x ns IH]; intros Hx; cbn [encode_column]; [eauto|]. destruct (Hx x (or_introl eq_refl)) as (n & -> & Hn). fold (field_value h1 n f).
        destruct (cell_total h1 offs k l n f t W1 S (fun k l p n => P _ k l p n eq_refl) Hn Hft) as [c ->].
        - intros tn tx a b Hv. pose proof (doc_value k l n f t _ Hn Hft Hv) as Vo. inversion Vo as [| | | | | | |? ? ? ? Tt Tx| | | |]; subst.
          destruct (Ho tn tx Tx) as (q & Eq & Hq). rewrite (Uo tn Tt) in Eq. injection Eq as ->.
          split; apply sorted_offsets_In; right; right; apply Hq; exists k, l; (split; [assumption|]); exists n, f, t, tn, tx, a, b; repeat split; auto; try apply Hn; apply Tt.
        - cbn [rbind]. destruct IH as [col ->]; [intros; apply Hx; right; assumption|]. cbn [rbind]. eauto. }
      destruct (Ecol (layer_iter h1 l)) as [col ->]; [rewrite (same_iter _ _ S); intros x; apply iter_nodes; assumption|]. cbn [rbind]. eauto. }
    destruct Em as [r ->]. cbn [rbind]. eauto. }
  destruct E2 as [els ->]. cbn [rbind]. eauto.
Qed.

(** ** nodes with undeclared fields *)
Hypothesis Acc : forall k l n, doc_node h d k l n -> node_valid h l n.
Definition all_declared (l : lid) : Prop := forall n f v, In (Some n) (layer_iter h l) -> In (f, v) (n_fieldsof h n) -> In f (dkeys (l_fields (h_layer h l))).
Lemma check_nodes_cases h' k l : wf h' -> looks_same h h' -> In (k, l) (d_layers d) ->
  (check_nodes h' l (layer_iter h' l) = Ok tt /\ all_declared l) \/ check_nodes h' l (layer_iter h' l) = Err SchemaValidationError.
Proof.
  intros W' S Hin. unfold all_declared. rewrite <- (same_iter _ _ S).
  assert (H : forall n, In (Some n) (layer_iter h' l) -> doc_node h d k l n) by (intros n Hn; split; [assumption|rewrite <- (same_iter _ _ S); assumption]).
  assert (Hs : forall x, In x (layer_iter h' l) -> exists n, x = Some n).
  { intros x Hx. rewrite (iter_wf _ _ W') in Hx. apply in_map_iff in Hx. destruct Hx as (n & <- & _). eauto. }
  induction (layer_iter h' l) as [|x ns IH]; [left; split; [reflexivity|]; intros n f v []|]. destruct (Hs x (or_introl eq_refl)) as [n ->]. cbn [check_nodes].
  pose proof (H n (or_introl eq_refl)) as Hn. pose proof Hn as [_ Hn']. apply In_nth_error in Hn'. destruct Hn' as [p Hp].
  assert (Hc : n_collof h' n = Some l) by (rewrite (same_coll _ _ S); eapply at_member; exact Hp).
  assert (Sch : schema_ok h' l) by (intros f t Hf; rewrite (same_schema _ _ S) in Hf; eapply (dn_schema h d V); eassumption).
  destruct (validate_spec h' l n W' Hc Sch) as [[_ Vs] _]. rewrite Vs.
  2: { intros f t v Hf Hv. rewrite (same_schema _ _ S) in Hf. rewrite (same_fields _ _ S) in Hv. apply (same_accepts h h'); auto; [apply (do_wf h d D)| |].
       - intros a b ->. eapply value_joined. eapply doc_value; eassumption.
       - eapply Acc; eassumption. }
  cbn [rbind]. destruct (forallb (fun kv => dmem (l_fields (h_layer h' l)) (fst kv)) (n_fieldsof h' n)) eqn:E; [|right; reflexivity].
  destruct IH as [[-> IH]|IH]; [intros y Hy; apply H; right; assumption|intros y Hy; apply Hs; right; assumption| |right; assumption].
  left. split; [reflexivity|]. intros m f v [Em|Hm] Hf; [|eapply IH; eassumption]. injection Em as <-.
  rewrite (same_fields _ _ S), (same_schema _ _ S) in E. rewrite forallb_forall in E. apply dmem_In. apply (E (f, v) Hf).
Qed.
Lemma checked_layers ls : forall h' acc, wf h' -> looks_same h h' -> h_lnext h' = h_lnext h ->
  (forall k l, In (k, l) ls -> In (k, l) (d_layers d)) -> (forall c, In c (dkeys (d_texts d)) -> In c (dkeys acc)) ->
  (exists k l, In (k, l) ls /\ ~ all_declared l) -> exists h1, compile_layers h' ls true acc = (h1, Err SchemaValidationError).
Proof.
  induction ls as [|[k l] ls IH]; intros h' acc W' S L Hl Ha (k0 & l0 & Hin0 & Nd); [destruct Hin0|]. cbn [compile_layers].
  destruct (prepare_same h' l W') as (W1 & S1 & L1); [rewrite L; eapply (do_known h d D); apply (Hl k l); left; reflexivity|].
  pose proof (looks_same_trans _ _ _ S S1) as S2. unfold compile_layer.
  destruct (check_nodes_cases _ k l W1 S2 (Hl k l (or_introl eq_refl))) as [[-> Ad]| ->]; [|eauto].
  rewrite (same_iter _ _ S2), (same_schema _ _ S2), (collect_fields_same h _ _ _ (same_fields _ _ S2)).
  destruct (collect_fields_total k l (l_fields (h_layer h l)) (Hl k l (or_introl eq_refl))) with (acc := acc) as [r Er]; [intros f t Hf; apply dget_nodup; [apply (wf_schema h (do_wf h d D))|assumption]|assumption|].
  rewrite Er. apply IH; auto; [congruence|intros; apply Hl; right; assumption| |].
  - intros c Hc. destruct (collect_fields_spec _ _ _ _ _ Er) as [-> _]. auto.
  - destruct Hin0 as [E|Hin0]; [injection E as <- <-; contradiction|eauto].
Qed.
Lemma undeclared_compile : has_undeclared h d -> exists h1, compile h d false true = (h1, Err SchemaValidationError).
Proof.
  intros (k & l & n & f & v & [Hin Hn] & Hf & Nf). unfold compile. rewrite refs_there. cbn [andb negb].
  destruct (checked_layers (d_layers d) h (map (fun kt => (fst kt, [])) (d_texts d)) (do_wf h d D)) as [h1 ->]; auto; [split; reflexivity| | |eauto].
  - intros c Hc. unfold dkeys. rewrite map_map. exact Hc.
  - exists k, l. split; [assumption|]. intros Ad. apply Nf. eapply Ad; eassumption.
Qed.
End Nearly.

Lemma undeclared_refused : forall h d, doc_nearly h d -> (forall k l n, doc_node h d k l n -> node_valid h l n) -> has_undeclared h d ->
  exists h1, msgpack_encode h d false true = (h1, Err SchemaValidationError).
Proof. intros h d V Acc U. unfold msgpack_encode, codec_encode. destruct (undeclared_compile h d V Acc U) as [h1 ->]. exists h1. reflexivity. Qed.
Lemma unchecked_encodes : forall h d ex tv, doc_nearly h d -> doc_fits h d -> ex = true \/ tv = false ->
  exists h1 e, codec_encode h d ex tv = (h1, Ok e) /\
    ((forall os b, In os ([ed_props e] :: [texts_obj (ed_texts e)] :: map layer_objs (ed_layers e)) -> pack_all os = Ok b -> zlen b < 18446744073709551616) ->
     exists bytes, msgpack_encode h d ex tv = (h1, Ok bytes)).
Proof.
  intros h d ex tv V F O. assert (Ck : tv && negb ex = false) by (destruct O as [-> | ->]; [apply andb_false_r|reflexivity]).
  destruct (encode_unchecked h d V ex tv Ck) as (h1 & ed & E). exists h1, ed. split; [assumption|]. intros Sh.
  destruct (layout_total h d ex tv h1 ed (dn_ok h d V) E F) as [bytes El].
  - split; [|split].
    + intros b. apply Sh. left. reflexivity.
    + intros b. apply Sh. right. left. reflexivity.
    + apply Forall_forall. intros el Hel b. apply Sh. right. right. apply in_map. assumption.
  - exists bytes. unfold msgpack_encode. rewrite E, El. reflexivity.
Qed.
