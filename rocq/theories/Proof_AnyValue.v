(** Proofs about values of any kind in XML trees and in references. *)
From Verif Require Import PyBase PyBaseFacts Model_Text Model_Heap Model_Layer Model_Types Model_Msgpack Model_Document Model_Query Model_Coerce Model_Codec Model_XmlString
  Spec_Layer Spec_Types Spec_Msgpack Spec_Document Spec_Codec Spec_Query Spec_Coerce Spec_Xml Spec_AnyValue
  Proof_Msgpack Proof_Text Proof_Layer Proof_Layer4 Proof_Document Proof_Layout Proof_Codec Proof_Codec2 Proof_Coerce Proof_Coerce2 Proof_Coerce3 Proof_Coerce4 Proof_Coerce5 Proof_Coerce6
  Proof_Xml Proof_Xml2.
Local Open Scope Z_scope.

(** ** XML trees of documents with values of other types *)
Section XmlRound.
Variables (float_str : N -> pystr) (h h1 : heap) (d : doc) (offsets : dict (list Z)) (ex tv vns : bool).
Lemma xml_cell offs t v e : plain_type t -> v <> VNone -> proper v -> wf h1 -> encoded float_str h1 vns offs t v e ->
  proper (coerce h1 t v) /\ of_type t (coerce h1 t v) /\ coerce h1 t v <> VNone /\ (coerce h1 t v = v \/ converts h1 t v (coerce h1 t v)) /\
  t <> TBinary /\ (t = TString -> exists x, v = VStr x) /\ forall k, xml_encode float_str k offs t (coerce h1 t v) = xml_encode float_str h1 offs t v.
Proof.
  intros P Nv Pv W (x & A & B).
  assert (Nb : t <> TBinary).
  { intros ->. assert (X : exists y, x = XRaw (VBytes y)).
    { destruct v; cbn [xml_encode] in A; try (match type of A with rbind ?m _ = _ => destruct m as [y|]; [|discriminate] end; cbn [rbind] in A); apply Ok_inj in A; eauto. }
    destruct X as (y & ->). discriminate. }
  assert (Ns : t = TString -> exists y, v = VStr y) by (intros ->; destruct v; try discriminate; eauto).
  assert (C : (exists c, encode_cell h1 offs t v = Ok c) /\ coerce h1 t v <> VNone /\ forall k, xml_encode float_str k offs t (coerce h1 t v) = xml_encode float_str h1 offs t v).
  { assert (Int : In t [TI32; TI64] -> (exists c, encode_cell h1 offs t v = Ok c) /\ coerce h1 t v <> VNone /\ forall k, xml_encode float_str k offs t (coerce h1 t v) = xml_encode float_str h1 offs t v).
    { intros T. assert (I : exists i, xml_encode float_str h1 offs t v = Ok (XStr (str_int i)) /\ encode_cell h1 offs t v = Ok [MInt i] /\ coerce h1 t v = VInt i).
      { unfold coerce. destruct T as [<-|[<-|[]]]; cbn [plainb]; destruct v; try congruence; cbn [xml_encode encode_cell] in *; try (eexists; repeat split; reflexivity);
        try (destruct (py_int _) as [q|]; [|discriminate]; exists q; repeat split; reflexivity). }
      destruct I as (i & E1 & E2 & E3). rewrite E1, E2, E3. split; [eauto|]. split; [discriminate|]. intros k. destruct T as [<-|[<-|[]]]; reflexivity. }
    destruct P as [<-|[<-|[<-|[<-|[<-|[<-|[]]]]]]]; try (apply Int; simpl; tauto); try congruence.
    - assert (I : exists b, xml_encode float_str h1 offs TF64 v = Ok (XStr (float_str b)) /\ encode_cell h1 offs TF64 v = Ok [MFloat b] /\ coerce h1 TF64 v = VFloat b).
      { unfold coerce. cbn [plainb]. destruct v; try congruence; cbn [xml_encode encode_cell] in *; try (eexists; repeat split; reflexivity); try (destruct (py_float _) as [q|]; [|discriminate]; exists q; repeat split; reflexivity). }
      destruct I as (b & E1 & E2 & E3). rewrite E1, E2, E3. split; [eauto|]. split; [discriminate|reflexivity].
    - assert (I : exists b, xml_encode float_str h1 offs TBool v = Ok (XStr (str_bool b)) /\ encode_cell h1 offs TBool v = Ok [MBool b] /\ coerce h1 TBool v = VBool b).
      { unfold coerce. cbn [plainb]. destruct v; try congruence; cbn [xml_encode encode_cell] in *; try (eexists; repeat split; reflexivity); try (destruct (py_bool _ _) as [q|]; [|discriminate]; exists q; repeat split; reflexivity). }
      destruct I as (b & E1 & E2 & E3). rewrite E1, E2, E3. split; [eauto|]. split; [discriminate|reflexivity].
    - destruct (Ns eq_refl) as [y ->]. split; [eexists; reflexivity|]. split; [discriminate|reflexivity]. }
  destruct C as ((c & Ec) & C2 & C3). destruct (coerce_cell h1 t v c offs W P Pv Ec) as (C4 & C5 & _ & C6). auto 10.
Qed.
Hypothesis D : doc_loose h d.
Hypothesis EC : compile h d ex tv = (h1, Ok offsets).
Variables (ls : list xlayer) (lt : list xml) (prefix : pystr).
Hypothesis EL : Forall2 (fun kl xl => xml_layer float_str h1 offsets kl = Ok xl) (d_layers d) ls.
Hypothesis ET : Forall2 (fun xl y => layer_tree h1 vns prefix xl = Ok y) ls lt.
Notation becomes := (becomes h h1).
Let k := star becomes h.
Lemma layer_inv kl xl : xml_layer float_str h1 offsets kl = Ok xl -> exists encs, mapM (field_encoder offsets) (l_fields (h_layer h1 (snd kl))) = Ok encs /\
  Forall2 (fun o m => match o with Some n => node_values float_str h1 encs n = Ok m | None => False end) (layer_iter h1 (snd kl)) (xl_nodes xl) /\ xl_name xl = fst kl.
Proof.
  unfold xml_layer. intros H. destruct (mapM (field_encoder offsets) (l_fields (h_layer h1 (snd kl)))) as [encs|]; [|discriminate]. cbn [rbind] in H.
  match type of H with rbind ?m _ = _ => destruct m as [sch|]; [|discriminate] end. cbn [rbind] in H.
  match type of H with rbind ?m _ = _ => destruct m as [ns|] eqn:En; [|discriminate] end. cbn [rbind] in H. apply Ok_inj in H. subst xl. exists encs. split; [reflexivity|]. cbn [xl_nodes xl_name]. split; [|reflexivity].
  apply mapM_Forall2 in En. eapply Forall2_impl'; [exact En|]. intros [n|] m _ Hm; [exact Hm|discriminate].
Qed.
Lemma nodes_tree_in h0 pre kk ns : forall i q, nodes_tree h0 vns pre kk i ns = Ok q -> forall m, In m ns -> exists es, mapM (fun fx => let* e := tree_entry h0 vns (snd fx) in Ok (fst fx, e)) m = Ok es.
Proof.
  induction ns as [|n ns IH]; intros i q H m; [intros []|]. cbn [nodes_tree] in H. unfold node_tree in H at 1.
  match type of H with rbind (rbind ?mm _) _ = _ => destruct mm as [es|] eqn:E; [|discriminate] end. cbn [rbind] in H. destruct (nodes_tree h0 vns pre kk (i + 1) ns) as [q'|] eqn:Eq; [|discriminate].
  intros [->|I]; [exists es; exact E|]. eapply IH; eassumption.
Qed.
Lemma encs_in fs encs f t : mapM (field_encoder offsets) fs = Ok encs -> In (f, t) fs -> exists offs, In (f, (dt_name t, offs)) encs.
Proof.
  intros H I. apply mapM_Forall2 in H. destruct (Forall2_in_l' _ _ _ H _ I) as ([f' [t' offs]] & J & Hj). destruct (field_encoder_inv offsets _ _ Hj) as (E1 & E2 & _). cbn [fst snd] in *. subst. eauto.
Qed.
Lemma encs_out fs encs f t offs : mapM (field_encoder offsets) fs = Ok encs -> In (f, (t, offs)) encs -> exists ty, In (f, ty) fs /\ dt_name ty = t.
Proof.
  intros H. apply mapM_Forall2 in H. induction H as [|[g ty] y a b Hy _ IH]; [intros []|]. destruct (field_encoder_inv offsets _ _ Hy) as (E1 & E2 & _). cbn [fst snd] in *. intros [->|I].
  - cbn [fst snd] in *. subst. exists ty. split; [left; reflexivity|reflexivity].
  - destruct (IH I) as (ty' & A & B). exists ty'. split; [right; exact A|exact B].
Qed.
Lemma encs_keys fs encs : mapM (field_encoder offsets) fs = Ok encs -> map fst encs = dkeys fs.
Proof. intros H. apply mapM_Forall2 in H. induction H as [|ft y a b Hy _ IH]; [reflexivity|]. unfold dkeys in *. cbn [map]. rewrite IH. f_equal. exact (proj1 (field_encoder_inv offsets _ _ Hy)). Qed.
Lemma kept1 : wf h1 /\ looks_same h h1.
Proof. destruct (compile_keeps h d ex tv h1 _ (dl_wf _ _ D) (dl_known _ _ D) EC) as (A & B & _). auto. Qed.
(** every field with a value was encoded *)
Lemma field_encoded x l n : In (x, l) (d_layers d) -> In (Some n) (layer_iter h l) -> exists encs, mapM (field_encoder offsets) (l_fields (h_layer h l)) = Ok encs /\
  forall f t offs v, In (f, (t, offs)) encs -> dget (n_fieldsof h n) f = Some v -> v <> VNone -> exists e, encoded float_str h1 vns offs t v e.
Proof.
  intros I J. destruct kept1 as [W1 S1]. destruct (Forall2_in_l' _ _ _ EL _ I) as (xl & Ixl & Hxl). destruct (Forall2_in_l' _ _ _ ET _ Ixl) as (y & _ & Hy).
  destruct (layer_inv _ _ Hxl) as (encs & E1 & E2 & E3). cbn [snd] in *. rewrite (same_schema _ _ S1) in E1. rewrite (same_iter _ _ S1) in E2. exists encs. split; [exact E1|]. intros f t offs v If Ev Nv.
  destruct (Forall2_in_l' _ _ _ E2 _ J) as (m & Im & Hm). cbn beta iota in Hm. unfold layer_tree in Hy. destruct (nodes_tree h1 vns prefix (xl_name xl) 0 (xl_nodes xl)) as [q|] eqn:Eq; [|discriminate].
  destruct (nodes_tree_in _ _ _ _ _ _ Eq m Im) as (es & Hes). assert (ND : NoDup (map fst encs)) by (rewrite (encs_keys _ _ E1); apply (wf_schema h (dl_wf _ _ D) l)).
  destruct (entries_spec float_str h1 vns n encs m es ND Hm Hes) as (_ & _ & C). specialize (C f t offs If). rewrite (same_fields _ _ S1), Ev in C.
  destruct v; try congruence; destruct C as (e & C & _); exists e; exact C.
Qed.
Lemma coerce_none g t : plain_type t -> coerce g t VNone = VNone.
Proof. intros P. unfold coerce. rewrite (proj2 (plainb_spec t) P), (none_cell g [] t P). reflexivity. Qed.
Lemma member_value x l n f t v : In (x, l) (d_layers d) -> In (Some n) (layer_iter h l) -> dget (l_fields (h_layer h l)) f = Some t -> dget (n_fieldsof h n) f = Some v -> plain_type (dt_name t) ->
  proper (coerce h1 (dt_name t) v) /\ of_type (dt_name t) (coerce h1 (dt_name t) v) /\ (coerce h1 (dt_name t) v = v \/ converts h (dt_name t) v (coerce h1 (dt_name t) v)) /\
  (v <> VNone -> dt_name t <> TBinary /\ coerce h1 (dt_name t) v <> VNone /\ (dt_name t = TString -> exists y, v = VStr y)).
Proof.
  intros I J E V P. assert (C : v = VNone \/ v <> VNone) by (destruct v; auto; right; discriminate). destruct C as [->|Nv].
  - rewrite coerce_none by exact P. split; [exact Logic.I|]. split; [exact Logic.I|]. split; [left; reflexivity|congruence].
  - destruct kept1 as [W1 S1]. destruct (field_encoded x l n I J) as (encs & E1 & E2). destruct (encs_in _ _ f t E1 (dget_In _ _ E)) as (offs & If). destruct (E2 f _ offs v If V Nv) as (e & He).
    assert (Pv : proper v). { destruct (dl_values _ _ D x l n f v t (conj I J) V E) as [H|[_ H]]; [eapply value_ok_proper; eauto|exact H]. }
    destruct (xml_cell offs (dt_name t) v e P Nv Pv W1 He) as (A1 & A2 & A3 & A4 & A5 & A6 & _). split; [exact A1|]. split; [exact A2|]. split; [|auto].
    destruct A4 as [A4|A4]; [left; exact A4|right]. eapply converts_same; [exact (dl_wf _ _ D)|exact W1|exact S1|exact A4].
Qed.
Lemma xml_ok : doc_ok k d.
Proof.
  pose proof (star_alike becomes h) as A. fold k in A. split.
  - eapply alike_wf; [exact A|exact (dl_wf _ _ D)].
  - exact (dl_known _ _ D).
  - exact (dl_texts _ _ D).
  - exact (dl_layers _ _ D).
  - exact (dl_props _ _ D).
  - exact (dl_types _ _ D).
  - intros x l n f v t [I J] V E. rewrite (alike_iter h k l A) in J. change (dget (l_fields (h_layer h l)) f = Some t) in E. change (n_fieldsof k n) with (stars becomes (n_fieldsof h n) n) in V. rewrite dget_stars in V.
    destruct (dget (n_fieldsof h n) f) as [u|] eqn:Eu; [|discriminate]. cbn [option_map] in V. injection V as <-. rewrite (becomes_in h h1 d D x l n f t u I J E).
    destruct (plain_dec (dt_name t)) as [P|P].
    + destruct (member_value x l n f t u I J E Eu P) as (P1 & O1 & _). apply typed_ok; assumption.
    + rewrite coerce_other by exact P. apply (alike_value_ok h k d t u A). destruct (dl_values _ _ D x l n f u t (conj I J) Eu E) as [H|[H _]]; [exact H|contradiction].
Qed.
Lemma alike_id_str g g' o : alike g g' -> id_str g' o = id_str g o.
Proof. intros A. destruct o; cbn [id_str]; [rewrite (al_id _ _ A)|]; reflexivity. Qed.
Lemma alike_ids g g' l : alike g g' -> mapM (id_str g') l = mapM (id_str g) l.
Proof. intros A. induction l as [|o l IH]; [reflexivity|]. cbn [mapM]. rewrite (alike_id_str g g' o A), IH. reflexivity. Qed.
Lemma alike_xml g g' hd d0 offs t v : alike g g' -> ~ plain_type (dt_name t) -> value_ok hd d0 t v -> xml_encode float_str g' offs (dt_name t) v = xml_encode float_str g offs (dt_name t) v.
Proof.
  intros A Np H. destruct H as [Ht|i Ht|b Ht|b Ht Hb|b Ht|x Ht|x Ht Hx|cx txt a b Ht Et L1 L2|x n Ht Hx Ho|x ns Ht Hx Ho|x a b Ht Hx Ho|x a b Ht Hx Ho];
    try solve [exfalso; apply Np; unfold plain_type; try rewrite Ht; simpl in *; tauto].
  - destruct (dt_name t) eqn:E; try reflexivity; exfalso; apply Np; unfold plain_type; simpl; tauto.
  - destruct Ht as [-> _]. reflexivity.
  - rewrite Ht. cbn [xml_encode]. rewrite (alike_id_str g g' _ A). reflexivity.
  - rewrite Ht. cbn [xml_encode value_elems rbind]. rewrite (alike_ids g g' _ A). reflexivity.
  - rewrite Ht. cbn [xml_encode value_elems]. rewrite (alike_nodespan g g' a b A). destruct (nodespan_iter g a b) as [l|]; [|reflexivity]. cbn [rbind]. rewrite (alike_ids g g' _ A). reflexivity.
  - rewrite Ht. reflexivity.
Qed.
Lemma node_values_same g g' n encs : (forall f t offs, In (f, (t, offs)) encs ->
    match dget (n_fieldsof g n) f with
    | None => dget (n_fieldsof g' n) f = None
    | Some v => exists v', dget (n_fieldsof g' n) f = Some v' /\ (v = VNone -> v' = VNone) /\ (v <> VNone -> v' <> VNone /\ xml_encode float_str g' offs t v' = xml_encode float_str g offs t v)
    end) -> node_values float_str g' encs n = node_values float_str g encs n.
Proof.
  induction encs as [|[f [t offs]] r IH]; intros H; [reflexivity|]. cbn [node_values]. rewrite IH by (intros f' t' o' I; apply (H f' t' o'); right; exact I).
  specialize (H f t offs (or_introl eq_refl)). destruct (dget (n_fieldsof g n) f) as [v|]; [|rewrite H; reflexivity]. destruct H as (v' & -> & H1 & H2).
  assert (C : v = VNone \/ v <> VNone) by (destruct v; auto; right; discriminate). destruct C as [->|Nv]; [rewrite (H1 eq_refl); reflexivity|]. destruct (H2 Nv) as [Nv' E].
  assert (X : forall g v, v <> VNone -> match v with VNone => Ok [] | _ => let* x := xml_encode float_str g offs t v in Ok [(f, x)] end = let* x := xml_encode float_str g offs t v in Ok [(f, x)]) by (intros g0 [] ?; congruence).
  rewrite (X g' v' Nv'), (X g v Nv), E. reflexivity.
Qed.
Lemma mapM_in {A B} (f g : A -> res B) (l : list A) : (forall x, In x l -> f x = g x) -> mapM f l = mapM g l.
Proof. induction l as [|x l IH]; intros H; [reflexivity|]. cbn [mapM]. rewrite (H x (or_introl eq_refl)), IH by (intros; apply H; right; assumption). reflexivity. Qed.
Lemma xml_layer_same k1 x l : starred becomes h1 k1 -> In (x, l) (d_layers d) -> xml_layer float_str k1 offsets (x, l) = xml_layer float_str h1 offsets (x, l).
Proof.
  intros S I. pose proof (proj1 S) as A. destruct kept1 as [W1 S1]. unfold xml_layer. cbn [fst snd]. rewrite (al_layer _ _ A), (alike_iter h1 k1 l A).
  destruct (mapM (field_encoder offsets) (l_fields (h_layer h1 l))) as [encs|] eqn:Ee; [|reflexivity]. cbn [rbind]. match goal with |- rbind ?m _ = _ => destruct m as [sch|]; [|reflexivity] end. cbn [rbind].
  erewrite mapM_in; [reflexivity|]. intros [n|] J; [|reflexivity]. rewrite (same_iter _ _ S1) in J. rewrite (same_schema _ _ S1) in Ee. apply node_values_same. intros f t offs If.
  rewrite (same_fields _ _ S1), (proj2 S), dget_stars, (same_fields _ _ S1). destruct (dget (n_fieldsof h n) f) as [v|] eqn:Ev; cbn [option_map]; [|reflexivity].
  destruct (encs_out _ _ _ _ _ Ee If) as (ty & Ity & Et). assert (Ht : dget (l_fields (h_layer h l)) f = Some ty) by (apply dget_nodup; [apply (wf_schema h (dl_wf _ _ D))|exact Ity]).
  eexists. split; [reflexivity|]. rewrite (becomes_in h h1 d D x l n f ty v I J Ht). destruct (plain_dec (dt_name ty)) as [P|P].
  - split; [intros ->; apply coerce_none, P|]. intros Nv. destruct (field_encoded x l n I J) as (encs' & E1 & E2). rewrite Ee in E1. apply Ok_inj in E1. subst encs'. destruct (E2 f t offs v If Ev Nv) as (e & He). subst t.
    assert (Pv : proper v). { destruct (dl_values _ _ D x l n f v ty (conj I J) Ev Ht) as [H|[_ H]]; [eapply value_ok_proper; eauto|exact H]. }
    destruct (xml_cell offs (dt_name ty) v e P Nv Pv W1 He) as (_ & _ & A3 & _ & _ & _ & A7). auto.
  - rewrite coerce_other by exact P. split; [auto|]. intros Nv. split; [exact Nv|]. subst t. destruct (dl_values _ _ D x l n f v ty (conj I J) Ev Ht) as [V|[V _]]; [|contradiction]. eapply alike_xml; eauto.
Qed.
Lemma tree_entry_alike g g' x e : alike g g' -> tree_entry g vns x = Ok e -> tree_entry g' vns x = Ok e.
Proof.
  intros A. destruct x as [x|l|offs v|v]; cbn [tree_entry]; auto.
  destruct v as [| | | | | | |n|a b|[|o l]| |]; cbn [value_repr rbind]; auto; try discriminate; [destruct (node_repr_ok g n); discriminate|].
  unfold node_name. rewrite (al_coll _ _ A), !(alike_node_i g g' _ A). destruct (n_collof g a); [|discriminate]. unfold l_nameof. rewrite (al_layer _ _ A). auto.
Qed.
Lemma mapM_ok_imp {A B} (f g : A -> res B) l : (forall x y, f x = Ok y -> g x = Ok y) -> forall q, mapM f l = Ok q -> mapM g l = Ok q.
Proof.
  intros H. induction l as [|x l IH]; intros q E; [exact E|]. cbn [mapM] in *. destruct (f x) as [y|] eqn:Ex; [|discriminate]. rewrite (H x y Ex). cbn [rbind] in *. destruct (mapM f l) as [r|]; [|discriminate]. rewrite (IH r eq_refl). exact E.
Qed.
Lemma layer_tree_alike g g' xl y : alike g g' -> layer_tree g vns prefix xl = Ok y -> layer_tree g' vns prefix xl = Ok y.
Proof.
  intros A. unfold layer_tree. destruct (nodes_tree g vns prefix (xl_name xl) 0 (xl_nodes xl)) as [q|] eqn:E; [|discriminate]. enough (E' : nodes_tree g' vns prefix (xl_name xl) 0 (xl_nodes xl) = Ok q) by (rewrite E'; auto).
  revert q E. generalize 0. generalize (xl_name xl). induction (xl_nodes xl) as [|n ns IH]; intros kk i q E; [exact E|]. cbn [nodes_tree] in *. unfold node_tree in *.
  match type of E with rbind (rbind ?mm _) _ = _ => destruct mm as [es|] eqn:Ees; [|discriminate] end. eapply mapM_ok_imp in Ees.
  - rewrite Ees. cbn [rbind] in *. destruct (nodes_tree g vns prefix kk (i + 1) ns) as [q'|] eqn:Eq; [|discriminate]. rewrite (IH _ _ _ Eq). exact E.
  - intros [f x] [f' e]. cbn [fst snd]. destruct (tree_entry g vns x) as [e'|] eqn:Ee; [|discriminate]. rewrite (tree_entry_alike g g' x e' A Ee). auto.
Qed.
Lemma xml_converted : converted h d k.
Proof.
  pose proof (star_alike becomes h) as A. fold k in A. split.
  - intros l. split; [apply alike_iter, A|]. unfold l_nameof. rewrite (al_layer _ _ A). auto.
  - intros n. split; [apply (al_coll _ _ A)|]. change (n_fieldsof k n) with (stars becomes (n_fieldsof h n) n). unfold stars, dkeys. rewrite map_map. reflexivity.
  - intros x l n f t [I J] E. change (n_fieldsof k n) with (stars becomes (n_fieldsof h n) n). rewrite dget_stars. destruct (dget (n_fieldsof h n) f) as [u|] eqn:Eu; cbn [option_map]; [|apply kc_kept].
    rewrite (becomes_in h h1 d D x l n f t u I J E). destruct (plain_dec (dt_name t)) as [Pt|Pt].
    + destruct (member_value x l n f t u I J E Eu Pt) as (_ & _ & [Cv|Cv] & _); [rewrite Cv; apply kc_kept|apply kc_converted, Cv].
    + rewrite coerce_other by exact Pt. apply kc_kept.
  - intros x l n f [I J] E. change (n_fieldsof k n) with (stars becomes (n_fieldsof h n) n). rewrite dget_stars. unfold Proof_Coerce6.becomes. rewrite (member_coll h l n (dl_wf _ _ D) J), E. destruct (dget (n_fieldsof h n) f); reflexivity.
Qed.
End XmlRound.

Theorem loose_tree float_str obj_str val_str h d verbose vns id ex tv h1 x : doc_loose h d -> encode_tree float_str obj_str val_str h d verbose vns id ex tv = (h1, Ok x) ->
  exists k, converted h d k /\ doc_ok k d /\ document_elem float_str k d verbose id x /\
  (exists k1, encode_tree float_str obj_str val_str k d verbose vns id true false = (k1, Ok x)) /\
  forall y l n f t v, doc_node h d y l n -> dget (l_fields (h_layer h l)) f = Some t -> dget (n_fieldsof h n) f = Some v -> v <> VNone ->
    dt_name t <> TBinary /\ (dt_name t = TString -> exists z, v = VStr z).
Proof.
  intros D H. destruct (tree_inv _ _ _ _ _ _ _ _ _ _ _ _ H) as (offsets & ts & ls & ps & lt & Ec & Ft & Fl & Hp & Fy & ->).
  set (prefix := match id with [] => [] | _ => id ++ s "." end) in *.
  destruct (round_compile h h1 d offsets ex tv D Ec) as (k1 & Ek & Sk). set (k := star (becomes h h1) h) in *.
  assert (R : encode_tree float_str obj_str val_str k d verbose vns id true false = (k1, snd (encode_tree float_str obj_str val_str h d verbose vns id ex tv))).
  { rewrite H. cbn [snd]. unfold encode_tree, encode_intermediate. rewrite Ek. unfold encode_tree, encode_intermediate in H. rewrite Ec in H.
    match type of H with context [rbind ?m _] => destruct m as [ts'|]; [|discriminate] end. cbn [rbind] in *.
    assert (E : mapM (xml_layer float_str k1 offsets) (d_layers d) = mapM (xml_layer float_str h1 offsets) (d_layers d)).
    { apply mapM_in. intros [y l] I. eapply xml_layer_same with (vns := vns) (ls := ls) (lt := lt); eassumption. }
    rewrite E. destruct (mapM (xml_layer float_str h1 offsets) (d_layers d)) as [ls'|]; [|discriminate]. cbn [rbind] in *.
    assert (G : forall attrs pre, (h1, let* ps := props_tree float_str obj_str (d_props d) in let* lt := mapM (layer_tree h1 vns pre) ls' in
       Ok (Elem (s "document") attrs [Elem (s "props") [] ps; Elem (s "schema") [] (map (schema_tree float_str val_str) ls'); Elem (s "texts") [] (map (text_tree verbose) ts'); Elem (s "layers") [] lt])) = (h1, Ok (Elem (s "document") (match id with [] => [] | _ => [(xid, id)] end)
        [Elem (s "props") [] ps; Elem (s "schema") [] (map (schema_tree float_str val_str) ls); Elem (s "texts") [] (map (text_tree verbose) ts); Elem (s "layers") [] lt])) ->
       (k1, let* ps := props_tree float_str obj_str (d_props d) in let* lt := mapM (layer_tree k1 vns pre) ls' in
       Ok (Elem (s "document") attrs [Elem (s "props") [] ps; Elem (s "schema") [] (map (schema_tree float_str val_str) ls'); Elem (s "texts") [] (map (text_tree verbose) ts'); Elem (s "layers") [] lt])) = (k1, Ok (Elem (s "document") (match id with [] => [] | _ => [(xid, id)] end)
        [Elem (s "props") [] ps; Elem (s "schema") [] (map (schema_tree float_str val_str) ls); Elem (s "texts") [] (map (text_tree verbose) ts); Elem (s "layers") [] lt]))).
    { intros attrs pre G. apply pair_equal_spec in G. destruct G as [_ G]. f_equal. rewrite <- G. destruct (props_tree float_str obj_str (d_props d)); [|reflexivity]. cbn [rbind] in *.
      destruct (mapM (layer_tree h1 vns pre) ls') as [lt'|] eqn:El; [|discriminate]. erewrite mapM_ok_imp; [reflexivity| |exact El]. intros xl y0. apply layer_tree_alike, (proj1 Sk). }
    destruct id as [|c id]; apply G; exact H. }
  rewrite H in R. cbn [snd] in R. pose proof (xml_ok float_str h h1 d offsets ex tv vns D Ec ls lt prefix Fl Fy) as Dk.
  exists k. split; [eapply xml_converted; eassumption|]. split; [exact Dk|]. split; [eapply tree_shows; eassumption|]. split; [exists k1; exact R|].
  intros y l n f t v [I J] Et Ev Nv. destruct (plain_dec (dt_name t)) as [P|P].
  - destruct (member_value float_str h h1 d offsets ex tv vns D Ec ls lt prefix Fl Fy y l n f t v I J Et Ev P) as (_ & _ & _ & M). destruct (M Nv) as (A & _ & B). auto.
  - split; [|intros E]; [intros E|]; exfalso; apply P; rewrite E; unfold plain_type; simpl; tauto.
Qed.
