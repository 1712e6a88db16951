(** The XML tree shows the document: fields, nodes, layers. *)
From Verif Require Import PyBase PyBaseFacts Model_Text Model_Heap Model_Layer Model_Types Model_Msgpack Model_Document Model_Codec Model_XmlString
  Spec_Layer Spec_Types Spec_Document Spec_Codec Proof_Msgpack Proof_Text Proof_Layer Proof_Layer4 Proof_Types Proof_Document Proof_Codec Proof_Codec2 Proof_Codec3 Spec_Xml Proof_Xml.
Local Open Scope Z_scope.

Lemma at_member' h l p n : wf h -> at_pos h l p n -> n_collof h n = Some l.
Proof.
  intros W Hp. unfold at_pos in Hp. rewrite (iter_wf _ _ W), nth_error_map in Hp. destruct (nth_error (content h l) p) as [m|] eqn:E; [|discriminate].
  injection Hp as ->. apply layer_ok_member; [apply (wf_layers h W)|eapply nth_error_In; eassumption].
Qed.
Lemma node_i_id h n i : node_i h n = Ok i -> n_idof h n = i.
Proof. unfold node_i. destruct (n_idof h n =? -1); [discriminate|]. intros H. apply Ok_inj in H. assumption. Qed.

Section Tree.
Variables (float_str : N -> pystr) (obj_str : mobj -> pystr) (val_str : value -> pystr) (h : heap) (d : doc) (ex tv : bool) (h1 : heap) (offsets : dict (list Z)).
Hypothesis D : doc_ok h d.
Hypothesis Ec : compile h d ex tv = (h1, Ok offsets).
Definition segs_of (c : pystr) : list pystr :=
  match dget (d_texts d) c, dget offsets c with Some t, Some o => text_compile t o | _, _ => [] end.

Lemma text_offsets c txt : dget (d_texts d) c = Some txt -> exists q, dget offsets c = Some (sorted_offsets txt q) /\ Forall (fun o => 0 <= o <= zlen txt) q /\ forall x, In x q <-> doc_offset h d c x.
Proof.
  intros Hc. destruct (compile_offsets h d ex tv h1 offsets (do_wf h d D) (do_known h d D) Ec) as [_ Ho]. destruct (Ho c txt Hc) as (q & Eq & Hq).
  exists q. split; [assumption|]. split; [|assumption]. apply Forall_forall. intros z Hz. apply Hq in Hz. eapply span_bounds; eassumption.
Qed.
Lemma segs_join c txt : dget (d_texts d) c = Some txt -> List.concat (segs_of c) = txt.
Proof. intros Hc. destruct (text_offsets c txt Hc) as (q & Eq & F & _). unfold segs_of. rewrite Hc, Eq. apply (segmentation txt q F). Qed.

Lemma shown_total k l n f t v offs : doc_node h d k l n -> In (f, t) (l_fields (h_layer h l)) -> dget (n_fieldsof h n) f = Some v -> v <> VNone -> dt_name t <> TBinary ->
  uses_offsets offsets t offs -> exists e, encoded float_str h1 false offs (dt_name t) v e /\ shown float_str h d segs_of t v e.
Proof.
  intros Hn Hf Hv Nv Nb Uo. destruct (compile_keeps h d ex tv h1 _ (do_wf h d D) (do_known h d D) Ec) as (W1 & S & P0).
  assert (P : forall k l p n, In (k, l) (d_layers d) -> at_pos h1 l p n -> node_i h1 n = Ok (Z.of_nat p)) by (intros; eapply P0; eauto).
  assert (Ht : dget (l_fields (h_layer h l)) f = Some t) by (apply dget_nodup; [apply (wf_schema h (do_wf h d D))|assumption]).
  pose proof (do_values h d D k l n f v t Hn Hv Ht) as V.
  assert (Num : forall x m, own_node h d x m -> numbered h d x m (str_int (n_idof h1 m))).
  { intros x m Hm. destruct (own_pos h d h1 S P x m Hm) as (lx & p & El & Ap & Np & _). exists lx, p. split; [assumption|]. split; [assumption|].
    rewrite (node_i_id _ _ _ Np). apply str_int_text. }
  assert (Many : forall x ns, Forall (own_node h d x) ns -> exists ys, mapM (id_str h1) (map Some ns) = Ok ys /\ Forall2 (numbered h d x) ns ys).
  { intros x ns F. exists (map (fun m => str_int (n_idof h1 m)) ns). induction F as [|m ns Hm F IH]; [split; [reflexivity|constructor]|]. destruct IH as [E1 E2].
    cbn [map mapM id_str rbind]. rewrite E1. split; [reflexivity|]. constructor; [apply Num, Hm|assumption]. }
  destruct V as [Hns|i Hi|b Hi|b Hb ?|b Hb|x Hx|x Hx Hb|cx txt a b Htt Htx Ha Hb|x m Hr Hx Ho|x ns Hr Hx Ho|x a b Hr Hx Ho|x a b Hr Hx Ho].
  - congruence.
  - exists (ESimple (str_int i)). split; [|constructor; [assumption|apply str_int_text]]. exists (XStr (str_int i)).
    cbn [tree_entry]. destruct Hi as [Hi|[Hi|[]]]; rewrite <- Hi; auto.
  - exists (ESimple (str_int (if b then 1 else 0))). split; [|constructor; [assumption|apply str_int_text]]. exists (XStr (str_int (if b then 1 else 0))).
    cbn [tree_entry]. destruct Hi as [Hi|[Hi|[]]]; rewrite <- Hi; auto.
  - exists (ESimple (float_str b)). split; [|constructor; assumption]. exists (XStr (float_str b)). rewrite Hb. auto.
  - exists (ESimple (str_bool b)). split; [|unfold str_bool; constructor; assumption]. exists (XStr (str_bool b)). rewrite Hb. auto.
  - exists (ESimple (xml_string x)). split; [|constructor; assumption]. exists (XStr (xml_string x)). rewrite Hx. auto.
  - congruence.
  - destruct (text_offsets cx txt Htx) as (q & Eq & F & Hq). rewrite (Uo cx Htt) in Eq. injection Eq as ->.
    assert (I : forall o, o = a \/ o = b -> In o (sorted_offsets txt q)).
    { intros o Hoo. apply sorted_offsets_In. right. right. apply Hq. exists k, l. split; [apply Hn|]. exists n, f, t, cx, txt, a, b. repeat split; auto; try apply Hn; apply Htt. }
    destruct (offset_id_nth _ a (I a (or_introl eq_refl))) as (i & Ia & Na). destruct (offset_id_nth _ b (I b (or_intror eq_refl))) as (j & Ib & Nj).
    destruct (segments_span txt q a b i j F (proj2 Ha) Ia Na Ib Nj) as (Q1 & Q2 & Q3 & Q4).
    assert (Sg : segs_of cx = text_compile txt (sorted_offsets txt q)) by (unfold segs_of; rewrite Htx, (Uo cx Htt); reflexivity).
    exists (EEmbed [(s "from", str_int (Z.of_nat i)); (s "until", str_int (Z.of_nat j))]). split.
    + exists (XPair (sorted_offsets txt q) (VSpan cx txt a b)). destruct Htt as [-> _]. split; [reflexivity|]. cbn [tree_entry]. unfold offset_str. rewrite Ia, Ib. reflexivity.
    + apply sw_span with (i := i) (j := j); rewrite ?Sg; auto using str_int_text.
  - exists (ESimple (str_int (n_idof h1 m))). split; [|econstructor; eauto]. exists (XStr (str_int (n_idof h1 m))). rewrite Hr. auto.
  - destruct (Many x ns Ho) as (ys & E1 & E2). exists (EArray ys). split; [|econstructor; eassumption]. exists (XList ys). rewrite Hr. cbn [xml_encode value_elems rbind]. rewrite E1. auto.
  - destruct (own_span_iter h d (do_wf h d D) x a b Ho) as (ns & E0 & _ & F). destruct (Many x ns F) as (ys & E1 & E2). exists (EArray ys). split; [|econstructor; eassumption].
    exists (XList ys). rewrite Hr. cbn [xml_encode value_elems]. rewrite (same_nodespan h h1 a b ns (do_wf h d D) W1 S E0). cbn [rbind]. rewrite E1. auto.
  - destruct Ho as (lx & p & q & El & Pa & Pb & Hpq).
    assert (Oa : own_node h d x a) by (exists lx, p; auto). assert (Ob : own_node h d x b) by (exists lx, q; auto).
    exists (EEmbed [(s "from", l_nameof h lx ++ s "." ++ str_int (n_idof h1 a)); (s "to", l_nameof h lx ++ s "." ++ str_int (n_idof h1 b))]). split; [|eapply sw_nodespan; eauto].
    exists (XRaw (VNodeSpan a b)). rewrite Hr. split; [reflexivity|]. cbn [tree_entry]. unfold node_name. rewrite (same_coll _ _ S), (at_member' h lx p a (do_wf h d D) Pa), (same_name _ _ S). cbn [rbind].
    destruct (own_pos h d h1 S P x a Oa) as (? & pa & _ & _ & Na & _). destruct (own_pos h d h1 S P x b Ob) as (? & pb & _ & _ & Nb' & _). rewrite Na, Nb'. cbn [rbind].
    rewrite (node_i_id _ _ _ Na), (node_i_id _ _ _ Nb'). reflexivity.
Qed.
Lemma encoded_false vns offs t v e : encoded float_str h1 vns offs t v e -> encoded float_str h1 false offs t v e.
Proof. intros (x & A & B). exists x. split; [assumption|]. eapply tree_entry_false; eassumption. Qed.
Lemma encoded_inj vns offs t v e e' : encoded float_str h1 vns offs t v e -> encoded float_str h1 vns offs t v e' -> e = e'.
Proof. intros (x & A & B) (x' & A' & B'). congruence. Qed.
Lemma shown_ok vns k l n f t v offs e : doc_node h d k l n -> In (f, t) (l_fields (h_layer h l)) -> dget (n_fieldsof h n) f = Some v -> v <> VNone ->
  uses_offsets offsets t offs -> encoded float_str h1 vns offs (dt_name t) v e -> shown float_str h d segs_of t v e.
Proof.
  intros Hn Hf Hv Nv Uo He. assert (Nb : dt_name t <> TBinary).
  { intros Hb. destruct He as (x & A & B). rewrite Hb in A. assert (X : exists y, x = XRaw (VBytes y)).
    { destruct v; cbn [xml_encode] in A; try (match type of A with rbind ?m _ = _ => destruct m as [y|]; [|discriminate] end; cbn [rbind] in A); apply Ok_inj in A; eauto. }
    destruct X as (y & ->). discriminate. }
  destruct (shown_total k l n f t v offs Hn Hf Hv Nv Nb Uo) as (e' & A & B). rewrite (encoded_inj false offs (dt_name t) v e e' (encoded_false _ _ _ _ _ He) A). assumption.
Qed.

Lemma field_encoder_inv ft y : field_encoder offsets ft = Ok y -> fst y = fst ft /\ fst (snd y) = dt_name (snd ft) /\ uses_offsets offsets (snd ft) (snd (snd y)).
Proof.
  destruct ft as [f t]. unfold field_encoder. cbn [fst snd]. destruct (type_string (dt_name t)); [|discriminate]. cbn [rbind]. intros H.
  match type of H with rbind ?m _ = _ => destruct m as [offs|] eqn:E2; [|discriminate] end. cbn [rbind] in H. apply Ok_inj in H. subst y. cbn [fst snd]. split; [reflexivity|]. split; [reflexivity|].
  intros c [Hn Hc]. rewrite Hn in E2. apply opt_name_ok in Hc. rewrite Hc in E2. cbn [rbind] in E2. unfold dgetE in E2.
  destruct (dget offsets c); [apply Ok_inj in E2; subst; reflexivity|discriminate].
Qed.
Lemma node_tree_ok vns pre k l n i encs xs y : doc_node h d k l n -> mapM (field_encoder offsets) (l_fields (h_layer h l)) = Ok encs ->
  node_values float_str h1 encs n = Ok xs -> node_tree h1 vns pre k i xs = Ok y ->
  node_elem float_str h d segs_of (pre ++ k ++ s "." ++ str_int i) l n y.
Proof.
  intros Hn Hf Hx Ht. destruct (compile_keeps h d ex tv h1 _ (do_wf h d D) (do_known h d D) Ec) as (W1 & S & _).
  apply mapM_Forall2 in Hf. unfold node_tree in Ht. match type of Ht with rbind ?m _ = _ => destruct m as [es|] eqn:Es; [|discriminate] end. cbn [rbind] in Ht. apply Ok_inj in Ht. subst y.
  assert (Ek : map fst encs = dkeys (l_fields (h_layer h l))).
  { clear - Hf. unfold dkeys. induction Hf as [|ft y a b H F IH]; [reflexivity|]. cbn [map]. rewrite IH. f_equal. apply (field_encoder_inv _ _ H). }
  pose proof (wf_schema h (do_wf h d D) l) as ND.
  destruct (entries_spec float_str h1 vns n encs xs es) as (A & B & C); [rewrite Ek; assumption|assumption|exact Es|].
  unfold node_elem. do 2 eexists. split; [reflexivity|]. split; [apply dget_dset_same|]. split; [apply kids_named|].
  intros f Nf. rewrite dget_dset_other by assumption. rewrite simple_get by assumption. rewrite named_app, embedded_named, arrays_named by assumption.
  destruct (dget (l_fields (h_layer h l)) f) as [t|] eqn:Ef.
  2: { rewrite dget_none; [split; reflexivity|]. intros Hin. apply B in Hin. rewrite Ek in Hin. apply dmem_In in Hin. unfold dmem in Hin. rewrite Ef in Hin. discriminate. }
  apply dget_In in Ef. destruct (In_nth_error _ _ Ef) as [j Hj]. destruct (Forall2_nth _ _ _ _ _ Hf Hj) as ([f' [t' offs]] & Hj' & He). destruct (field_encoder_inv _ _ He) as (E1 & E2 & E3). cbn [fst snd] in *. subst f' t'.
  specialize (C f (dt_name t) offs (nth_error_In _ _ Hj')). rewrite (same_fields _ _ S) in C. destruct (dget (n_fieldsof h n) f) as [v|] eqn:Ev; [|rewrite C; split; reflexivity].
  assert (Q : v <> VNone -> (exists e, encoded float_str h1 vns offs (dt_name t) v e /\ dget es f = Some e) ->
     exists e, shown float_str h d segs_of t v e /\ present f e (dset (simple_of es) xid (pre ++ k ++ s "." ++ str_int i)) (embedded_of es ++ arrays_of es)).
  { intros Nv (e & He1 & He2). exists e. split; [eapply shown_ok; eassumption|]. unfold present. rewrite dget_dset_other by assumption. rewrite simple_get by assumption.
    rewrite named_app, embedded_named, arrays_named by assumption. rewrite He2. destruct e; auto. }
  destruct v; try (apply Q; [discriminate|exact C]). rewrite C. split; reflexivity.
Qed.
Lemma layer_tree_ok vns pre k l xl y : In (k, l) (d_layers d) -> xml_layer float_str h1 offsets (k, l) = Ok xl -> layer_tree h1 vns pre xl = Ok y ->
  layer_elem float_str h d segs_of pre k l y /\ xl_name xl = k /\
  Forall2 (fun ft z => type_string (dt_name (snd ft)) = Ok (fst (snd z)) /\ fst z = fst ft /\ snd (snd z) = dt_opts (snd ft)) (l_fields (h_layer h l)) (xl_schema xl).
Proof.
  intros Hin Hx Hy. destruct (compile_keeps h d ex tv h1 _ (do_wf h d D) (do_known h d D) Ec) as (W1 & S & _).
  unfold xml_layer in Hx. cbn [fst snd] in Hx. rewrite (same_schema _ _ S), (same_iter _ _ S) in Hx.
  destruct (mapM (field_encoder offsets) (l_fields (h_layer h l))) as [encs|] eqn:Ee; [|discriminate]. cbn [rbind] in Hx.
  match type of Hx with rbind ?m _ = _ => destruct m as [sch|] eqn:Esch; [|discriminate] end. cbn [rbind] in Hx.
  match type of Hx with rbind ?m _ = _ => destruct m as [ns|] eqn:En; [|discriminate] end. cbn [rbind] in Hx. apply Ok_inj in Hx. subst xl.
  unfold layer_tree in Hy. cbn [xl_name xl_nodes xl_schema] in *. destruct (nodes_tree h1 vns pre k 0 ns) as [q|] eqn:Eq; [|discriminate]. cbn [rbind] in Hy. apply Ok_inj in Hy. subst y.
  apply mapM_Forall2 in En, Esch. destruct (nodes_tree_nth _ _ _ _ _ _ _ Eq) as [Lq Nq]. split; [|split; [reflexivity|]].
  - exists q. split; [reflexivity|]. split; [rewrite Lq; symmetry; clear - En; induction En; cbn; congruence|]. intros p n Hp.
    destruct (Forall2_nth _ _ _ _ _ En Hp) as (xs & Hxs & Hvx). destruct (Nq p xs Hxs) as (y & Hy & Hty). rewrite Z.add_0_l in Hty.
    exists y, (str_int (Z.of_nat p)). split; [assumption|]. split; [apply str_int_text|]. eapply node_tree_ok; try eassumption. split; [assumption|eapply nth_error_In; exact Hp].
  - eapply Forall2_impl'; [exact Esch|]. intros [f t] z _ H. cbn [fst snd] in *. destruct (type_string (dt_name t)) as [ts|]; [|discriminate]. cbn [rbind] in H. apply Ok_inj in H. subst z. auto.
Qed.
End Tree.

Section Main.
Variables (float_str : N -> pystr) (obj_str : mobj -> pystr) (val_str : value -> pystr).
Lemma tree_inv h d verbose vns id ex tv h1 x : encode_tree float_str obj_str val_str h d verbose vns id ex tv = (h1, Ok x) -> exists offsets ts ls ps lt,
  compile h d ex tv = (h1, Ok offsets) /\
  Forall2 (fun kt ke => fst ke = fst kt /\ exists o, dget offsets (fst kt) = Some o /\ snd ke = text_compile (snd kt) o) (d_texts d) ts /\
  Forall2 (fun kl y => xml_layer float_str h1 offsets kl = Ok y) (d_layers d) ls /\ props_tree float_str obj_str (d_props d) = Ok ps /\
  Forall2 (fun l y => layer_tree h1 vns (match id with [] => [] | _ => id ++ s "." end) l = Ok y) ls lt /\
  x = Elem (s "document") (match id with [] => [] | _ => [(xid, id)] end)
        [Elem (s "props") [] ps; Elem (s "schema") [] (map (schema_tree float_str val_str) ls); Elem (s "texts") [] (map (text_tree verbose) ts); Elem (s "layers") [] lt].
Proof.
  unfold encode_tree, encode_intermediate. destruct (compile h d ex tv) as [h2 [o|]] eqn:Ec; [|discriminate].
  match goal with |- context [rbind ?m _] => destruct m as [ts|] eqn:E1 end; [|discriminate]. cbn [rbind].
  destruct (mapM (xml_layer float_str h2 o) (d_layers d)) as [ls|] eqn:E2; [|discriminate]. cbn [rbind].
  assert (Q : forall attrs prefix, (h2, let* ps := props_tree float_str obj_str (d_props d) in let* lt := mapM (layer_tree h2 vns prefix) ls in
     Ok (Elem (s "document") attrs [Elem (s "props") [] ps; Elem (s "schema") [] (map (schema_tree float_str val_str) ls); Elem (s "texts") [] (map (text_tree verbose) ts); Elem (s "layers") [] lt])) = (h1, Ok x) ->
     h2 = h1 /\ exists ps lt, props_tree float_str obj_str (d_props d) = Ok ps /\ mapM (layer_tree h2 vns prefix) ls = Ok lt /\
     x = Elem (s "document") attrs [Elem (s "props") [] ps; Elem (s "schema") [] (map (schema_tree float_str val_str) ls); Elem (s "texts") [] (map (text_tree verbose) ts); Elem (s "layers") [] lt]).
  { intros attrs prefix H. apply pair_equal_spec in H. destruct H as [<- H]. split; [reflexivity|]. destruct (props_tree float_str obj_str (d_props d)) as [ps|]; [|discriminate]. cbn [rbind] in H.
    destruct (mapM (layer_tree h2 vns prefix) ls) as [lt|]; [|discriminate]. cbn [rbind] in H. apply Ok_inj in H. exists ps, lt. auto. }
  intros H. apply mapM_Forall2 in E1, E2.
  assert (R : h2 = h1 /\ exists ps lt, props_tree float_str obj_str (d_props d) = Ok ps /\ mapM (layer_tree h2 vns (match id with [] => [] | _ => id ++ s "." end)) ls = Ok lt /\
     x = Elem (s "document") (match id with [] => [] | _ => [(xid, id)] end) [Elem (s "props") [] ps; Elem (s "schema") [] (map (schema_tree float_str val_str) ls); Elem (s "texts") [] (map (text_tree verbose) ts); Elem (s "layers") [] lt])
    by (destruct id as [|c id]; exact (Q _ _ H)).
  destruct R as (-> & ps & lt & Hp & Hl & ->). apply mapM_Forall2 in Hl. exists o, ts, ls, ps, lt. repeat split; try assumption.
  eapply Forall2_impl'; [exact E1|]. intros [k t] [k' y] _ Hy. cbn [fst snd] in *. unfold dgetE in Hy. destruct (dget o k) as [q|] eqn:Eq; [|discriminate]. cbn [rbind] in Hy. apply Ok_inj in Hy. injection Hy as <- <-.
  split; [reflexivity|]. exists q. auto.
Qed.
Theorem tree_shows h d verbose vns id ex tv h1 x : doc_ok h d -> encode_tree float_str obj_str val_str h d verbose vns id ex tv = (h1, Ok x) ->
  document_elem float_str h d verbose id x.
Proof.
  intros D H. destruct (tree_inv _ _ _ _ _ _ _ _ _ H) as (offsets & ts & ls & ps & lt & Ec & Ft & Fl & Hp & Fy & ->).
  assert (FL : Forall2 (fun kl p => xml_layer float_str h1 offsets kl = Ok (fst p) /\ layer_tree h1 vns (match id with [] => [] | _ => id ++ s "." end) (fst p) = Ok (snd p)) (d_layers d) (combine ls lt) /\ length ls = length lt).
  { clear - Fl Fy. revert lt Fy. induction Fl as [|kl y a b R F IH]; intros lt Fy; inversion Fy; subst; [split; [constructor|reflexivity]|]. cbn [combine length]. destruct (IH _ H3) as [IA IB]. split; [constructor; [cbn [fst snd]; auto|assumption]|congruence]. }
  destruct FL as [FL LL].
  assert (FS : Forall2 (fun kl p => layer_elem float_str h d (segs_of d offsets) (match id with [] => [] | _ => id ++ s "." end) (fst kl) (snd kl) (snd p) /\ xl_name (fst p) = fst kl /\
     Forall2 (fun ft z => type_string (dt_name (snd ft)) = Ok (fst (snd z)) /\ fst z = fst ft /\ snd (snd z) = dt_opts (snd ft)) (l_fields (h_layer h (snd kl))) (xl_schema (fst p))) (d_layers d) (combine ls lt)).
  { eapply Forall2_impl'; [exact FL|]. intros [k l] [xl y] Hin [A B]. cbn [fst snd] in *. eapply layer_tree_ok; eassumption. }
  clear FL Fl Fy. assert (C1 : map fst (combine ls lt) = ls /\ map snd (combine ls lt) = lt).
  { clear - LL. revert lt LL. induction ls as [|a ls IH]; intros [|b lt] LL; try discriminate; [auto|]. cbn [combine map fst snd]. destruct (IH lt) as [-> ->]; [cbn in LL; lia|auto]. }
  remember (combine ls lt) as pl eqn:Epl. clear Epl LL. destruct C1 as [C1 C2]. subst ls lt.
  destruct (d_props d) as [| | | | | | |pd] eqn:Ed; try discriminate. cbn [props_tree] in Hp. apply Ok_inj in Hp. subst ps.
  do 5 eexists. exists (segs_of d offsets). split; [reflexivity|]. split; [exact Ed|]. split; [|split; [|split]].
  - clear. induction pd as [|[k v] r IH]; constructor; [|assumption]. cbn [fst snd]. eexists. split; [reflexivity|]. split; intros z ->; [reflexivity|apply str_int_text].
  - rewrite map_map. clear - FS. induction FS as [|[k l] [xl y] a b (_ & Hk & F) _ IH]; constructor; [|assumption]. cbn [fst snd] in *. unfold schema_tree. rewrite Hk. eexists. split; [reflexivity|].
    clear - F. induction F as [|[f t] [f' [ts o]] a b (T1 & T2 & T3) _ IH]; constructor; [|assumption]. cbn [fst snd] in *. subst f' o. unfold field_tree. cbn [fst snd]. exists ts. eexists. split; [assumption|]. split; [reflexivity|].
    induction (dt_opts t) as [|[k v] r IHo]; constructor; [|assumption]. cbn [fst snd]. eexists. split; [reflexivity|]. split; intros z ->; [reflexivity|apply str_int_text].
  - assert (X : Forall2 (fun kt ke => text_elem (segs_of d offsets) verbose (fst kt) (snd kt) (text_tree verbose ke)) (d_texts d) ts).
    { eapply Forall2_impl'; [exact Ft|]. intros [k t] [k' y] Hin (E1 & o & E2 & E3). cbn [fst snd] in *. subst k' y.
      pose proof (dget_nodup (d_texts d) k t (do_texts h d D) Hin) as Ek. assert (Sg : segs_of d offsets k = text_compile t o) by (unfold segs_of; rewrite Ek, E2; reflexivity).
      rewrite <- Sg. apply text_tree_ok. eapply segs_join; eassumption. }
    clear - X. induction X; constructor; assumption.
  - clear - FS. induction FS as [|[k l] [xl y] a b (Hl & _) _ IH]; constructor; assumption.
Qed.
End Main.
