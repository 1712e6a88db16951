(** The XML tree: identifiers, success, and what stays as it was. *)
From Verif Require Import PyBase PyBaseFacts Model_Text Model_Heap Model_Layer Model_Types Model_Msgpack Model_Document Model_Codec Model_XmlString
  Spec_Layer Spec_Types Spec_Document Spec_Codec Proof_Msgpack Proof_Text Proof_Layer4 Proof_Types Proof_Document Proof_Codec Proof_Codec2 Proof_Codec3 Spec_Xml Proof_Xml Proof_Xml2.
From Verif Require Spec_Printout.
Local Open Scope Z_scope.

Lemma flat_nil {A B} (g : A -> list B) l : (forall x, In x l -> g x = []) -> flat_map g l = [].
Proof. induction l as [|x l IH]; intros H; [reflexivity|]. cbn [flat_map]. rewrite (H x (or_introl eq_refl)), IH; [reflexivity|]. intros; apply H; right; assumption. Qed.
Lemma entry_no_id h vns x a : tree_entry h vns x = Ok (EEmbed a) -> dget a xid = None.
Proof.
  destruct x as [x|l|offs v|v]; cbn [tree_entry]; try discriminate.
  - destruct v; try discriminate. destruct (offset_str offs start); [|discriminate]. cbn [rbind]. destruct (offset_str offs stop); [|discriminate]. cbn [rbind]. destruct vns; [discriminate|].
    intros H. apply Ok_inj in H. injection H as <-. reflexivity.
  - destruct v as [| | | | | | |n|left right|[|o l]| |]; cbn [value_repr rbind]; try discriminate; [destruct (node_repr_ok h n); discriminate|]. destruct (node_name h left); [|discriminate]. cbn [rbind]. destruct (node_i h left); [|discriminate]. cbn [rbind]. destruct (node_i h right); [|discriminate]. cbn [rbind].
    intros H. apply Ok_inj in H. injection H as <-. reflexivity.
Qed.
Lemma seps_no_id verbose segs : forall i pos, flat_map ids (seps_tree verbose i pos segs) = [].
Proof. induction segs as [|x r IH]; intros i pos; [reflexivity|]. cbn [seps_tree flat_map]. rewrite IH. destruct verbose; reflexivity. Qed.
Lemma text_no_id verbose kt : ids (text_tree verbose kt) = [].
Proof. unfold text_tree. cbn [ids]. cbn [flat_map]. change (dget [(s "name", fst kt)] xid) with (@None pystr). cbn [app]. cbn [ids]. rewrite seps_no_id. destruct verbose; reflexivity. Qed.
Lemma node_ids h vns pre k i n y : node_tree h vns pre k i n = Ok y -> ids y = [pre ++ k ++ s "." ++ str_int i].
Proof.
  unfold node_tree. intros H. match type of H with rbind ?m _ = _ => destruct m as [es|] eqn:Es; [|discriminate] end. cbn [rbind] in H. apply Ok_inj in H. subst y.
  change (match dget (dset (simple_of es) xid (pre ++ k ++ s "." ++ str_int i)) xid with Some i => [i] | None => [] end ++ flat_map ids (embedded_of es ++ arrays_of es) = [pre ++ k ++ s "." ++ str_int i]).
  rewrite dget_dset_same, flat_map_app. apply mapM_Forall2 in Es.
  rewrite (flat_nil ids (embedded_of es)), (flat_nil ids (arrays_of es)); [reflexivity| |].
  - intros x Hx. unfold arrays_of in Hx. apply in_flat_map in Hx. destruct Hx as ([f e] & _ & Hx). destruct e; cbn in Hx; try contradiction. destruct Hx as [<-|[]].
    cbn [ids]. change (dget [(s "name", f)] xid) with (@None pystr). cbn [app]. apply flat_nil. intros z Hz. apply in_map_iff in Hz. destruct Hz as (w & <- & _). reflexivity.
  - intros x Hx. unfold embedded_of in Hx. apply in_flat_map in Hx. destruct Hx as ([f e] & Hin & Hx). destruct e as [| |a]; cbn [snd fst] in Hx; try contradiction. destruct Hx as [<-|[]].
    assert (Ha : dget a xid = None).
    { clear - Es Hin. induction Es as [|[g x] fe q r H F IH]; [contradiction|]. destruct Hin as [->|Hin]; [|auto]. cbn [fst snd] in H. destruct (tree_entry h vns x) as [e0|] eqn:E; [|discriminate].
      cbn [rbind] in H. apply Ok_inj in H. injection H as <- ->. eapply entry_no_id; eassumption. }
    cbn [ids]. change (dget ((s "name", f) :: a) xid) with (dget a xid). rewrite Ha. reflexivity.
Qed.
Lemma nodes_ids h vns pre k ns : forall i q, 0 <= i -> nodes_tree h vns pre k i ns = Ok q ->
  flat_map ids q = map (fun p => pre ++ k ++ s "." ++ str_int (Z.of_nat p)) (seq (Z.to_nat i) (length ns)).
Proof.
  induction ns as [|n r IH]; intros i q L H; cbn [nodes_tree] in H; [apply Ok_inj in H; subst q; reflexivity|].
  destruct (node_tree h vns pre k i n) as [x|] eqn:E; [|discriminate]. cbn [rbind] in H. destruct (nodes_tree h vns pre k (i + 1) r) as [q'|] eqn:E'; [|discriminate]. cbn [rbind] in H.
  apply Ok_inj in H. subst q. cbn [flat_map length seq map]. rewrite (node_ids _ _ _ _ _ _ _ E), (IH (i + 1) q'); [|lia|assumption].
  rewrite Z2Nat.id by assumption. replace (Z.to_nat (i + 1)) with (S (Z.to_nat i)) by lia. reflexivity.
Qed.

Section Main.
Variables (float_str : N -> pystr) (obj_str : mobj -> pystr) (val_str : value -> pystr).
Lemma layers_ids h h1 vns pre offsets dl ls lt : looks_same h h1 -> Forall2 (fun kl y => xml_layer float_str h1 offsets kl = Ok y) dl ls ->
  Forall2 (fun l y => layer_tree h1 vns pre l = Ok y) ls lt ->
  flat_map ids lt = flat_map (fun kl => map (fun p => pre ++ fst kl ++ s "." ++ str_int (Z.of_nat p)) (seq 0 (length (layer_iter h (snd kl))))) dl.
Proof.
  intros S Fl Fy. revert lt Fy. induction Fl as [|[k l] xl a b R F IH]; intros lt Fy; inversion Fy as [|? y ? lt' Hy Fy']; subst; [reflexivity|].
    cbn [flat_map fst snd]. rewrite (IH lt' Fy'). f_equal.
    unfold xml_layer in R. cbn [fst snd] in R. match type of R with rbind ?m _ = _ => destruct m as [encs|] eqn:Ee; [|discriminate] end. cbn [rbind] in R.
    match type of R with rbind ?m _ = _ => destruct m as [sch|] eqn:Esch; [|discriminate] end. cbn [rbind] in R.
    match type of R with rbind ?m _ = _ => destruct m as [ns|] eqn:En; [|discriminate] end. cbn [rbind] in R. apply Ok_inj in R. subst xl.
    unfold layer_tree in Hy. cbn [xl_name xl_nodes] in Hy. destruct (nodes_tree h1 vns pre k 0 ns) as [q|] eqn:Eq; [|discriminate]. cbn [rbind] in Hy. apply Ok_inj in Hy. subst y.
    change (ids (Elem (s "layer") [(s "name", k)] q)) with (flat_map ids q). rewrite (nodes_ids _ _ _ _ _ _ _ (Z.le_refl 0) Eq). f_equal. f_equal.
    apply mapM_Forall2 in En. rewrite <- (same_iter _ _ S l). clear - En. induction En; cbn; congruence.
Qed.
Lemma tree_ids h d verbose vns id ex tv h1 x : wf h -> known h d -> encode_tree float_str obj_str val_str h d verbose vns id ex tv = (h1, Ok x) ->
  ids x = match id with [] => [] | _ => [id] end ++
    flat_map (fun kl => map (fun p => match id with [] => [] | _ => id ++ s "." end ++ fst kl ++ s "." ++ str_int (Z.of_nat p)) (seq 0 (length (layer_iter h (snd kl))))) (d_layers d).
Proof.
  intros W K H. destruct (tree_inv _ _ _ _ _ _ _ _ _ _ _ _ H) as (offsets & ts & ls & ps & lt & Ec & Ft & Fl & Hp & Fy & ->).
  destruct (compile_keeps h d ex tv h1 _ W K Ec) as (W1 & S & _). change (ids (Elem (s "document") (match id with [] => [] | _ => [(xid, id)] end)
        [Elem (s "props") [] ps; Elem (s "schema") [] (map (schema_tree float_str val_str) ls); Elem (s "texts") [] (map (text_tree verbose) ts); Elem (s "layers") [] lt]))
   with (match dget (match id with [] => [] | _ => [(xid, id)] end) xid with Some i => [i] | None => [] end ++
     flat_map ids ps ++ flat_map ids (map (schema_tree float_str val_str) ls) ++ flat_map ids (map (text_tree verbose) ts) ++ flat_map ids lt ++ []).
  rewrite (flat_nil ids ps), (flat_nil ids (map (schema_tree float_str val_str) ls)), (flat_nil ids (map (text_tree verbose) ts)).
  - cbn [app]. rewrite app_nil_r. f_equal; [destruct id; [reflexivity|cbn [dget]; rewrite str_eqb_refl; reflexivity]|].
    eapply layers_ids; eassumption.
  - intros y Hy. apply in_map_iff in Hy. destruct Hy as (kt & <- & _). apply text_no_id.
  - intros y Hy. apply in_map_iff in Hy. destruct Hy as (xl & <- & _). unfold schema_tree. cbn [ids]. change (dget [(s "layer", xl_name xl)] xid) with (@None pystr). cbn [app].
    apply flat_nil. intros z Hz. apply in_map_iff in Hz. destruct Hz as (ft & <- & _). unfold field_tree. cbn [ids]. change (dget [(s "name", fst ft); (s "type", fst (snd ft))] xid) with (@None pystr). cbn [app].
    apply flat_nil. intros w Hw. apply in_map_iff in Hw. destruct Hw as (kv & <- & _). reflexivity.
  - intros y Hy. destruct (d_props d); try discriminate. cbn [props_tree] in Hp. apply Ok_inj in Hp. subst ps. apply in_map_iff in Hy. destruct Hy as (kv & <- & _). reflexivity.
Qed.

(** the last dot separates the layer from the number *)
Lemma split_dot a b x y : Forall Spec_Printout.is_digit x -> Forall Spec_Printout.is_digit y -> a ++ s "." ++ x = b ++ s "." ++ y -> a = b /\ x = y.
Proof.
  intros Fx Fy E. change (s "." ++ x) with (46%N :: x) in E. change (s "." ++ y) with (46%N :: y) in E. revert b E. induction a as [|c a IH]; intros [|c' b] E; cbn [app] in E.
  - injection E as ->. auto.
  - exfalso. injection E as _ ->. apply Forall_app in Fx. destruct Fx as [_ Fx]. inversion Fx as [|? ? H _]. unfold Spec_Printout.is_digit in H. lia.
  - exfalso. injection E as _ <-. apply Forall_app in Fy. destruct Fy as [_ Fy]. inversion Fy as [|? ? H _]. unfold Spec_Printout.is_digit in H. lia.
  - injection E as -> E. destruct (IH b E) as [-> ->]. auto.
Qed.
Lemma str_int_nat_inj p q : str_int (Z.of_nat p) = str_int (Z.of_nat q) -> p = q.
Proof. intros H. destruct (str_int_natural (Z.of_nat p)) as (A & _); [lia|]. destruct (str_int_natural (Z.of_nat q)) as (B & _); [lia|]. rewrite H in A. rewrite A in B. lia. Qed.
Lemma digits_nat p : Forall Spec_Printout.is_digit (str_int (Z.of_nat p)).
Proof. apply str_int_natural. lia. Qed.
Lemma nodup_flat {A B} (g : A -> list B) l : NoDup l -> (forall x, In x l -> NoDup (g x)) -> (forall x y z, In x l -> In y l -> In z (g x) -> In z (g y) -> x = y) -> NoDup (flat_map g l).
Proof.
  induction l as [|x l IH]; intros N G S; [constructor|]. inversion N as [|? ? Nx Nl]; subst. cbn [flat_map]. apply NoDup_app_intro || idtac.
  assert (Q : forall (a b : list B), NoDup a -> NoDup b -> (forall z, In z a -> ~ In z b) -> NoDup (a ++ b)).
  { clear. induction a as [|u a IH]; intros b Na Nb Hd; [assumption|]. inversion Na; subst. cbn [app]. constructor.
    - intros Hi. apply in_app_or in Hi. destruct Hi as [Hi|Hi]; [contradiction|]. apply (Hd u); [left; reflexivity|assumption].
    - apply IH; auto. intros z Hz. apply Hd. right. assumption. }
  apply Q.
  - apply G. left. reflexivity.
  - apply IH; [assumption|intros; apply G; right; assumption|]. intros y z w Hy Hz. apply S; right; assumption.
  - intros z Hz Hin. apply in_flat_map in Hin. destruct Hin as (y & Hy & Hz'). assert (x = y) by (apply (S x y z); [left; reflexivity|right; assumption|assumption|assumption]). subst y. contradiction.
Qed.
Theorem tree_ids_unique h d verbose vns id ex tv h1 x : wf h -> known h d -> NoDup (dkeys (d_layers d)) ->
  encode_tree float_str obj_str val_str h d verbose vns id ex tv = (h1, Ok x) -> NoDup (ids x).
Proof.
  intros W K N H. rewrite (tree_ids _ _ _ _ _ _ _ _ _ W K H). set (pre := match id with [] => [] | _ => id ++ s "." end).
  assert (Q : NoDup (flat_map (fun kl => map (fun p => pre ++ fst kl ++ s "." ++ str_int (Z.of_nat p)) (seq 0 (length (layer_iter h (snd kl))))) (d_layers d))).
  { assert (E : forall k k' p q, pre ++ k ++ s "." ++ str_int (Z.of_nat p) = pre ++ k' ++ s "." ++ str_int (Z.of_nat q) -> k = k' /\ p = q).
    { intros k k' p q E. apply app_inv_head in E. apply split_dot in E; [|apply digits_nat|apply digits_nat]. destruct E as [-> E]. apply str_int_nat_inj in E. auto. }
    apply nodup_flat.
    - clear - N. unfold dkeys in N. apply NoDup_map_inv in N. assumption.
    - intros kl _. assert (Sq := seq_NoDup (length (layer_iter h (snd kl))) 0). induction Sq as [|p r Hp Sq IH]; [constructor|]. cbn [map]. constructor; [|assumption].
      intros Hi. apply in_map_iff in Hi. destruct Hi as (q & Eq & Hq). apply E in Eq. destruct Eq as [_ ->]. contradiction.
    - intros [k l] [k' l'] z Hx Hy Hz Hz'. apply in_map_iff in Hz, Hz'. destruct Hz as (p & <- & _). destruct Hz' as (q & Eq & _). cbn [fst snd] in *. apply E in Eq. destruct Eq as [-> _].
      pose proof (dget_nodup _ _ _ N Hx) as X. pose proof (dget_nodup _ _ _ N Hy) as Y. congruence. }
  destruct id as [|c id]; [exact Q|]. cbn [app]. constructor; [|exact Q]. intros Hi. apply in_flat_map in Hi. destruct Hi as (kl & _ & Hi). apply in_map_iff in Hi. destruct Hi as (p & Ep & _).
  apply (f_equal (@length BinNums.N)) in Ep. subst pre. unfold pystr in *. rewrite !app_length in Ep. cbn [length s] in Ep. change (length (s ".")) with 1%nat in Ep. cbn [length] in Ep. lia.
Qed.

(** ** Success *)
Lemma nodes_tree_total h pre k ns : forall i, (forall n, In n ns -> exists es, mapM (fun fx => let* e := tree_entry h false (snd fx) in Ok (fst fx, e)) n = Ok es) ->
  exists q, nodes_tree h false pre k i ns = Ok q.
Proof.
  induction ns as [|n r IH]; intros i H; [eexists; reflexivity|]. cbn [nodes_tree]. unfold node_tree at 1. destruct (H n (or_introl eq_refl)) as [es ->]. cbn [rbind].
  destruct (IH (i + 1)) as [q ->]; [intros; apply H; right; assumption|]. cbn [rbind]. eauto.
Qed.
Theorem tree_total h d verbose id ex tv ps : doc_valid h d -> d_props d = MMap ps -> no_binary h d ->
  exists h1 x, encode_tree float_str obj_str val_str h d verbose false id ex tv = (h1, Ok x).
Proof.
  intros V Ep NB. pose proof (dv_ok h d V) as D. destruct (compile_total h d V ex tv) as (h1 & offsets & Ec). exists h1.
  destruct (compile_keeps h d ex tv h1 _ (do_wf h d D) (do_known h d D) Ec) as (W1 & S & P).
  unfold encode_tree, encode_intermediate. rewrite Ec.
  match goal with |- context [rbind ?m _] => assert (T : exists ts, m = Ok ts) end.
  { apply mapM_total. intros [k t] Hin. cbn [fst snd]. destruct (text_offsets h d ex tv h1 offsets D Ec k t) as (q & Eq & _); [apply dget_nodup; [apply (do_texts h d D)|assumption]|].
    unfold dgetE. rewrite Eq. cbn [rbind]. eauto. }
  destruct T as [ts ->]. cbn [rbind].
  assert (L : forall kl, In kl (d_layers d) -> exists xl, xml_layer float_str h1 offsets kl = Ok xl /\
     forall m, In m (xl_nodes xl) -> exists es, mapM (fun fx => let* e := tree_entry h1 false (snd fx) in Ok (fst fx, e)) m = Ok es).
  { intros [k l] Hin. unfold xml_layer. cbn [fst snd]. rewrite (same_schema _ _ S), (same_iter _ _ S).
    assert (T1 : exists encs, mapM (field_encoder offsets) (l_fields (h_layer h l)) = Ok encs).
    { apply mapM_total. intros [f t] Hf. assert (Hd : declared h d k f t) by (exists l; auto). destruct (do_types h d D k f t Hd) as (NE & NU & [O1 O2] & _).
      unfold field_encoder. cbn [fst snd]. assert (T2 : exists ts', type_string (dt_name t) = Ok ts') by (destruct (dt_name t); try congruence; eexists; reflexivity). destruct T2 as [ts' ->]. cbn [rbind].
      assert (T3 : exists o, match dt_name t with TSpan => let* c := opt_name t (s "context") in dgetE offsets c | _ => Ok [] end = Ok o).
      { destruct (dt_name t) eqn:En; try (eexists; reflexivity). destruct (O2 eq_refl) as [c Hc]. unfold opt_name, dgetE at 1. rewrite Hc. cbn [rbind].
        pose proof (dv_text_targets h d V k f t c Hd (conj En Hc)) as Hi. apply dmem_In in Hi. unfold dmem in Hi. destruct (dget (d_texts d) c) as [txt|] eqn:Etx; [|discriminate].
        destruct (text_offsets h d ex tv h1 offsets D Ec c txt Etx) as (q & Eq & _). unfold dgetE. rewrite Eq. eauto. }
      destruct T3 as [o ->]. cbn [rbind]. eauto. }
    destruct T1 as [encs E1]. rewrite E1. cbn [rbind].
    match goal with |- context [rbind ?m _] => assert (T2 : exists sch, m = Ok sch) end.
    { apply mapM_total. intros [f t] Hf. cbn [fst snd]. assert (Hd : declared h d k f t) by (exists l; auto). destruct (do_types h d D k f t Hd) as (NE & NU & _).
      destruct (dt_name t); try congruence; eexists; reflexivity. }
    destruct T2 as [sch ->]. cbn [rbind]. apply mapM_Forall2 in E1.
    assert (T3 : forall o, In o (layer_iter h l) -> exists m, (match o with Some n => node_values float_str h1 encs n | None => Err TypeError end) = Ok m /\
       exists es, mapM (fun fx => let* e := tree_entry h1 false (snd fx) in Ok (fst fx, e)) m = Ok es).
    { intros o Ho. destruct (iter_nodes h d V k l o Hin Ho) as (n & -> & Hn).
      assert (G : forall fs en, Forall2 (fun ft y => field_encoder offsets ft = Ok y) fs en -> (forall f t, In (f, t) fs -> In (f, t) (l_fields (h_layer h l))) ->
         exists m, node_values float_str h1 en n = Ok m /\ exists es, mapM (fun fx => let* e := tree_entry h1 false (snd fx) in Ok (fst fx, e)) m = Ok es).
      { intros fs en F. induction F as [|[f t] [f' [t' offs]] fs en Hf F IH]; intros Sub; [exists []; split; [reflexivity|exists []; reflexivity]|].
        destruct IH as (m & Em & es & Ees); [intros; apply Sub; right; assumption|]. destruct (field_encoder_inv _ _ _ Hf) as (A1 & A2 & A3). cbn [fst snd] in *. subst f' t'.
        cbn [node_values]. rewrite Em, (same_fields _ _ S).
        assert (Hft : In (f, t) (l_fields (h_layer h l))) by (apply Sub; left; reflexivity).
        assert (Q : forall v, dget (n_fieldsof h n) f = Some v -> v <> VNone -> exists m', rbind (let* x := xml_encode float_str h1 offs (dt_name t) v in Ok [(f, x)]) (fun a => rbind (Ok m) (fun b => Ok (a ++ b))) = Ok m' /\
            exists es, mapM (fun fx => let* e := tree_entry h1 false (snd fx) in Ok (fst fx, e)) m' = Ok es).
        { intros v Ev Nv. destruct (shown_total float_str h d ex tv h1 offsets D Ec k l n f t v offs Hn Hft Ev Nv (NB _ _ _ _ _ _ Hn Hft Ev Nv) A3) as (e & (x & X1 & X2) & _).
          rewrite X1. cbn [rbind app]. eexists. split; [reflexivity|]. cbn [mapM fst snd]. rewrite X2. cbn [rbind]. rewrite Ees. cbn [rbind]. eauto. }
        destruct (dget (n_fieldsof h n) f) as [v|] eqn:Ev; [|cbn [rbind app]; eauto].
        destruct v; try (apply (Q _ eq_refl); discriminate). cbn [rbind app]. eauto. }
      exact (G _ _ E1 (fun f t H => H)). }
    match goal with |- context [rbind ?m _] => assert (T4 : exists ns, m = Ok ns) end.
    { apply mapM_total. intros o Ho. destruct (T3 o Ho) as (m & E & _). eauto. }
    destruct T4 as [ns E4]. rewrite E4. cbn [rbind]. eexists. split; [reflexivity|]. cbn [xl_nodes]. intros m Hm. apply mapM_Forall2 in E4.
    assert (X : exists o, In o (layer_iter h l) /\ (match o with Some n => node_values float_str h1 encs n | None => Err TypeError end) = Ok m).
    { clear - E4 Hm. induction E4 as [|o y a b R F IH]; [contradiction|]. destruct Hm as [->|Hm]; [exists o; split; [left; reflexivity|assumption]|]. destruct (IH Hm) as (o' & I & R'). exists o'. split; [right|]; assumption. }
    destruct X as (o & Ho & Eo). destruct (T3 o Ho) as (m' & Em & es & Ees). assert (m' = m) by congruence. subst m'. eauto. }
  assert (T5 : exists ls, mapM (xml_layer float_str h1 offsets) (d_layers d) = Ok ls) by (apply mapM_total; intros kl Hkl; destruct (L kl Hkl) as (xl & E & _); eauto).
  destruct T5 as [ls E5]. rewrite E5. cbn [rbind]. apply mapM_Forall2 in E5.
  assert (T6 : forall pre, exists lt, mapM (layer_tree h1 false pre) ls = Ok lt).
  { intros pre. apply mapM_total. intros xl Hxl. assert (X : exists kl, In kl (d_layers d) /\ xml_layer float_str h1 offsets kl = Ok xl).
    { clear - E5 Hxl. induction E5 as [|o y a b R F IH]; [contradiction|]. destruct Hxl as [->|Hm]; [exists o; split; [left; reflexivity|assumption]|]. destruct (IH Hm) as (o' & I & R'). exists o'. split; [right|]; assumption. }
    destruct X as (kl & Hkl & Ekl). destruct (L kl Hkl) as (xl' & E & Hes). assert (xl' = xl) by congruence. subst xl'. unfold layer_tree.
    destruct (nodes_tree_total h1 pre (xl_name xl) (xl_nodes xl) 0 Hes) as [q ->]. cbn [rbind]. eauto. }
  rewrite Ep. cbn [props_tree]. destruct id as [|c id]; cbn [rbind]; [destruct (T6 []) as [lt ->]|destruct (T6 ((c :: id) ++ s ".")) as [lt ->]]; cbn [rbind]; eauto.
Qed.
Theorem tree_keeps h d verbose vns id ex tv h1 r : wf h -> known h d -> encode_tree float_str obj_str val_str h d verbose vns id ex tv = (h1, r) -> wf h1 /\ looks_same h h1.
Proof.
  intros W K. unfold encode_tree, encode_intermediate. destruct (compile h d ex tv) as [h2 o] eqn:Ec. destruct (compile_keeps h d ex tv h2 _ W K Ec) as (W1 & S & _).
  intros H. assert (h2 = h1); [|subst; auto]. destruct o as [offsets|e]; [|congruence].
  match type of H with context [rbind ?m ?g] => destruct (rbind m g) as [[ts ls]|e] end; [|congruence]. destruct id; congruence.
Qed.
End Main.
