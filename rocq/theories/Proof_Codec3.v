(** Encoding a valid document succeeds. *)
From Verif Require Import PyBase PyBaseFacts Model_Text Model_Heap Model_Layer Model_Types Model_Msgpack Model_Document Model_Codec
  Spec_Layer Spec_Types Spec_Msgpack Spec_Document Spec_Codec Proof_Heap Proof_Layer Proof_Layer2 Proof_Layer3 Proof_History Proof_Layer4 Proof_Types
  Proof_Text Proof_Msgpack Proof_Document Proof_Layout Proof_Codec Proof_Codec2.
Local Open Scope Z_scope.
Local Arguments s : simpl never.

(** ** checks *)
Lemma field_refs_total fs : (forall f t, In (f, t) fs -> option_ok t) -> exists a b, field_refs fs = Ok (a, b) /\
  (forall x, In x a -> exists f t, In (f, t) fs /\ targets_layer t x) /\ (forall x, In x b -> exists f t, In (f, t) fs /\ targets_text t x).
Proof.
  induction fs as [|[f t] fs IH]; intros O; cbn [field_refs].
  - exists [], []. split; [reflexivity|]. split; intros x [].
  - destruct IH as (a & b & Eab & Ha & Hb); [intros; eapply O; right; eassumption|]. destruct (O f t (or_introl eq_refl)) as [O1 O2].
    assert (Htl : forall x, (exists g u, In (g, u) fs /\ targets_layer u x) -> exists g u, In (g, u) ((f, t) :: fs) /\ targets_layer u x) by (intros x (g & u & H1 & H2); exists g, u; simpl; auto).
    assert (Htt : forall x, (exists g u, In (g, u) fs /\ targets_text u x) -> exists g u, In (g, u) ((f, t) :: fs) /\ targets_text u x) by (intros x (g & u & H1 & H2); exists g, u; simpl; auto).
    destruct (dt_name t) eqn:En; rewrite Eab;
    try (exists a, b; cbn [rbind app]; split; [reflexivity|]; split; auto; fail).
    + destruct O1 as [y Hy]; [simpl; auto|]. rewrite (proj2 (opt_name_ok t (s "layer") y) Hy). cbn [rbind]. exists ([y] ++ a), b. split; [reflexivity|]. split; [|auto].
      intros x [<-|Hx]; [exists f, t; split; [left; reflexivity|]; split; [rewrite En; simpl; auto|assumption]|auto].
    + destruct O1 as [y Hy]; [simpl; auto|]. rewrite (proj2 (opt_name_ok t (s "layer") y) Hy). cbn [rbind]. exists ([y] ++ a), b. split; [reflexivity|]. split; [|auto].
      intros x [<-|Hx]; [exists f, t; split; [left; reflexivity|]; split; [rewrite En; simpl; auto|assumption]|auto].
    + destruct O2 as [y Hy]; [reflexivity|]. rewrite (proj2 (opt_name_ok t (s "context") y) Hy). cbn [rbind]. exists a, ([y] ++ b). split; [reflexivity|]. split; [auto|].
      intros x [<-|Hx]; [exists f, t; split; [left; reflexivity|]; split; assumption|auto].
    + destruct O1 as [y Hy]; [simpl; auto|]. rewrite (proj2 (opt_name_ok t (s "layer") y) Hy). cbn [rbind]. exists ([y] ++ a), b. split; [reflexivity|]. split; [|auto].
      intros x [<-|Hx]; [exists f, t; split; [left; reflexivity|]; split; [rewrite En; simpl; auto|assumption]|auto].
Qed.
Lemma layer_refs_total h ls : (forall k l f t, In (k, l) ls -> In (f, t) (l_fields (h_layer h l)) -> option_ok t) -> exists a b, layer_refs h ls = Ok (a, b) /\
  (forall x, In x a -> exists k l f t, In (k, l) ls /\ In (f, t) (l_fields (h_layer h l)) /\ targets_layer t x) /\
  (forall x, In x b -> exists k l f t, In (k, l) ls /\ In (f, t) (l_fields (h_layer h l)) /\ targets_text t x).
Proof.
  induction ls as [|[k l] ls IH]; intros O; cbn [layer_refs].
  - exists [], []. split; [reflexivity|]. split; intros x [].
  - destruct IH as (a & b & -> & Ha & Hb); [intros; eapply O; [right|]; eassumption|].
    destruct (field_refs_total (l_fields (h_layer h l))) as (a' & b' & -> & Ha' & Hb'); [intros; eapply O; [left; reflexivity|eassumption]|].
    cbn [rbind]. exists (a' ++ a), (b' ++ b). split; [reflexivity|]. split; intros x Hx; apply in_app_iff in Hx; destruct Hx as [Hx|Hx].
    + destruct (Ha' x Hx) as (f & t & H1 & H2). exists k, l, f, t. simpl. auto.
    + destruct (Ha x Hx) as (k' & l' & f & t & H1 & H2 & H3). exists k', l', f, t. simpl. auto.
    + destruct (Hb' x Hx) as (f & t & H1 & H2). exists k, l, f, t. simpl. auto.
    + destruct (Hb x Hx) as (k' & l' & f & t & H1 & H2 & H3). exists k', l', f, t. simpl. auto.
Qed.
Lemma check_refs_total h d : (forall k f t, declared h d k f t -> option_ok t) ->
  (forall k f t x, declared h d k f t -> targets_layer t x -> In x (dkeys (d_layers d))) ->
  (forall k f t x, declared h d k f t -> targets_text t x -> In x (dkeys (d_texts d))) -> check_refs h d = Ok tt.
Proof.
  intros O TL TT. unfold check_refs. destruct (layer_refs_total h (d_layers d)) as (a & b & -> & Ha & Hb); [intros; eapply O; eexists; eauto|]. cbn [rbind].
  assert (Ea : forallb (fun x => dmem (d_layers d) x) a = true).
  { apply forallb_forall. intros x Hx. destruct (Ha x Hx) as (k & l & f & t & H1 & H2 & H3). apply dmem_In. eapply TL; [exists l; eauto|eassumption]. }
  assert (Eb : forallb (fun x => dmem (d_texts d) x) b = true).
  { apply forallb_forall. intros x Hx. destruct (Hb x Hx) as (k & l & f & t & H1 & H2 & H3). apply dmem_In. eapply TT; [exists l; eauto|eassumption]. }
  rewrite Ea, Eb. reflexivity.
Qed.

Section Valid.
Variables (h : heap) (d : doc).
Hypothesis V : doc_valid h d.
Let D : doc_ok h d := dv_ok h d V.

Lemma doc_value k l n f t v : doc_node h d k l n -> dget (l_fields (h_layer h l)) f = Some t -> dget (n_fieldsof h n) f = Some v -> value_ok h d t v.
Proof. intros Hn Ht Hv. eapply (do_values h d D); eassumption. Qed.
Lemma at_member l p n : at_pos h l p n -> n_collof h n = Some l.
Proof.
  intros Hp. unfold at_pos in Hp. rewrite (iter_wf _ _ (do_wf h d D)) in Hp. rewrite nth_error_map in Hp. destruct (nth_error (content h l) p) as [m|] eqn:E; [|discriminate].
  injection Hp as ->. apply layer_ok_member; [apply (wf_layers h (do_wf h d D))|eapply nth_error_In; eassumption].
Qed.
Lemma value_joined t a b : value_ok h d t (VNodeSpan a b) -> n_collof h a = n_collof h b.
Proof. intros H. inversion H; subst; match goal with J : own_span _ _ _ _ _ |- _ => destruct J as (l & p & q & _ & Pa & Pb & _) end; rewrite (at_member l p a), (at_member l q b); auto. Qed.
Lemma check_nodes_total h' k l : wf h' -> looks_same h h' -> In (k, l) (d_layers d) -> check_nodes h' l (layer_iter h' l) = Ok tt.
Proof.
  intros W' S Hin. assert (H : forall n, In (Some n) (layer_iter h' l) -> doc_node h d k l n) by (intros n Hn; split; [assumption|rewrite <- (same_iter _ _ S); assumption]).
  assert (Hs : forall x, In x (layer_iter h' l) -> exists n, x = Some n).
  { intros x Hx. rewrite (iter_wf _ _ W') in Hx. apply in_map_iff in Hx. destruct Hx as (n & <- & _). eauto. }
  induction (layer_iter h' l) as [|x ns IH]; [reflexivity|]. destruct (Hs x (or_introl eq_refl)) as [n ->]. cbn [check_nodes].
  pose proof (H n (or_introl eq_refl)) as Hn. pose proof Hn as [_ Hn']. apply In_nth_error in Hn'. destruct Hn' as [p Hp].
  assert (Hc : n_collof h' n = Some l) by (rewrite (same_coll _ _ S); eapply at_member; exact Hp).
  assert (Sch : schema_ok h' l) by (intros f t Hf; rewrite (same_schema _ _ S) in Hf; eapply (dv_schema h d V); eassumption).
  destruct (validate_spec h' l n W' Hc Sch) as [[_ Vs] _]. rewrite Vs.
  2: { intros f t v Hf Hv. rewrite (same_schema _ _ S) in Hf. rewrite (same_fields _ _ S) in Hv. apply (same_accepts h h'); auto; [apply (do_wf h d D)| |].
       - intros a b ->. eapply value_joined. eapply doc_value; eassumption.
       - eapply (dv_accepts h d V); eassumption. }
  cbn [rbind]. assert (E : forallb (fun kv => dmem (l_fields (h_layer h' l)) (fst kv)) (n_fieldsof h' n) = true).
  { apply forallb_forall. intros [f v] Hf. cbn [fst]. rewrite (same_fields _ _ S) in Hf. rewrite (same_schema _ _ S). apply dmem_In. eapply (dv_declared h d V); eassumption. }
  rewrite E. apply IH; intros y Hy; [apply H|apply Hs]; right; assumption.
Qed.
Lemma field_offsets_total k l f t ns : In (k, l) (d_layers d) -> dget (l_fields (h_layer h l)) f = Some t -> dt_name t = TSpan ->
  (forall x, In x ns -> exists n, x = Some n /\ doc_node h d k l n) -> exists q, field_offsets h f ns = Ok q.
Proof.
  intros Hin Hf Ht. induction ns as [|x ns IH]; intros H; cbn [field_offsets]; [eauto|]. destruct (H x (or_introl eq_refl)) as (n & -> & Hn).
  destruct IH as [q Eq]; [intros y Hy; apply H; right; assumption|]. destruct (dget (n_fieldsof h n) f) as [v|] eqn:Ev; [|eauto].
  pose proof (doc_value k l n f t v Hn Hf Ev) as Vo. inversion Vo; subst; try congruence; try (match goal with J : In (dt_name t) _ |- _ => rewrite Ht in J; simpl in J; intuition discriminate end).
  rewrite Eq. cbn [rbind]. eauto.
Qed.
Lemma iter_nodes k l x : In (k, l) (d_layers d) -> In x (layer_iter h l) -> exists n, x = Some n /\ doc_node h d k l n.
Proof.
  intros Hin Hx. pose proof Hx as Hx'. rewrite (iter_wf _ _ (do_wf h d D)) in Hx'. apply in_map_iff in Hx'. destruct Hx' as (n & <- & _). exists n. split; [reflexivity|]. split; assumption.
Qed.
Lemma collect_fields_total k l fs : In (k, l) (d_layers d) -> (forall f t, In (f, t) fs -> dget (l_fields (h_layer h l)) f = Some t) ->
  forall acc, (forall c, In c (dkeys (d_texts d)) -> In c (dkeys acc)) -> exists r, collect_fields h (layer_iter h l) fs acc = Ok r.
Proof.
  intros Hin. induction fs as [|[f t] fs IH]; intros Hfs acc Ha; cbn [collect_fields]; [eauto|].
  destruct (dt_name t) eqn:En; try (apply IH; [intros; apply Hfs; right; assumption|assumption]).
  pose proof (Hfs f t (or_introl eq_refl)) as Hf. assert (Dc : declared h d k f t) by (exists l; split; [assumption|apply dget_In; assumption]).
  destruct (do_types h d D k f t Dc) as (_ & _ & (_ & O2) & _). destruct (O2 En) as [c Hc]. rewrite (proj2 (opt_name_ok t (s "context") c) Hc). cbn [rbind].
  assert (Hcin : In c (dkeys acc)) by (apply Ha; eapply (dv_text_targets h d V); [exact Dc|split; assumption]).
  apply dmem_In in Hcin. unfold dmem in Hcin. unfold dgetE. destruct (dget acc c) as [old|] eqn:Eo; [|discriminate]. cbn [rbind].
  destruct (field_offsets_total k l f t (layer_iter h l) Hin Hf En (fun x => iter_nodes k l x Hin)) as [q ->]. cbn [rbind].
  apply IH; [intros; apply Hfs; right; assumption|]. intros x Hx. rewrite (dkeys_dset_mem acc c _ old Eo). apply Ha. assumption.
Qed.
Lemma collect_layers_total ls : (forall k l, In (k, l) ls -> In (k, l) (d_layers d)) ->
  forall acc, (forall c, In c (dkeys (d_texts d)) -> In c (dkeys acc)) -> exists r, collect_layers h ls acc = Ok r /\ forall c, In c (dkeys (d_texts d)) -> In c (dkeys r).
Proof.
  induction ls as [|[k l] ls IH]; intros Hl acc Ha; cbn [collect_layers]; [eauto|].
  destruct (collect_fields_total k l (l_fields (h_layer h l)) (Hl k l (or_introl eq_refl))) with (acc := acc) as [r Er]; [intros f t Hf; apply dget_nodup; [apply (wf_schema h (do_wf h d D))|assumption]|assumption|].
  rewrite Er. cbn [rbind]. apply IH; [intros; apply Hl; right; assumption|]. intros c Hc. destruct (collect_fields_spec _ _ _ _ _ Er) as [-> _]. auto.
Qed.
Lemma compile_layers_total check ls : forall h' acc r, wf h' -> looks_same h h' -> h_lnext h' = h_lnext h ->
  (forall k l, In (k, l) ls -> In (k, l) (d_layers d)) -> collect_layers h ls acc = Ok r -> exists h1, compile_layers h' ls check acc = (h1, Ok r).
Proof.
  induction ls as [|[k l] ls IH]; intros h' acc r W' S L Hl Hc; cbn [collect_layers] in Hc; cbn [compile_layers]; [exists h'; congruence|].
  destruct (prepare_same h' l W') as (W1 & S1 & L1); [rewrite L; eapply (do_known h d D); apply (Hl k l); left; reflexivity|].
  pose proof (looks_same_trans _ _ _ S S1) as S2. unfold compile_layer. rewrite (check_nodes_total _ k l W1 S2 (Hl k l (or_introl eq_refl))).
  assert (E : (if check then Ok tt else Ok tt) = Ok tt) by (destruct check; reflexivity). rewrite E. rewrite (same_iter _ _ S2), (same_schema _ _ S2).
  rewrite (collect_fields_same h _ _ _ (same_fields _ _ S2)). destruct (collect_fields h _ _ acc) as [acc'|]; [|discriminate]. cbn [rbind] in Hc.
  apply IH; auto; [congruence|]. intros; apply Hl; right; assumption.
Qed.
Lemma final_offsets_total ts acc : (forall k t, In (k, t) ts -> In k (dkeys acc)) -> exists o, final_offsets ts acc = Ok o.
Proof.
  induction ts as [|[k t] ts IH]; intros H; cbn [final_offsets]; [eauto|]. assert (Hk : In k (dkeys acc)) by (eapply H; left; reflexivity).
  apply dmem_In in Hk. unfold dmem in Hk. unfold dgetE. destruct (dget acc k); [|discriminate]. cbn [rbind]. destruct IH as [o ->]; [intros; eapply H; right; eassumption|]. cbn [rbind]. eauto.
Qed.
Theorem compile_total ex tv : exists h1 o, compile h d ex tv = (h1, Ok o).
Proof.
  unfold compile. rewrite (check_refs_total h d).
  - destruct (collect_layers_total (d_layers d) (fun k l H => H) (map (fun kt => (fst kt, [])) (d_texts d))) as (r & Er & Kr).
    { intros c Hc. unfold dkeys. rewrite map_map. exact Hc. }
    destruct (compile_layers_total (tv && negb ex) (d_layers d) h (map (fun kt => (fst kt, [])) (d_texts d)) r (do_wf h d D)) as [h1 ->]; auto; [split; reflexivity|].
    destruct (final_offsets_total (d_texts d) r) as [o ->]; [|eauto]. intros k t Hk. apply Kr. apply in_map_iff. exists (k, t). auto.
  - intros k f t Hd. apply (do_types h d D k f t Hd).
  - apply (dv_layer_targets h d V).
  - apply (dv_text_targets h d V).
Qed.

(** ** columns *)
Lemma cell_total h1 offs k l n f t : wf h1 -> looks_same h h1 ->
  (forall k l p n, In (k, l) (d_layers d) -> at_pos h1 l p n -> node_i h1 n = Ok (Z.of_nat p)) ->
  doc_node h d k l n -> dget (l_fields (h_layer h l)) f = Some t ->
  (forall tn tx a b, dget (n_fieldsof h n) f = Some (VSpan tn tx a b) -> In a offs /\ In b offs) ->
  exists c, encode_cell h1 offs (dt_name t) (field_value h1 n f) = Ok c.
Proof.
  intros W1 S P Hn Hf Ho. unfold field_value. rewrite (same_fields _ _ S).
  assert (Dc : declared h d k f t) by (exists l; split; [apply Hn|apply dget_In; assumption]).
  destruct (do_types h d D k f t Dc) as (NE & NU & _).
  assert (Own : forall x m, own_node h d x m -> exists i, node_i h1 m = Ok i).
  { intros x m (l' & p & El & Pm). exists (Z.of_nat p). eapply P; [apply dget_In; exact El|]. unfold at_pos. rewrite (same_iter _ _ S). exact Pm. }
  assert (Owns : forall x ms, Forall (own_node h d x) ms -> exists is, mapM (elem_i h1) (map Some ms) = Ok is).
  { intros x ms F. induction F as [|m ms Hm F IH]; cbn [map mapM elem_i]; [eauto|]. destruct (Own x m Hm) as [i ->]. cbn [rbind]. destruct IH as [is ->]. cbn [rbind]. eauto. }
  destruct (dget (n_fieldsof h n) f) as [v|] eqn:Ev.
  2: { destruct (dt_name t); cbn [encode_cell]; try congruence; eauto. }
  destruct (doc_value k l n f t v Hn Hf Ev) as [Hns|i Hi|b Hi|b Ht Hb|b Ht|x Ht|x Ht Hb|cx txt a b Ht Hx Ha Hb|x m Ht Hx Hm|x ns Ht Hx Hm|x a b Ht Hx Hm|x a b Ht Hx Hm].
  - destruct (dt_name t); cbn [encode_cell]; try congruence; eauto.
  - simpl in Hi. destruct Hi as [Hi|[Hi|[]]]; rewrite <- Hi; cbn [encode_cell]; eauto.
  - simpl in Hi. destruct Hi as [Hi|[Hi|[]]]; rewrite <- Hi; cbn [encode_cell]; eauto.
  - rewrite Ht. cbn [encode_cell]. eauto.
  - rewrite Ht. cbn [encode_cell]. eauto.
  - rewrite Ht. cbn [encode_cell]. eauto.
  - rewrite Ht. cbn [encode_cell]. eauto.
  - destruct Ht as [-> _]. cbn [encode_cell]. destruct (Ho _ _ _ _ eq_refl) as [Ia Ib]. destruct (offset_id_nth offs a Ia) as (ia & -> & _). destruct (offset_id_nth offs b Ib) as (ib & -> & _). eauto.
  - rewrite Ht. cbn [encode_cell]. destruct (Own x m Hm) as [i ->]. cbn [rbind]. eauto.
  - rewrite Ht. cbn [encode_cell value_elems rbind]. destruct ns as [|m ns]; [eexists; reflexivity|]. destruct (Owns x (m :: ns) Hm) as [is Eis]. cbn [map] in *. rewrite Eis. cbn [rbind]. eauto.
  - rewrite Ht. cbn [encode_cell value_elems]. destruct (own_span_iter h d (do_wf h d D) x a b Hm) as (ns & En & _ & Fo).
    rewrite (same_nodespan h h1 a b ns (do_wf h d D) W1 S En). cbn [rbind]. destruct (Owns x ns Fo) as [is Eis]. destruct ns as [|m ns]; cbn [map] in *; [eauto|]. rewrite Eis. cbn [rbind]. eauto.
  - destruct Hm as (l' & p & q & El & Pa & Pb & _). destruct (Own x a) as [ia Ea]; [exists l', p; auto|]. destruct (Own x b) as [ib Eb]; [exists l', q; auto|].
    rewrite Ht. cbn [encode_cell value_left value_right rbind elem_i]. rewrite Ea, Eb. cbn [rbind]. eauto.
Qed.
Lemma mapM_total {A B} (g : A -> res B) l : (forall x, In x l -> exists y, g x = Ok y) -> exists r, mapM g l = Ok r.
Proof.
  induction l as [|x l IH]; intros H; cbn [mapM]; [eauto|]. destruct (H x (or_introl eq_refl)) as [y ->]. cbn [rbind]. destruct IH as [r ->]; [intros; apply H; right; assumption|]. cbn [rbind]. eauto.
Qed.
Theorem encode_total ex tv : exists h1 ed, codec_encode h d ex tv = (h1, Ok ed).
Proof.
  destruct (compile_total ex tv) as (h1 & o & Ec). unfold codec_encode. rewrite Ec. exists h1.
  destruct (compile_keeps h d ex tv h1 _ (do_wf h d D) (do_known h d D) Ec) as (W1 & S & P).
  destruct (compile_offsets h d ex tv h1 o (do_wf h d D) (do_known h d D) Ec) as [Ko Ho].
  assert (E1 : exists ts, mapM (fun kt => let* o := dgetE o (fst kt) in Ok (fst kt, text_compile (snd kt) o)) (d_texts d) = Ok ts).
  { apply mapM_total. intros [k t] Hin. cbn [fst snd]. pose proof (dget_nodup (d_texts d) k t (do_texts h d D) Hin) as Ek. destruct (Ho k t Ek) as (q & Eq & _). unfold dgetE. rewrite Eq. cbn [rbind]. eauto. }
  destruct E1 as [ts ->]. cbn [rbind].
  assert (E2 : exists els, mapM (encode_layer h1 o) (d_layers d) = Ok els).
  { apply mapM_total. intros [k l] Hin. unfold encode_layer. cbn [fst snd].
    match goal with |- exists y, rbind ?m _ = _ => assert (Em : exists r, m = Ok r) end.
    { apply mapM_total. intros [f t] Hf. cbn [fst snd]. rewrite (same_schema _ _ S) in Hf. unfold encode_field.
      assert (Dc : declared h d k f t) by (exists l; auto). destruct (do_types h d D k f t Dc) as (NE & NU & (O1 & O2) & ND & Ov).
      assert (Hft : dget (l_fields (h_layer h l)) f = Some t) by (apply dget_nodup; [apply (wf_schema h (do_wf h d D))|assumption]).
      assert (Et : exists ts, type_string (dt_name t) = Ok ts) by (destruct (dt_name t); try congruence; eexists; reflexivity). destruct Et as [tstr ->]. cbn [rbind].
      match goal with |- exists y, rbind ?m _ = _ => assert (Ea : exists r, m = Ok r) end.
      { destruct (dt_opts t) as [|x r] eqn:Eo; [eauto|]. destruct (dict_objs_ok (x :: r) Ov) as [a ->]. cbn [rbind]. eauto. }
      destruct Ea as [args ->]. cbn [rbind].
      assert (Eo : exists offs, match dt_name t with TSpan => let* c := opt_name t (s "context") in dgetE o c | TExt => Err KeyError | _ => Ok [] end = Ok offs /\ uses_offsets o t offs).
      { destruct (dt_name t) eqn:En; try congruence; try (exists []; split; [reflexivity|]; intros c [Hc _]; congruence).
        destruct (O2 eq_refl) as [c Hc]. rewrite (proj2 (opt_name_ok t (s "context") c) Hc). cbn [rbind].
        assert (Hin' : In c (dkeys o)) by (rewrite Ko; eapply (dv_text_targets h d V); [exact Dc|split; assumption]). apply dmem_In in Hin'. unfold dmem in Hin'. unfold dgetE.
        destruct (dget o c) as [offs|] eqn:Eoc; [|discriminate]. exists offs. split; [reflexivity|]. intros c' [_ Hc']. assert (c' = c) by congruence. subst c'. assumption. }
      destruct Eo as (offs & -> & Uo). cbn [rbind].
      assert (Ecol : forall ns, (forall x, In x ns -> exists n, x = Some n /\ doc_node h d k l n) -> exists col, encode_column h1 offs (dt_name t) f ns = Ok col).
      { induction ns as [|x ns IH]; intros Hx; cbn [encode_column]; [eauto|]. destruct (Hx x (or_introl eq_refl)) as (n & -> & Hn). fold (field_value h1 n f).
        destruct (cell_total h1 offs k l n f t W1 S (fun k l p n => P _ k l p n eq_refl) Hn Hft) as [c ->].
        - intros tn tx a b Hv. pose proof (doc_value k l n f t _ Hn Hft Hv) as Vo. inversion Vo as [| | | | | | |? ? ? ? Tt Tx| | | |]; subst.
          destruct (Ho tn tx Tx) as (q & Eq & Hq). rewrite (Uo tn Tt) in Eq. injection Eq as ->.
          split; apply sorted_offsets_In; right; right; apply Hq; exists k, l; (split; [assumption|]); exists n, f, t, tn, tx, a, b; repeat split; auto; try apply Hn; apply Tt.
        - cbn [rbind]. destruct IH as [col ->]; [intros; apply Hx; right; assumption|]. cbn [rbind]. eauto. }
      destruct (Ecol (layer_iter h1 l)) as [col ->]; [rewrite (same_iter _ _ S); intros x; apply iter_nodes; assumption|]. cbn [rbind]. eauto. }
    destruct Em as [r ->]. cbn [rbind]. eauto. }
  destruct E2 as [els ->]. cbn [rbind]. eauto.
Qed.
End Valid.
