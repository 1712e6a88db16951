(** The decoded document is valid, and encoding it again gives the same encoding. *)
From Verif Require Import PyBase PyBaseFacts Model_Text Model_Heap Model_Layer Model_Types Model_Msgpack Model_Document Model_Codec
  Spec_Layer Spec_Types Spec_Msgpack Spec_Document Spec_Codec Proof_Heap Proof_Layer Proof_Layer2 Proof_Layer3 Proof_History Proof_Layer4 Proof_Types
  Proof_Text Proof_Msgpack Proof_Document Proof_Layout Proof_Codec Proof_Codec2 Proof_Codec3.
Local Open Scope Z_scope.
Local Arguments s : simpl never.

Lemma at_pos_unique h l p q n : wf h -> at_pos h l p n -> at_pos h l q n -> p = q.
Proof.
  intros W Hp Hq. unfold at_pos in *. rewrite (iter_wf _ _ W) in *. pose proof (layer_ok_NoDup h l (wf_layers h W l)) as ND.
  rewrite nth_error_map in Hp, Hq. destruct (nth_error (content h l) p) as [a|] eqn:Ea; [|discriminate]. destruct (nth_error (content h l) q) as [b|] eqn:Eb; [|discriminate].
  simpl in Hp, Hq. assert (a = b) by congruence. subst b. eapply NoDup_nth_error; [exact ND|apply nth_error_Some; congruence|congruence].
Qed.
Lemma at_pos_len h l p : wf h -> (p < length (layer_iter h l))%nat <-> exists n, at_pos h l p n.
Proof.
  intros W. unfold at_pos. rewrite (iter_wf _ _ W), map_length. split.
  - intros Hp. destruct (nth_error (content h l) p) as [n|] eqn:En; [|apply nth_error_None in En; lia]. exists n. rewrite nth_error_map, En. reflexivity.
  - intros [n Hn]. rewrite nth_error_map in Hn. apply nth_error_Some. intros E. rewrite E in Hn. discriminate.
Qed.
Lemma sorted_same a : forall b, StronglySorted Z.lt a -> StronglySorted Z.lt b -> (forall x, In x a <-> In x b) -> a = b.
Proof.
  induction a as [|x a IH]; intros [|y b] Sa Sb E.
  - reflexivity.
  - exfalso. apply (E y). left. reflexivity.
  - exfalso. apply (E x). left. reflexivity.
  - inversion Sa as [|? ? Sa' Fa]; inversion Sb as [|? ? Sb' Fb]; subst. rewrite Forall_forall in Fa, Fb.
    assert (x = y).
    { assert (Hx : In x (y :: b)) by (apply E; left; reflexivity). assert (Hy : In y (x :: a)) by (apply E; left; reflexivity).
      destruct Hx as [Hx|Hx]; [auto|]. destruct Hy as [Hy|Hy]; [auto|]. apply Fb in Hx. apply Fa in Hy. lia. }
    subst y. f_equal. apply IH; auto. intros z. split; intros Hz.
    + assert (Hz' : In z (x :: b)) by (apply E; right; assumption). destruct Hz' as [->|Hz']; [apply Fa in Hz; lia|assumption].
    + assert (Hz' : In z (x :: a)) by (apply E; right; assumption). destruct Hz' as [->|Hz']; [apply Fb in Hz; lia|assumption].
Qed.
Lemma sorted_offsets_same t a b : (forall x, In x a <-> In x b) -> sorted_offsets t a = sorted_offsets t b.
Proof. intros E. apply sorted_same; try apply sorted_offsets_sorted. intros x. rewrite !sorted_offsets_In, E. reflexivity. Qed.

Section Again.
Variables (h : heap) (d : doc) (h2 : heap) (d' : doc).
Hypothesis D : doc_ok h d.
Hypothesis Sd : same_doc h d h2 d'.
Hypothesis W2 : wf h2.
Hypothesis K2 : known h2 d'.
Hypothesis TL : forall k f t x, declared h d k f t -> targets_layer t x -> In x (dkeys (d_layers d)).
Hypothesis TT : forall k f t x, declared h d k f t -> targets_text t x -> In x (dkeys (d_texts d)).
Let W := do_wf h d D.

Lemma same_keys : dkeys (d_layers d') = dkeys (d_layers d).
Proof. pose proof (sd_layers _ _ _ _ Sd) as F. clear - F. induction F as [|[k l] [k' l'] a b (H & _) F IH]; simpl in *; [reflexivity|congruence]. Qed.
Lemma nodup' : NoDup (dkeys (d_layers d')).
Proof. rewrite same_keys. apply (do_layers h d D). Qed.
Lemma there x l : dget (d_layers d) x = Some l -> exists l', dget (d_layers d') x = Some l' /\ l_nameof h2 l' = x /\ same_layer h d h2 d' l l'.
Proof.
  intros H. destruct (dget_Forall2 (fun k v w => l_nameof h2 w = k /\ same_layer h d h2 d' v w) (d_layers d) (d_layers d') (sd_layers _ _ _ _ Sd) x l H) as (l' & E & A & B).
  exists l'. auto.
Qed.
Lemma back x l' : dget (d_layers d') x = Some l' -> exists l, dget (d_layers d) x = Some l /\ l_nameof h2 l' = x /\ same_layer h d h2 d' l l'.
Proof.
  intros H. assert (Hin : In x (dkeys (d_layers d))) by (rewrite <- same_keys; apply dmem_In; unfold dmem; rewrite H; reflexivity).
  apply dmem_In in Hin. unfold dmem in Hin. destruct (dget (d_layers d) x) as [l|] eqn:E; [|discriminate]. destruct (there x l E) as (l2 & E2 & A & B).
  assert (l2 = l') by congruence. subst l2. eauto.
Qed.
Lemma back_In k l' : In (k, l') (d_layers d') -> exists l, In (k, l) (d_layers d) /\ dget (d_layers d) k = Some l /\ dget (d_layers d') k = Some l' /\ l_nameof h2 l' = k /\ same_layer h d h2 d' l l'.
Proof.
  intros H. pose proof (dget_nodup _ _ _ nodup' H) as E. destruct (back k l' E) as (l & E1 & A & B). exists l. split; [apply dget_In; assumption|auto].
Qed.
Lemma pos_back l l' p n' : same_layer h d h2 d' l l' -> at_pos h2 l' p n' -> exists n, at_pos h l p n.
Proof. intros S H. apply (at_pos_len h l p W). rewrite <- (sl_len _ _ _ _ _ _ S). apply (at_pos_len h2 l' p W2). eauto. Qed.
Lemma pos_there l l' p n : same_layer h d h2 d' l l' -> at_pos h l p n -> exists n', at_pos h2 l' p n'.
Proof. intros S H. apply (at_pos_len h2 l' p W2). rewrite (sl_len _ _ _ _ _ _ S). apply (at_pos_len h l p W). eauto. Qed.
Lemma same_own x n n' : same_node h d h2 d' x n n' -> own_node h2 d' x n'.
Proof. intros (l & l' & p & H1 & H2 & H3 & H4). exists l', p. auto. Qed.
Lemma fields_there l l' f t' : same_layer h d h2 d' l l' -> dget (l_fields (h_layer h2 l')) f = Some t' -> exists t, dget (l_fields (h_layer h l)) f = Some t /\ t' = base_type t.
Proof. intros S H. rewrite (sl_fields _ _ _ _ _ _ S) in H. change (dget (based (l_fields (h_layer h l))) f = Some t') in H. rewrite dget_based in H. destruct (dget (l_fields (h_layer h l)) f) as [t|]; [|discriminate]. injection H as <-. eauto. Qed.
Lemma declared_there k f t' : declared h2 d' k f t' -> exists t, declared h d k f t /\ t' = base_type t.
Proof.
  intros (l' & Hin & Hf). destruct (back_In k l' Hin) as (l & Hl & _ & _ & _ & S). rewrite (sl_fields _ _ _ _ _ _ S) in Hf. apply in_map_iff in Hf.
  destruct Hf as ([f0 t] & [= <- <-] & Hf). exists t. split; [|reflexivity]. exists l. auto.
Qed.

(** one value *)
Lemma value_again t v v' k l n f : doc_node h d k l n -> dget (l_fields (h_layer h l)) f = Some t -> dget (n_fieldsof h n) f = v ->
  same_value h (same_node h d h2 d') t v (Some v') -> value_ok h2 d' (base_type t) v'.
Proof.
  intros Hn Hf Hv Sv. assert (Vo : forall w, v = Some w -> value_ok h d t w) by (intros w ->; eapply (do_values h d D); eassumption).
  inversion Sv; subst; try (constructor; assumption).
  - constructor; [assumption|]. match goal with E : Some _ = dget _ _ |- _ => specialize (Vo _ (eq_sym E)) end. inversion Vo; subst. assumption.
  - constructor; [assumption|]. match goal with E : Some _ = dget _ _ |- _ => specialize (Vo _ (eq_sym E)) end. inversion Vo; subst. assumption.
  - match goal with E : Some _ = dget _ _ |- _ => specialize (Vo _ (eq_sym E)) end. inversion Vo as [| | | | | | |? ? ? ? Tt Tx Ha Hb| | | |]; subst. constructor; auto. rewrite (sd_texts _ _ _ _ Sd). assumption.
  - econstructor; [assumption|eassumption|]. eapply same_own; eassumption.
  - econstructor; [assumption|eassumption|]. match goal with F : Forall2 _ _ _ |- _ => clear - F; induction F; constructor; auto; eapply same_own; eassumption end.
  - econstructor; [assumption|eassumption|]. match goal with F : Forall2 _ _ _ |- _ => clear - F; induction F; constructor; auto; eapply same_own; eassumption end.
  - match goal with E : Some _ = dget _ _ |- _ => specialize (Vo _ (eq_sym E)) end.
    match goal with Ha : same_node _ _ _ _ _ a a', Hb : same_node _ _ _ _ _ b b' |- _ => destruct Ha as (la & la' & pa & A1 & A2 & A3 & A4); destruct Hb as (lb & lb' & pb & B1 & B2 & B3 & B4) end.
    econstructor; [assumption|eassumption|]. assert (lb = la) by congruence. subst lb. assert (lb' = la') by congruence. subst lb'. exists la', pa, pb. repeat split; auto.
    inversion Vo as [| | | | | | | | | |? ? ? Hm|y ? ? Hm Ht (l0 & p & q & E0 & P & Q & Hpq)]; subst; [congruence|].
    assert (y = x) by (match goal with T1 : targets_layer t x |- _ => destruct T1 as [_ T1]; destruct Ht as [_ Ht]; congruence end). subst y.
    assert (l0 = la) by congruence. subst l0. rewrite (at_pos_unique h la pa p a W A3 P), (at_pos_unique h la pb q b W B3 Q). assumption.
Qed.
Theorem again_valid : doc_valid h2 d'.
Proof.
  assert (Dn : forall k l' n', doc_node h2 d' k l' n' -> exists l p n, doc_node h d k l n /\ same_layer h d h2 d' l l' /\ at_pos h l p n /\ at_pos h2 l' p n').
  { intros k l' n' [Hin Hn]. destruct (back_In k l' Hin) as (l & Hl & _ & _ & _ & S). apply In_nth_error in Hn. destruct Hn as [p Hp]. destruct (pos_back l l' p n' S Hp) as [n Hn].
    exists l, p, n. split; [split; [assumption|eapply nth_error_In; exact Hn]|]. auto. }
  split.
  - split; auto.
    + rewrite (sd_texts _ _ _ _ Sd). apply (do_texts h d D).
    + apply nodup'.
    + rewrite (sd_props _ _ _ _ Sd). apply (do_props h d D).
    + intros k f t' Hd. destruct (declared_there k f t' Hd) as (t & Hdt & ->). exact (do_types h d D k f t Hdt).
    + intros k l' n' f v t' Hdn Hv Ht. destruct (Dn k l' n' Hdn) as (l & p & n & Hn & S & Hp & Hp'). destruct (fields_there l l' f t' S Ht) as (t & Htt & ->).
      eapply value_again; [exact Hn|exact Htt|reflexivity|]. rewrite <- Hv. eapply (sl_values _ _ _ _ _ _ S); eassumption.
  - intros k l' Hin. destruct (back_In k l' Hin) as (l & _ & _ & _ & E & _). assumption.
  - intros k l' Hin f t' Hf. destruct (back_In k l' Hin) as (l & _ & _ & _ & _ & S). destruct (fields_there l l' f t' S Hf) as (t & _ & ->). exists []. exact I.
  - intros k f t' x Hd Hx. destruct (declared_there k f t' Hd) as (t & Hdt & ->). rewrite same_keys. eapply TL; eassumption.
  - intros k f t' x Hd Hx. destruct (declared_there k f t' Hd) as (t & Hdt & ->). rewrite (sd_texts _ _ _ _ Sd). eapply TT; eassumption.
  - intros k l' n' f v Hdn Hf. destruct (Dn k l' n' Hdn) as (l & p & n & Hn & S & Hp & Hp'). rewrite (sl_fields _ _ _ _ _ _ S). change (In f (dkeys (based (l_fields (h_layer h l))))).
    rewrite dkeys_based. eapply (sl_keys _ _ _ _ _ _ S); [exact Hp'|]. apply in_map_iff. exists (f, v). auto.
  - intros k l' n' Hdn f t' v Ht Hv. destruct (Dn k l' n' Hdn) as (l & p & n & Hn & S & Hp & Hp'). destruct (fields_there l l' f t' S Ht) as (t & _ & ->). exists []. split; [exact I|constructor].
Qed.

(** the same offsets *)
Lemma offsets_again c x : doc_offset h d c x <-> doc_offset h2 d' c x.
Proof.
  split.
  - intros (k & l & Hin & n & f & t & tn & tx & a & b & Hn & Hf & Ht & Hv & Hx). pose proof (dget_nodup _ _ _ (do_layers h d D) Hin) as El. destruct (there k l El) as (l' & El' & _ & S).
    apply In_nth_error in Hn. destruct Hn as [p Hp]. destruct (pos_there l l' p n S Hp) as [n' Hp'].
    pose proof (dget_nodup _ _ _ (wf_schema h W l) Hf) as Hft. pose proof (sl_values _ _ _ _ _ _ S p n n' f t Hp Hp' Hft) as Sv. rewrite Hv in Sv.
    exists k, l'. split; [apply dget_In; assumption|]. exists n', f, (base_type t), tn, tx, a, b. split; [eapply nth_error_In; exact Hp'|].
    split; [rewrite (sl_fields _ _ _ _ _ _ S); apply in_map_iff; exists (f, t); auto|]. split; [exact Ht|]. split; [|assumption]. inversion Sv; subst. auto.
  - intros (k & l' & Hin & n' & f & t' & tn & tx & a & b & Hn & Hf & Ht & Hv & Hx). destruct (back_In k l' Hin) as (l & Hl & El & El' & _ & S).
    apply In_nth_error in Hn. destruct Hn as [p Hp']. destruct (pos_back l l' p n' S Hp') as [n Hp]. pose proof (dget_nodup _ _ _ (wf_schema h2 W2 l') Hf) as Hft.
    destruct (fields_there l l' f t' S Hft) as (t & Htt & ->). pose proof (sl_values _ _ _ _ _ _ S p n n' f t Hp Hp' Htt) as Sv. rewrite Hv in Sv.
    exists k, l. split; [assumption|]. exists n, f, t, tn, tx, a, b. split; [eapply nth_error_In; exact Hp|]. split; [apply dget_In; assumption|]. split; [exact Ht|]. split; [|assumption].
    inversion Sv; subst; auto.
Qed.

(** the same cells *)
Variables (h1 h3 : heap).
Hypothesis W1 : wf h1.
Hypothesis W3 : wf h3.
Hypothesis S1 : looks_same h h1.
Hypothesis S3 : looks_same h2 h3.
Hypothesis P1 : forall k l p n, In (k, l) (d_layers d) -> at_pos h1 l p n -> node_i h1 n = Ok (Z.of_nat p).
Hypothesis P3 : forall k l p n, In (k, l) (d_layers d') -> at_pos h3 l p n -> node_i h3 n = Ok (Z.of_nat p).
Lemma node_i_again x n n' : same_node h d h2 d' x n n' -> node_i h3 n' = node_i h1 n.
Proof.
  intros (l & l' & p & E1 & E2 & A & B). rewrite (P1 x l p n), (P3 x l' p n'); auto; try (apply dget_In; assumption); unfold at_pos in *; [rewrite (same_iter _ _ S3)|rewrite (same_iter _ _ S1)]; assumption.
Qed.
Lemma elems_again x ns ns' : Forall2 (same_node h d h2 d' x) ns ns' -> mapM (elem_i h3) (map Some ns') = mapM (elem_i h1) (map Some ns).
Proof. induction 1 as [|n n' ns ns' H F IH]; cbn [map mapM elem_i]; [reflexivity|]. rewrite (node_i_again x n n' H), IH. reflexivity. Qed.
Lemma cell_again offs t ov ov' : dt_name t <> TExt -> dt_name t <> TUnknown -> same_value h (same_node h d h2 d') t ov ov' ->
  encode_cell h3 offs (dt_name t) (match ov' with Some v => v | None => VNone end) = encode_cell h1 offs (dt_name t) (match ov with Some v => v | None => VNone end).
Proof.
  intros NE NU Sv. destruct Sv as [| |i Hi|b Hi|b Hi|b Hi|x Hi|x Hi|c txt a b Hi|x n n' Ht Hx Hr|Ht|x ns ns' Ht Hx Hne F|x a b ns ns' Ht Hx Hi F|x a b a' b' Ht Hx Ha Hb].
  - destruct (dt_name t); reflexivity.
  - destruct (dt_name t); reflexivity.
  - simpl in Hi. destruct Hi as [Hi|[Hi|[]]]; rewrite <- Hi; reflexivity.
  - simpl in Hi. destruct Hi as [Hi|[Hi|[]]]; rewrite <- Hi; reflexivity.
  - rewrite Hi. reflexivity.
  - rewrite Hi. reflexivity.
  - rewrite Hi. reflexivity.
  - rewrite Hi. reflexivity.
  - rewrite Hi. reflexivity.
  - rewrite Ht. cbn [encode_cell]. rewrite (node_i_again x n n' Hr). reflexivity.
  - rewrite Ht. reflexivity.
  - rewrite Ht. cbn [encode_cell value_elems rbind]. pose proof (elems_again x ns ns' F) as E. destruct F as [|n n' ns ns' Hn F]; [congruence|]. cbn [map] in *. rewrite E. reflexivity.
  - rewrite Ht. cbn [encode_cell value_elems rbind]. rewrite (same_nodespan h h1 a b ns W W1 S1 Hi). cbn [rbind]. pose proof (elems_again x ns ns' F) as E.
    destruct F as [|n n' ns ns' Hn F]; [reflexivity|]. cbn [map] in *. rewrite E. reflexivity.
  - rewrite Ht. cbn [encode_cell value_left value_right rbind elem_i]. rewrite (node_i_again x a a' Ha), (node_i_again x b b' Hb). reflexivity.
Qed.
Lemma column_again offs t f ns : forall ns', dt_name t <> TExt -> dt_name t <> TUnknown ->
  Forall2 (fun a b => exists n n', a = Some n /\ b = Some n' /\ same_value h (same_node h d h2 d') t (dget (n_fieldsof h n) f) (dget (n_fieldsof h2 n') f)) ns ns' ->
  encode_column h3 offs (dt_name t) f ns' = encode_column h1 offs (dt_name t) f ns.
Proof.
  intros ns' NE NU F. induction F as [|a b ns ns' (n & n' & -> & -> & Sv) F IH]; cbn [encode_column]; [reflexivity|]. rewrite IH. rewrite (same_fields _ _ S1), (same_fields _ _ S3).
  rewrite (cell_again offs t _ _ NE NU Sv). reflexivity.
Qed.
Lemma field_again o o' k l l' f t : In (k, l) (d_layers d) -> same_layer h d h2 d' l l' -> In (f, t) (l_fields (h_layer h l)) ->
  (forall c, targets_text t c -> dget o' c = dget o c) -> encode_field h3 o' l' f (base_type t) = encode_field h1 o l f t.
Proof.
  intros Hin S Hf Ho. assert (Dc : declared h d k f t) by (exists l; auto). destruct (do_types h d D k f t Dc) as (NE & NU & (_ & O2) & _).
  assert (Hft : dget (l_fields (h_layer h l)) f = Some t) by (apply dget_nodup; [apply (wf_schema h W)|assumption]).
  unfold encode_field, base_type. cbn [dt_name dt_opts]. destruct (type_string (dt_name t)); [|reflexivity]. cbn [rbind].
  match goal with |- rbind ?m _ = rbind ?m _ => destruct m; [|reflexivity] end. cbn [rbind].
  assert (Eo : match dt_name t with TSpan => let* c := opt_name (mkDT KBase (dt_name t) (dt_opts t)) (s "context") in dgetE o' c | TExt => Err KeyError | _ => Ok [] end =
               match dt_name t with TSpan => let* c := opt_name t (s "context") in dgetE o c | TExt => Err KeyError | _ => Ok [] end).
  { destruct (dt_name t) eqn:En; try reflexivity. destruct (O2 eq_refl) as [c Hc].
    rewrite (proj2 (opt_name_ok t (s "context") c) Hc), (proj2 (opt_name_ok (mkDT KBase TSpan (dt_opts t)) (s "context") c) Hc). cbn [rbind]. unfold dgetE. rewrite (Ho c (conj En Hc)). reflexivity. }
  cbv zeta in Eo. rewrite Eo. clear Eo. match goal with |- rbind ?m _ = rbind ?m _ => destruct m; [|reflexivity] end. cbn [rbind].
  rewrite (column_again _ t f (layer_iter h1 l)); auto. rewrite (same_iter _ _ S1), (same_iter _ _ S3). apply Forall2_by_nth; [symmetry; apply (sl_len _ _ _ _ _ _ S)|].
  intros i x y Hx Hy. assert (Hi : exists n, at_pos h l i n) by (apply (at_pos_len h l i W); apply nth_error_Some; congruence). destruct Hi as [n Hn].
  destruct (pos_there l l' i n S Hn) as [n' Hn']. exists n, n'. unfold at_pos in *. split; [congruence|]. split; [congruence|]. eapply (sl_values _ _ _ _ _ _ S); eassumption.
Qed.
End Again.

Theorem encode_again h d ex tv h1 ed h2 d' ex' tv' : doc_ok h d -> codec_encode h d ex tv = (h1, Ok ed) -> same_doc h d h2 d' -> wf h2 -> known h2 d' ->
  exists h3, codec_encode h2 d' ex' tv' = (h3, Ok ed).
Proof.
  intros D E Sd W2 K2.
  assert (TL : forall k f t x, declared h d k f t -> targets_layer t x -> In x (dkeys (d_layers d))) by (intros k f t x Hd; apply (refs_ok h d ex tv h1 ed E k f t Hd)).
  assert (TT : forall k f t x, declared h d k f t -> targets_text t x -> In x (dkeys (d_texts d))) by (intros k f t x Hd; apply (refs_ok h d ex tv h1 ed E k f t Hd)).
  pose proof (again_valid h d h2 d' D Sd W2 K2 TL TT) as V. destruct (encode_total h2 d' V ex' tv') as (h3 & ed' & E'). exists h3. rewrite E'. f_equal. f_equal.
  destruct (codec_encode_inv _ _ _ _ _ _ E) as (o & Ec & Ft & Fl & Ep). destruct (codec_encode_inv _ _ _ _ _ _ E') as (o' & Ec' & Ft' & Fl' & Ep').
  destruct (compile_keeps h d ex tv h1 _ (do_wf h d D) (do_known h d D) Ec) as (W1 & S1 & P1).
  destruct (compile_keeps h2 d' ex' tv' h3 _ W2 K2 Ec') as (W3 & S3 & P3).
  destruct (compile_offsets h d ex tv h1 o (do_wf h d D) (do_known h d D) Ec) as [Ko Ho].
  destruct (compile_offsets h2 d' ex' tv' h3 o' W2 K2 Ec') as [Ko' Ho'].
  assert (Eo : forall c, In c (dkeys (d_texts d)) -> dget o' c = dget o c).
  { intros c Hc. apply dmem_In in Hc. unfold dmem in Hc. destruct (dget (d_texts d) c) as [txt|] eqn:Et; [|discriminate]. destruct (Ho c txt Et) as (q & -> & Hq).
    rewrite <- (sd_texts _ _ _ _ Sd) in Et. destruct (Ho' c txt Et) as (q' & -> & Hq'). f_equal. apply sorted_offsets_same. intros x. rewrite Hq, Hq'.
    rewrite (offsets_again h d h2 d' D Sd W2 c x). reflexivity. }
  destruct ed as [pr ts ls], ed' as [pr' ts' ls']. cbn [ed_props ed_texts ed_layers] in *. f_equal.
  - rewrite Ep, Ep'. apply (sd_props _ _ _ _ Sd).
  - rewrite (sd_texts _ _ _ _ Sd) in Ft'. assert (Hk : forall kt, In kt (d_texts d) -> In (fst kt) (dkeys (d_texts d))) by (intros kt Hin; apply in_map_iff; eauto).
    revert Eo Hk. generalize (dkeys (d_texts d)) as keys. intros keys Eo Hk. clear - Ft Ft' Eo Hk. revert ts' Ft'. induction Ft as [|kt ke a b (E1 & q & E2 & E3) F IH]; intros ts' Ft'; inversion Ft' as [|? ke' ? b' (E1' & q' & E2' & E3') F']; subst; [reflexivity|].
    f_equal; [|apply IH; [intros; apply Hk; right; assumption|assumption]]. destruct ke, ke'. cbn [fst snd] in *. rewrite (Eo (fst kt)) in E2' by (apply Hk; left; reflexivity). congruence.
  - pose proof (sd_layers _ _ _ _ Sd) as Fs.
    assert (G : forall a b, Forall2 (fun kl kl' => fst kl' = fst kl /\ l_nameof h2 (snd kl') = fst kl /\ same_layer h d h2 d' (snd kl) (snd kl')) a b -> (forall kl, In kl a -> In kl (d_layers d)) ->
       forall x y, Forall2 (fun kl el => encode_layer h1 o kl = Ok el) a x -> Forall2 (fun kl el => encode_layer h3 o' kl = Ok el) b y -> y = x).
    { intros a b F. induction F as [|[k l] [k' l'] a b (A1 & A2 & A3) F IH]; intros Hin x y Fx Fy; inversion Fx; inversion Fy; subst; [reflexivity|]. cbn [fst snd] in *.
      f_equal; [|apply IH; auto; intros; apply Hin; right; assumption].
      assert (El : encode_layer h3 o' (k', l') = encode_layer h1 o (k, l)); [|congruence]. subst k'. unfold encode_layer. cbn [fst snd].
      rewrite (same_schema _ _ S1), (same_schema _ _ S3), (sl_fields _ _ _ _ _ _ A3).
      assert (En : l_numof h3 l' = l_numof h1 l).
      { rewrite (ok_num _ _ (wf_layers h3 W3 l')), (ok_num _ _ (wf_layers h1 W1 l)). unfold zlen. f_equal. rewrite <- (map_length Some), <- (iter_wf _ _ W3), <- (map_length Some (content h1 l)), <- (iter_wf _ _ W1).
        rewrite (same_iter _ _ S3), (same_iter _ _ S1). apply (sl_len _ _ _ _ _ _ A3). }
      rewrite En. assert (Em : mapM (fun ft => encode_field h3 o' l' (fst ft) (snd ft)) (map (fun ft => (fst ft, base_type (snd ft))) (l_fields (h_layer h l))) =
        mapM (fun ft => encode_field h1 o l (fst ft) (snd ft)) (l_fields (h_layer h l))); [|rewrite Em; reflexivity].
      assert (Hf : forall ft, In ft (l_fields (h_layer h l)) -> In ft (l_fields (h_layer h l))) by auto. revert Hf. generalize (l_fields (h_layer h l)) at 1 3 4 as fs. induction fs as [|[f t] fs IHf]; intros Hf; cbn [map mapM fst snd]; [reflexivity|].
      rewrite IHf by (intros; apply Hf; right; assumption).
      rewrite (field_again h d h2 d' D W2 h1 h3 W1 S1 S3 (fun k l p n => P1 _ k l p n eq_refl) (fun k l p n => P3 _ k l p n eq_refl) o o' k l l' f t); auto.
      - apply Hin. left. reflexivity.
      - apply Hf. left. reflexivity.
      - intros c Hc. apply Eo. eapply TT; [exists l; split; [apply Hin; left; reflexivity|apply Hf; left; reflexivity]|exact Hc]. }
    exact (G _ _ Fs (fun kl H => H) _ _ Fl Fl').
Qed.
