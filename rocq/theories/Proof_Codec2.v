(** Decoding what was encoded. *)
From Verif Require Import PyBase PyBaseFacts Model_Text Model_Heap Model_Layer Model_Types Model_Msgpack Model_Document Model_Codec
  Spec_Layer Spec_Types Spec_Msgpack Spec_Document Spec_Codec Proof_Heap Proof_Layer Proof_Layer2 Proof_Layer3 Proof_History Proof_Layer4 Proof_Types
  Proof_Text Proof_Msgpack Proof_Document Proof_Layout Proof_Codec.
Local Open Scope Z_scope.
Local Arguments s : simpl never.

Lemma same_value_impl h (R S : pystr -> nid -> nid -> Prop) t a b : (forall x n n', R x n n' -> S x n n') -> same_value h R t a b -> same_value h S t a b.
Proof.
  intros I H. assert (F : forall x l l', Forall2 (R x) l l' -> Forall2 (S x) l l') by (intros x l l' F; induction F; constructor; auto).
  destruct H; econstructor; eauto.
Qed.
Lemma build_nodes_ok texts bs sch : forall l0 data, length data = length sch ->
  (forall i k fs nc q, nth_error sch i = Some (k, fs) -> nth_error data i = Some nc -> (q < Z.to_nat (fst nc))%nat -> exists row, decode_row texts bs fs (snd nc) q = Ok row) ->
  exists nodes, build_nodes texts bs l0 sch data = Ok nodes.
Proof.
  induction sch as [|[k fs] sch IH]; intros l0 data L H; destruct data as [|nc data]; try discriminate; cbn [build_nodes]; [eexists; reflexivity|].
  assert (E : exists ns, decode_nodes texts bs l0 fs nc = Ok ns).
  { unfold decode_nodes. assert (G : forall m a, (a + m <= Z.to_nat (fst nc))%nat ->
      exists ns, mapM (fun p => let* row := decode_row texts bs fs (snd nc) p in Ok (mkNode row (Z.of_nat p) (Some l0))) (seq a m) = Ok ns).
    { induction m as [|m IHm]; intros a Ha; cbn [seq mapM]; [eexists; reflexivity|].
      destruct (H 0%nat k fs nc a eq_refl eq_refl) as [row ->]; [lia|]. cbn [rbind]. destruct (IHm (S a)) as [ns ->]; [lia|]. cbn [rbind]. eexists; reflexivity. }
    apply G. lia. }
  destruct E as [ns ->]. cbn [rbind]. destruct (IH (S l0) data) as [q ->]; [simpl in L; lia|intros i; apply (H (S i))|]. cbn [rbind]. eexists; reflexivity.
Qed.
Lemma layer_bases_dget (num : lid -> nat) ls : forall first els, Forall2 (fun kl el => Z.to_nat (el_num el) = num (snd kl)) ls els ->
  forall sch, map fst sch = map fst ls -> forall x l, dget ls x = Some l ->
  exists f0, dget (layer_bases first sch (map fst (map layer_data els))) x = Some (f0, num l).
Proof.
  induction ls as [|[k l] ls IH]; intros first els F sch E x l0 H; inversion F as [|? el ? els' F1 F2]; subst; [discriminate|].
  destruct sch as [|[k' fs] sch]; [discriminate|]. simpl in E. injection E as -> E. cbn [map layer_bases layer_data fst dget]. cbn [dget] in H.
  destruct (str_eqb x k); [injection H as <-; rewrite F1; eexists; reflexivity|]. eapply IH; eassumption.
Qed.

Lemma codec_encode_inv h d e t h1 ed : codec_encode h d e t = (h1, Ok ed) -> exists offsets,
  compile h d e t = (h1, Ok offsets) /\
  Forall2 (fun kt ke => fst ke = fst kt /\ exists o, dget offsets (fst kt) = Some o /\ snd ke = text_compile (snd kt) o) (d_texts d) (ed_texts ed) /\
  Forall2 (fun kl el => encode_layer h1 offsets kl = Ok el) (d_layers d) (ed_layers ed) /\ ed_props ed = d_props d.
Proof.
  unfold codec_encode. destruct (compile h d e t) as [h2 [o|]] eqn:Ec; [|discriminate]. intros H. injection H as <- H. exists o. split; [reflexivity|].
  match type of H with rbind ?m _ = _ => destruct m as [ts|] eqn:E1; [|discriminate] end. cbn [rbind] in H.
  destruct (mapM (encode_layer h2 o) (d_layers d)) as [ls|] eqn:E2; [|discriminate]. cbn [rbind] in H. apply Ok_inj in H. subst ed. cbn [ed_texts ed_layers ed_props].
  apply mapM_Forall2 in E1, E2. split; [|split; [assumption|reflexivity]]. eapply Forall2_impl'; [exact E1|]. intros [k x] [k' y] _ Hy. cbn [fst snd] in *.
  unfold dgetE in Hy. destruct (dget o k) as [q|] eqn:Eq; [|discriminate]. cbn [rbind] in Hy. apply Ok_inj in Hy. injection Hy as <- <-. split; [reflexivity|]. exists q. auto.
Qed.
Lemma encode_layer_inv h offsets k l el : encode_layer h offsets (k, l) = Ok el ->
  el_name el = k /\ el_num el = l_numof h l /\
  Forall2 (fun ft ef => encode_field h offsets l (fst ft) (snd ft) = Ok ef) (l_fields (h_layer h l)) (el_fields el).
Proof.
  unfold encode_layer. cbn [fst snd]. intros H. match type of H with rbind ?m _ = _ => destruct m as [fs|] eqn:E1; [|discriminate] end. cbn [rbind] in H.
  apply Ok_inj in H. subst el. apply mapM_Forall2 in E1. auto.
Qed.
(** the offsets used for a field *)
Definition uses_offsets (offsets : dict (list Z)) (t : dtype) (offs : list Z) : Prop :=
  forall c, targets_text t c -> dget offsets c = Some offs.
Lemma encode_field_inv h offsets l f t ef : encode_field h offsets l f t = Ok ef ->
  ef_name ef = f /\ type_string (dt_name t) = Ok (ef_type ef) /\
  match ef_args ef with None => dt_opts t = [] | Some a => dict_objs (dt_opts t) = Ok a end /\
  exists offs, uses_offsets offsets t offs /\ encode_column h offs (dt_name t) f (layer_iter h l) = Ok (ef_col ef).
Proof.
  unfold encode_field. intros H. destruct (type_string (dt_name t)) as [ts|] eqn:Et; [|discriminate]. cbn [rbind] in H.
  match type of H with rbind ?m _ = _ => destruct m as [args|] eqn:E1; [|discriminate] end. cbn [rbind] in H.
  match type of H with rbind ?m _ = _ => destruct m as [offs|] eqn:E2; [|discriminate] end. cbn [rbind] in H.
  destruct (encode_column h offs (dt_name t) f (layer_iter h l)) as [col|] eqn:E3; [|discriminate]. cbn [rbind] in H. apply Ok_inj in H. subst ef.
  cbn [ef_name ef_type ef_args ef_col]. split; [reflexivity|]. split; [reflexivity|]. split.
  - destruct (dt_opts t) as [|x r]; [apply Ok_inj in E1; subst args; reflexivity|]. destruct (dict_objs (x :: r)) as [a|]; [|discriminate]. apply Ok_inj in E1. subst args. reflexivity.
  - exists offs. split; [|assumption]. intros c [Hn Hc]. rewrite Hn in E2. apply opt_name_ok in Hc. rewrite Hc in E2. cbn [rbind] in E2. unfold dgetE in E2.
    destruct (dget offsets c); [apply Ok_inj in E2; subst; reflexivity|discriminate].
Qed.

Lemma Forall2_flip {A B} (R : A -> B -> Prop) a b : Forall2 (fun x y => R y x) b a -> Forall2 R a b.
Proof. induction 1; constructor; assumption. Qed.
Lemma Forall2_by_nth {A B} (R : A -> B -> Prop) a : forall b, length a = length b -> (forall i x y, nth_error a i = Some x -> nth_error b i = Some y -> R x y) -> Forall2 R a b.
Proof.
  induction a as [|x a IH]; intros [|y b] L H; try discriminate; constructor; [apply (H 0%nat); reflexivity|]. apply IH; [simpl in L; lia|]. intros i. apply (H (S i)).
Qed.
Lemma map_fst_combine {A} (l : list A) : forall a, map fst (combine l (seq a (length l))) = l.
Proof. induction l as [|x l IH]; intros a; simpl; [reflexivity|]. rewrite IH. reflexivity. Qed.
Section Round.
Variables (h : heap) (d : doc) (ex tv : bool) (h1 : heap) (ed : edoc).
Hypothesis D : doc_ok h d.
Hypothesis E : codec_encode h d ex tv = (h1, Ok ed).
Definition schema_of : list (pystr * dict dtype) := map (fun kl => (fst kl, based (l_fields (h_layer h (snd kl))))) (d_layers d).

Lemma refs_ok : forall k f t, declared h d k f t ->
  (forall x, targets_layer t x -> In x (dkeys (d_layers d))) /\ (forall x, targets_text t x -> In x (dkeys (d_texts d))).
Proof.
  destruct (codec_encode_inv _ _ _ _ _ _ E) as (o & Ec & _). unfold compile in Ec. destruct (check_refs h d) as [[]|] eqn:Er; [|discriminate].
  intros k f t Hd. apply (check_refs_ok h d Er) in Hd. tauto.
Qed.
Lemma span_bounds c txt x : dget (d_texts d) c = Some txt -> doc_offset h d c x -> 0 <= x <= zlen txt.
Proof.
  intros Hc (k & l & Hin & n & f & t & tn & tx & a & b & Hn & Hf & Ht & Hv & Hx).
  assert (V : value_ok h d t (VSpan tn tx a b)).
  { eapply (do_values h d D); [split; [exact Hin|exact Hn]|exact Hv|]. apply dget_nodup; [apply (wf_schema h (do_wf h d D))|assumption]. }
  inversion V; subst. destruct Ht as [_ Ht]. match goal with Ht' : targets_text t tn |- _ => destruct Ht' as [_ Ht'] end.
  assert (tn = c) by congruence. subst tn. assert (tx = txt) by congruence. subst tx. destruct Hx; subst; lia.
Qed.
Lemma texts_read offsets : compile h d ex tv = (h1, Ok offsets) ->
  Forall2 (fun kt ke => fst ke = fst kt /\ exists o, dget offsets (fst kt) = Some o /\ snd ke = text_compile (snd kt) o) (d_texts d) (ed_texts ed) ->
  Forall2 (fun kt te => fst te = fst kt /\ fst (snd te) = snd kt /\ dget offsets (fst kt) = Some (snd (snd te))) (d_texts d) (map text_entry (ed_texts ed)).
Proof.
  intros Ec F. apply (proj1 (Forall2_map_r _ _ _ _)). eapply Forall2_impl'; [exact F|]. intros [k x] [k' y] Hin (E1 & o & E2 & E3). cbn [fst snd] in *. subst k'.
  destruct (compile_offsets h d ex tv h1 offsets (do_wf h d D) (do_known h d D) Ec) as [_ Ho].
  pose proof (dget_nodup (d_texts d) k x (do_texts h d D) Hin) as Ek. destruct (Ho k x Ek) as (q & Eq & Hq). assert (o = sorted_offsets x q) by congruence. subst o y.
  unfold text_entry. cbn [fst snd]. destruct (segmentation x q) as [S1 S2].
  { apply Forall_forall. intros z Hz. apply Hq in Hz. eapply span_bounds; eassumption. }
  rewrite S1, S2. auto.
Qed.
Lemma layers_num offsets : compile h d ex tv = (h1, Ok offsets) -> Forall2 (fun kl el => encode_layer h1 offsets kl = Ok el) (d_layers d) (ed_layers ed) ->
  Forall2 (fun kl el => Z.to_nat (el_num el) = length (layer_iter h (snd kl))) (d_layers d) (ed_layers ed).
Proof.
  intros Ec F. destruct (compile_keeps h d ex tv h1 _ (do_wf h d D) (do_known h d D) Ec) as (W1 & S & _).
  eapply Forall2_impl'; [exact F|]. intros [k l] el _ H. destruct (encode_layer_inv _ _ _ _ _ H) as (_ & En & _). cbn [snd]. rewrite En.
  rewrite <- (same_iter _ _ S), (iter_wf _ _ W1), map_length, (ok_num _ _ (wf_layers h1 W1 l)). unfold zlen. apply Nat2Z.id.
Qed.

Section Field.
Variables (offsets : dict (list Z)) (k : pystr) (l : lid) (f : pystr) (t : dtype) (ef : efield).
Hypothesis Ec : compile h d ex tv = (h1, Ok offsets).
Hypothesis In_l : In (k, l) (d_layers d).
Hypothesis In_f : In (f, t) (l_fields (h_layer h l)).
Hypothesis Ef : encode_field h1 offsets l f t = Ok ef.
Hypothesis Ht : Forall2 (fun kt te => fst te = fst kt /\ fst (snd te) = snd kt /\ dget offsets (fst kt) = Some (snd (snd te))) (d_texts d) (map text_entry (ed_texts ed)).
Variable bs : bases.
Hypothesis Hb : forall x l, dget (d_layers d) x = Some l -> exists first, dget bs x = Some (first, length (layer_iter h l)).

Lemma cell_back offs p n : uses_offsets offsets t offs -> encode_column h1 offs (dt_name t) f (layer_iter h1 l) = Ok (ef_col ef) -> at_pos h l p n ->
  exists c, encode_cell h1 offs (dt_name t) (field_value h1 n f) = Ok c /\ Forall python_value c /\
  exists o, decode_cell (map text_entry (ed_texts ed)) bs (base_type t) (ef_col ef) p = Ok o /\ same_value h (moved h d bs) t (dget (n_fieldsof h n) f) o.
Proof.
  intros Uo Hcol Hp.
  destruct (compile_keeps h d ex tv h1 _ (do_wf h d D) (do_known h d D) Ec) as (W1 & S & P).
  destruct (column_nth _ _ _ _ _ _ Hcol) as [C1 _]. destruct (C1 p n) as (c & Hc & Hat); [rewrite (same_iter _ _ S); exact Hp|].
  assert (Dcl : declared h d k f t) by (exists l; auto). destruct (refs_ok k f t Dcl) as [RL RT].
  assert (Hdt : dget (l_fields (h_layer h l)) f = Some t) by (apply dget_nodup; [apply (wf_schema h (do_wf h d D))|assumption]).
  assert (Hdn : doc_node h d k l n) by (split; [assumption|eapply nth_error_In; exact Hp]).
  unfold field_value in Hc. pose proof Hc as Hc'. rewrite (same_fields _ _ S) in Hc.
  assert (HT : forall x, targets_text t x -> exists txt, dget (d_texts d) x = Some txt /\ dget (map text_entry (ed_texts ed)) x = Some (txt, offs)).
  { intros x Hx. pose proof (RT x Hx) as Hin. apply dmem_In in Hin. unfold dmem in Hin. destruct (dget (d_texts d) x) as [txt|] eqn:Ex; [|discriminate]. exists txt. split; [reflexivity|].
    destruct (dget_Forall2 (fun k v w => fst w = v /\ dget offsets k = Some (snd w)) _ _ Ht x txt Ex) as ([tx o] & E1 & E2 & E3). cbn [fst snd] in *. subst tx.
    rewrite (Uo x Hx) in E3. injection E3 as ->. assumption. }
  assert (HO : forall tn tx a b, dget (n_fieldsof h n) f = Some (VSpan tn tx a b) -> In a offs /\ In b offs).
  { intros tn tx a b Hv. pose proof (do_values h d D k l n f _ t Hdn Hv Hdt) as V. inversion V as [| | | | | | |? ? ? ? Tt Tx| | | |]; subst.
    destruct (compile_offsets h d ex tv h1 offsets (do_wf h d D) (do_known h d D) Ec) as [_ Ho]. destruct (Ho tn tx Tx) as (q & Eq & Hq).
    rewrite (Uo tn Tt) in Eq. injection Eq as ->. split; apply sorted_offsets_In; right; right; apply Hq; exists k, l; (split; [assumption|]);
    exists n, f, t, tn, tx, a, b; repeat split; auto; try apply Hdn; apply Tt. }
  destruct (cell_round h d h1 (do_wf h d D) W1 S (fun k l p n => P _ k l p n eq_refl) (map text_entry (ed_texts ed)) bs Hb t (dget (n_fieldsof h n) f) offs c (ef_col ef) p) as (Pv & o & Ed & Sv).
  - eapply (do_types h d D); eassumption.
  - intros v Hv. eapply (do_values h d D); eassumption.
  - assumption.
  - assumption.
  - assumption.
  - assumption.
  - assumption.
  - exists c. split; [assumption|]. split; [assumption|]. exists o. auto.
Qed.
Lemma column_python : Forall python_value (ef_col ef).
Proof.
  destruct (encode_field_inv _ _ _ _ _ _ Ef) as (_ & _ & _ & offs & Uo & Hcol).
  destruct (compile_keeps h d ex tv h1 _ (do_wf h d D) (do_known h d D) Ec) as (W1 & S & P).
  apply Forall_forall. intros x Hx. destruct (column_nth _ _ _ _ _ _ Hcol) as [C1 C2]. destruct (C2 x Hx) as (n & c & Hn & Hc & Hin).
  apply In_nth_error in Hn. destruct Hn as [p Hp]. rewrite (same_iter _ _ S) in Hp. destruct (cell_back offs p n Uo Hcol Hp) as (c' & E' & Pv & _).
  assert (c' = c) by congruence. subst c'. rewrite Forall_forall in Pv. auto.
Qed.
End Field.

Lemma some_bases first offsets : compile h d ex tv = (h1, Ok offsets) -> Forall2 (fun kl el => encode_layer h1 offsets kl = Ok el) (d_layers d) (ed_layers ed) ->
  forall x l, dget (d_layers d) x = Some l -> exists f0, dget (layer_bases first schema_of (map fst (map layer_data (ed_layers ed)))) x = Some (f0, length (layer_iter h l)).
Proof.
  intros Ec F x l Hx. apply (layer_bases_dget (fun l => length (layer_iter h l)) (d_layers d)); [exact (layers_num offsets Ec F)| |assumption].
  unfold schema_of. rewrite map_map. reflexivity.
Qed.
Lemma fields_encoded offsets : compile h d ex tv = (h1, Ok offsets) -> Forall2 (fun kl el => encode_layer h1 offsets kl = Ok el) (d_layers d) (ed_layers ed) ->
  Forall2 (fun kl el => el_name el = fst kl /\ el_num el = l_numof h1 (snd kl) /\
    Forall2 (fun ft ef => encode_field h1 offsets (snd kl) (fst ft) (snd ft) = Ok ef) (l_fields (h_layer h (snd kl))) (el_fields el)) (d_layers d) (ed_layers ed).
Proof.
  intros Ec F. destruct (compile_keeps h d ex tv h1 _ (do_wf h d D) (do_known h d D) Ec) as (W1 & S & _).
  eapply Forall2_impl'; [exact F|]. intros [k l] el _ H. destruct (encode_layer_inv _ _ _ _ _ H) as (A & B & C). rewrite (same_schema _ _ S) in C. auto.
Qed.
Lemma reads_back : Forall2 layer_reads (ed_layers ed) schema_of.
Proof.
  destruct (codec_encode_inv _ _ _ _ _ _ E) as (offsets & Ec & Ft & Fl & _). pose proof (texts_read offsets Ec Ft) as Ht.
  pose proof (some_bases 0%nat offsets Ec Fl) as Hb. pose proof (fields_encoded offsets Ec Fl) as Ff. unfold schema_of. apply (proj1 (Forall2_map_r _ _ _ _)).
  apply Forall2_flip. eapply Forall2_impl'; [exact Ff|]. intros [k l] el Hin (En & _ & Fe). cbn [fst snd] in *. split; [symmetry; assumption|]. cbn [fst snd].
  assert (Fe' : Forall2 (fun ft ef => field_reads ef (fst ft, base_type (snd ft)) /\ Forall python_value (ef_col ef)) (l_fields (h_layer h l)) (el_fields el)).
  { eapply Forall2_impl'; [exact Fe|]. intros [f t] ef Hf Hef. cbn [fst snd] in *. destruct (encode_field_inv _ _ _ _ _ _ Hef) as (A1 & A2 & A3 & _). split.
    - unfold field_reads, base_type. cbn [fst snd dt_class dt_name dt_opts]. split; [auto|]. split; [reflexivity|]. split; [apply type_string_back; assumption|].
      destruct (ef_args ef) as [a|]; [|assumption]. destruct (dict_objs_spec _ _ A3) as (K1 & K2 & K3). split; [assumption|].
      destruct (do_types h d D k f t) as (_ & _ & _ & ND & Ho); [exists l; auto|]. constructor; [fold (dkeys a); rewrite K1; assumption|apply K3; assumption].
    - eapply column_python; eassumption. }
  split; [|split].
  - unfold based. apply (proj1 (Forall2_map_r _ _ _ _)). apply Forall2_flip. eapply Forall2_impl'; [exact Fe'|]. intros x y _ Hxy; exact (proj1 Hxy).
  - rewrite dkeys_based. apply (wf_schema h (do_wf h d D)).
  - clear - Fe'. induction Fe'; constructor; tauto.
Qed.
Lemma names_back : map el_name (ed_layers ed) = dkeys (d_layers d) /\ dkeys (ed_texts ed) = dkeys (d_texts d).
Proof.
  destruct (codec_encode_inv _ _ _ _ _ _ E) as (offsets & Ec & Ft & Fl & _). split.
  - pose proof (fields_encoded offsets Ec Fl) as Ff. clear - Ff. induction Ff as [|[k l] el a b (H & _) F IH]; simpl in *; [reflexivity|]. congruence.
  - clear - Ft. induction Ft as [|[k x] [k' y] a b (H & _) F IH]; simpl in *; [reflexivity|]. congruence.
Qed.

Section Decode.
Variable h0 : heap.
Hypothesis W0 : wf h0.
Notation bs := (layer_bases (h_nnext h0) schema_of (map fst (map layer_data (ed_layers ed)))).
Notation texts := (map text_entry (ed_texts ed)).
(** row p of a layer *)
Lemma row_back i k l : nth_error (d_layers d) i = Some (k, l) -> exists el, nth_error (ed_layers ed) i = Some el /\ Z.to_nat (el_num el) = length (layer_iter h l) /\
  forall p n, at_pos h l p n -> exists row, decode_row texts bs (based (l_fields (h_layer h l))) (map ef_col (el_fields el)) p = Ok row /\
    (forall f, In f (dkeys row) -> In f (dkeys (l_fields (h_layer h l)))) /\ NoDup (dkeys row) /\
    forall f t, dget (l_fields (h_layer h l)) f = Some t -> same_value h (moved h d bs) t (dget (n_fieldsof h n) f) (dget row f).
Proof.
  intros Hi. destruct (codec_encode_inv _ _ _ _ _ _ E) as (offsets & Ec & Ft & Fl & _). pose proof (texts_read offsets Ec Ft) as Ht.
  pose proof (some_bases (h_nnext h0) offsets Ec Fl) as Hb. pose proof (fields_encoded offsets Ec Fl) as Ff. pose proof (layers_num offsets Ec Fl) as Fn.
  destruct (Forall2_nth _ _ _ _ _ Ff Hi) as (el & Hel & En & _ & Fe). destruct (Forall2_nth _ _ _ _ _ Fn Hi) as (el' & Hel' & Enum). assert (el' = el) by congruence. subst el'.
  cbn [fst snd] in *. exists el. split; [assumption|]. split; [assumption|]. intros p n Hp.
  apply (decode_row_ok texts bs p (fun f t o => same_value h (moved h d bs) t (dget (n_fieldsof h n) f) o)); [|apply (wf_schema h (do_wf h d D))].
  apply (proj1 (Forall2_map_r _ _ _ _)). eapply Forall2_impl'; [exact Fe|]. intros [f t] ef Hf Hef. cbn [fst snd] in *.
  destruct (encode_field_inv _ _ _ _ _ _ Hef) as (_ & _ & _ & offs & Uo & Hcol).
  destruct (cell_back offsets k l f t ef Ec (nth_error_In _ _ Hi) Hf Ht bs Hb offs p n Uo Hcol Hp) as (c & _ & _ & o & Ho). exists o. exact Ho.
Qed.
Lemma iter_nth l p : (p < length (layer_iter h l))%nat -> exists n, at_pos h l p n.
Proof.
  intros Hp. unfold at_pos. rewrite (iter_wf _ _ (do_wf h d D)) in *. rewrite map_length in Hp. destruct (nth_error (content h l) p) as [n|] eqn:En; [|apply nth_error_None in En; lia].
  exists n. rewrite nth_error_map, En. reflexivity.
Qed.
Lemma schema_nth i k fs : nth_error schema_of i = Some (k, fs) -> exists l, nth_error (d_layers d) i = Some (k, l) /\ fs = based (l_fields (h_layer h l)).
Proof.
  unfold schema_of. rewrite nth_error_map. destruct (nth_error (d_layers d) i) as [[k' l]|]; simpl; [|discriminate]. intros H. injection H as <- <-. eauto.
Qed.
Lemma schema_len : length (map layer_data (ed_layers ed)) = length schema_of.
Proof.
  destruct (codec_encode_inv _ _ _ _ _ _ E) as (offsets & Ec & Ft & Fl & _). unfold schema_of. rewrite !map_length. symmetry. eapply Forall2_length. exact Fl.
Qed.
Lemma check_ok : check_fields bs schema_of = Ok tt.
Proof.
  destruct (codec_encode_inv _ _ _ _ _ _ E) as (offsets & Ec & Ft & Fl & _). pose proof (some_bases (h_nnext h0) offsets Ec Fl) as Hb.
  assert (C : forall ft, In ft (flat_map snd schema_of) -> check_field bs ft = Ok tt).
  { intros [f t'] Hin. apply in_flat_map in Hin. destruct Hin as ([k fs] & Hs & Hf). unfold schema_of in Hs. apply in_map_iff in Hs. destruct Hs as ([k' l] & Hk & Hl).
    injection Hk as <- <-. cbn [fst snd] in *. unfold based in Hf. apply in_map_iff in Hf. destruct Hf as ([f' t] & Hf & Hin). injection Hf as <- <-. cbn [fst snd] in *.
    assert (Dc : declared h d k' f' t) by (exists l; auto). destruct (do_types h d D _ _ _ Dc) as (T1 & T2 & [O1 O2] & _). destruct (refs_ok _ _ _ Dc) as [R1 _].
    assert (Q : In (dt_name t) [TNodeRef; TNodeRefMany; TNodeRefSpan] -> (let* c := opt_name t (s "layer") in let* _ := dgetE bs c in Ok tt) = Ok tt).
    { intros Hn. destruct (O1 Hn) as [x Hx]. unfold opt_name, dgetE. rewrite Hx. cbn [rbind]. assert (Hx' : In x (dkeys (d_layers d))) by (apply R1; split; assumption).
      apply dmem_In in Hx'. unfold dmem in Hx'. destruct (dget (d_layers d) x) as [l'|] eqn:El; [|discriminate]. destruct (Hb x l' El) as [f0 ->]. reflexivity. }
    unfold check_field. cbn [fst snd base_type dt_name]. unfold opt_name in *. cbn [base_type dt_opts]. destruct (dt_name t) eqn:Et; try reflexivity; try (apply Q; simpl; tauto).
    - destruct (O2 eq_refl) as [x Hx]. unfold dgetE. rewrite Hx. reflexivity.
    - contradiction. }
  unfold check_fields. revert C. generalize (flat_map snd schema_of). intros q C.
  assert (M : exists r, mapM (check_field bs) q = Ok r).
  { clear - C. induction q as [|x q IH]; [exists []; reflexivity|]. cbn [mapM]. rewrite (C x) by (left; reflexivity). cbn [rbind].
    destruct IH as [r ->]; [intros y Hy; apply C; right; assumption|]. eexists. reflexivity. }
  destruct M as [r ->]. reflexivity.
Qed.
Lemma build_ok : exists h2 d', build h0 (read_as ed schema_of) = (h2, Ok d').
Proof.
  unfold build, read_as. cbn [pd_texts pd_schema pd_layers pd_props]. rewrite check_ok. cbn [rbind].
  destruct (build_nodes_ok texts bs schema_of (h_lnext h0) (map layer_data (ed_layers ed)) schema_len) as [nodes ->]; [|eexists; eexists; reflexivity].
  intros i k fs nc q Hi Hd Hq. destruct (schema_nth i k fs Hi) as (l & Hl & ->). destruct (row_back i k l Hl) as (el & Hel & Hn & Hr).
  rewrite nth_error_map, Hel in Hd. injection Hd as <-. cbn [layer_data fst snd] in *. rewrite Hn in Hq. destruct (iter_nth l q Hq) as [n Hat].
  destruct (Hr q n Hat) as (row & Er & _). eauto.
Qed.
Lemma nth_dget {A} (q : dict A) i k v : NoDup (dkeys q) -> nth_error q i = Some (k, v) -> dget q k = Some v.
Proof. intros ND H. apply dget_nodup; [assumption|]. eapply nth_error_In. exact H. Qed.
Theorem decode_round : exists h2 d', build h0 (read_as ed schema_of) = (h2, Ok d') /\ same_doc h d h2 d' /\ wf h2 /\ untouched h0 h2 /\ known h2 d' /\
  dkeys (d_layers d') = dkeys (d_layers d) /\ (wf_keys h0 -> wf_keys h2).
Proof.
  destruct build_ok as (h2 & d' & B). exists h2, d'. split; [assumption|].
  destruct (codec_encode_inv _ _ _ _ _ _ E) as (offsets & Ec & Ft & Fl & Ep). pose proof (texts_read offsets Ec Ft) as Ht.
  pose proof schema_len as SL.
  assert (KK : forall k fs, In (k, fs) schema_of -> NoDup (dkeys fs)).
  { intros k fs Hin. unfold schema_of in Hin. apply in_map_iff in Hin. destruct Hin as ([k' l] & [= <- <-] & _). rewrite dkeys_based. apply (wf_schema h (do_wf h d D)). }
  pose proof (built_wf h0 (read_as ed schema_of) h2 d' W0 B SL KK) as W2.
  assert (Keys : dkeys (d_layers d') = dkeys (d_layers d)).
  { destruct (build_inv _ _ _ _ B) as (nodes & _ & _ & ->). cbn [read_as pd_schema d_layers]. unfold dkeys, schema_of. rewrite !map_length, map_map. cbn [fst].
    rewrite <- (map_length fst (d_layers d)). apply map_fst_combine. }
  assert (ND' : NoDup (dkeys (d_layers d'))) by (rewrite Keys; apply (do_layers h d D)).
  (* the i-th layer *)
  assert (At : forall i k l, nth_error (d_layers d) i = Some (k, l) -> exists f0, nth_error bs i = Some (k, (f0, length (layer_iter h l))) /\
     nth_error (d_layers d') i = Some (k, (h_lnext h0 + i)%nat) /\ l_nameof h2 (h_lnext h0 + i)%nat = k /\
     l_fields (h_layer h2 (h_lnext h0 + i)%nat) = based (l_fields (h_layer h l)) /\
     (forall q n, at_pos h2 (h_lnext h0 + i)%nat q n <-> (q < length (layer_iter h l))%nat /\ n = (f0 + q)%nat) /\
     forall q n, at_pos h l q n -> (forall f, In f (dkeys (n_fieldsof h2 (f0 + q)%nat)) -> In f (dkeys (l_fields (h_layer h l)))) /\ NoDup (dkeys (n_fieldsof h2 (f0 + q)%nat)) /\
       forall f t, dget (l_fields (h_layer h l)) f = Some t -> same_value h (moved h d bs) t (dget (n_fieldsof h n) f) (dget (n_fieldsof h2 (f0 + q)%nat) f)).
  { intros i k l Hi. destruct (row_back i k l Hi) as (el & Hel & Hn & Hr).
    assert (Hs : nth_error (pd_schema (read_as ed schema_of)) i = Some (k, based (l_fields (h_layer h l)))) by (cbn [read_as pd_schema]; unfold schema_of; rewrite nth_error_map, Hi; reflexivity).
    destruct (built_layer h0 _ h2 d' B SL i _ _ Hs) as (nc & f0 & A1 & A2 & A3 & A4 & A5 & A6 & A7).
    pose proof (built_at_pos h0 _ h2 d' W0 B SL KK i _ _ nc f0 Hs A1 A3) as Hat.
    cbn [read_as pd_schema pd_layers pd_texts] in *. rewrite nth_error_map, Hel in A1. injection A1 as <-. cbn [layer_data fst snd] in *. rewrite Hn in *.
    exists f0. split; [assumption|]. split; [assumption|]. split; [unfold l_nameof; rewrite A4; reflexivity|]. split; [rewrite A4; reflexivity|]. split; [assumption|].
    intros q n Hq. assert (Hlt : (q < length (layer_iter h l))%nat) by (apply nth_error_Some; unfold at_pos in Hq; congruence).
    destruct (A7 q Hlt) as (row & Er & En). destruct (Hr q n Hq) as (row' & Er' & R1 & R2 & R3). assert (row' = row) by congruence. subst row'.
    unfold n_fieldsof at 1 2 4. rewrite En. cbn [n_fields]. auto. }
  (* moved nodes are at the same position *)
  assert (Mv : forall x n n', moved h d bs x n n' -> same_node h d h2 d' x n n').
  { intros x n n' (l & p & b & Hl & Hp & Hbs & ->). pose proof (dget_In _ _ Hl) as Hin. apply In_nth_error in Hin. destruct Hin as [i Hi].
    destruct (At i x l Hi) as (f0 & B1 & B2 & B3 & B4 & B5 & _). exists l, (h_lnext h0 + i)%nat, p. split; [assumption|]. split; [eapply nth_dget; eassumption|]. split; [assumption|].
    assert (Hb' : dget bs x = Some (f0, length (layer_iter h l))).
    { eapply nth_dget; [|exact B1]. assert (Kb : dkeys bs = dkeys (d_layers d)).
      { pose proof SL as SL'. clear - SL'. unfold schema_of in *. revert SL'. generalize (h_nnext h0), (map layer_data (ed_layers ed)). induction (d_layers d) as [|[k l] ls IH]; intros a [|nc data] SL'; try discriminate; [reflexivity|].
        cbn [map layer_bases dkeys fst] in *. f_equal. apply IH. simpl in SL'. lia. }
      rewrite Kb. apply (do_layers h d D). }
    assert (b = (f0, length (layer_iter h l))) by congruence. subst b. apply B5. unfold node_at. cbn [fst]. split; [|reflexivity]. apply nth_error_Some. unfold at_pos in Hp. congruence. }
  assert (TT : d_texts d' = d_texts d).
  { destruct (build_inv _ _ _ _ B) as (nodes & _ & _ & ->). cbn [read_as pd_texts d_texts]. clear - Ht. induction Ht as [|[k x] [k' [x' o]] a b (H1 & H2 & _) F IH]; simpl in *; [reflexivity|]. congruence. }
  split; [|split; [assumption|split; [apply (built_untouched h0 _ h2 d' B SL)|]]].
  - split.
    + destruct (build_inv _ _ _ _ B) as (nodes & _ & _ & ->). exact Ep.
    + assumption.
    + assert (Ln : length (d_layers d') = length (d_layers d)) by (rewrite <- (map_length fst (d_layers d')), <- (map_length fst (d_layers d)); unfold dkeys in Keys; rewrite Keys; reflexivity).
      apply Forall2_by_nth; [symmetry; assumption|]. intros i [k l] [k' l'] Hi Hi'. destruct (At i k l Hi) as (f0 & B1 & B2 & B3 & B4 & B5 & B6). rewrite B2 in Hi'. injection Hi' as <- <-. cbn [fst snd].
      split; [reflexivity|]. split; [assumption|]. split.
      * exact B4.
      * apply Nat.le_antisymm.
        -- destruct (Nat.le_gt_cases (length (layer_iter h2 (h_lnext h0 + i)%nat)) (length (layer_iter h l))) as [Hle|Hgt]; [assumption|]. exfalso.
           rewrite (iter_wf _ _ W2), map_length in Hgt. destruct (nth_error (content h2 (h_lnext h0 + i)%nat) (length (layer_iter h l))) as [n|] eqn:En; [|apply nth_error_None in En; lia].
           assert (Hat : at_pos h2 (h_lnext h0 + i)%nat (length (layer_iter h l)) n) by (unfold at_pos; rewrite (iter_wf _ _ W2), nth_error_map, En; reflexivity). apply B5 in Hat. lia.
        -- destruct (length (layer_iter h l)) as [|m] eqn:Em; [lia|]. assert (Hat : at_pos h2 (h_lnext h0 + i)%nat m (f0 + m)%nat) by (apply B5; split; [lia|reflexivity]).
           unfold at_pos in Hat. assert (m < length (layer_iter h2 (h_lnext h0 + i)%nat))%nat by (apply nth_error_Some; congruence). lia.
      * intros p n n' f t Hp Hp' Hf. apply B5 in Hp'. destruct Hp' as [_ ->]. eapply same_value_impl; [exact Mv|]. apply (B6 p n Hp). assumption.
      * intros p n' f Hp' Hf. apply B5 in Hp'. destruct Hp' as [Hlt ->]. destruct (iter_nth l p Hlt) as [n Hn]. apply (B6 p n Hn). assumption.
  - split; [|split; [assumption|]].
    + intros k l Hin. apply In_nth_error in Hin. destruct Hin as [i Hi]. rewrite (built_lnext h0 _ h2 d' B SL).
      assert (Hk : (i < length (d_layers d))%nat) by (rewrite <- (map_length fst (d_layers d)); fold (dkeys (d_layers d)); rewrite <- Keys; unfold dkeys; rewrite map_length; apply nth_error_Some; congruence).
      destruct (nth_error (d_layers d) i) as [[k' l0]|] eqn:Ei; [|apply nth_error_None in Ei; lia]. destruct (At i k' l0 Ei) as (f0 & _ & B2 & _). rewrite B2 in Hi. injection Hi as <- <-.
      cbn [read_as pd_schema]. unfold schema_of. rewrite map_length. lia.
    + intros WK n. assert (Dn : (h_nnext h0 <= n < h_nnext h2)%nat \/ ~ (h_nnext h0 <= n < h_nnext h2)%nat) by lia. destruct Dn as [Dn|Dn].
      * destruct (built_new_node h0 _ h2 d' B SL n Dn) as (i & k & fs & nc & f0 & q & A1 & A2 & A3 & A4 & ->). cbn [read_as pd_schema pd_layers] in *.
        destruct (schema_nth i k fs A1) as (l & Hl & ->). destruct (At i k l Hl) as (f0' & B1 & _ & _ & _ & _ & B6). rewrite B1 in A3. injection A3 as -> A3. rewrite <- A3 in A4.
        destruct (iter_nth l q A4) as [n Hn]. apply (B6 q n Hn).
      * unfold n_fieldsof. rewrite (built_old_node h0 _ h2 d' B SL n Dn). apply WK.
Qed.
End Decode.
End Round.

(** ** whole documents *)
Lemma msgpack_encode_inv h d ex tv h1 bytes : msgpack_encode h d ex tv = (h1, Ok bytes) -> exists ed, codec_encode h d ex tv = (h1, Ok ed) /\ layout ed = Ok bytes.
Proof. unfold msgpack_encode. destruct (codec_encode h d ex tv) as [h2 [ed|]]; intros H; [|discriminate]. injection H as <- H. eauto. Qed.
Lemma parse_back h d ex tv h1 ed bytes rest : doc_ok h d -> codec_encode h d ex tv = (h1, Ok ed) -> layout ed = Ok bytes ->
  parse (bytes ++ rest) = Ok (read_as ed (schema_of h d)).
Proof.
  intros D E L. apply parse_layout; [assumption| | | |].
  - destruct (codec_encode_inv _ _ _ _ _ _ E) as (o & _ & _ & _ & ->). apply (do_props h d D).
  - eapply reads_back; eassumption.
  - rewrite (proj1 (names_back h d ex tv h1 ed D E)). apply (do_layers h d D).
  - rewrite (proj2 (names_back h d ex tv h1 ed D E)). apply (do_texts h d D).
Qed.
Theorem msgpack_round h d ex tv h1 bytes rest h0 : doc_ok h d -> msgpack_encode h d ex tv = (h1, Ok bytes) -> wf h0 ->
  exists h2 d', msgpack_decode h0 (bytes ++ rest) = (h2, Ok d') /\ same_doc h d h2 d' /\ wf h2 /\ untouched h0 h2 /\ known h2 d' /\
    dkeys (d_layers d') = dkeys (d_layers d) /\ (wf_keys h0 -> wf_keys h2).
Proof.
  intros D H W0. destruct (msgpack_encode_inv _ _ _ _ _ _ H) as (ed & E & L). unfold msgpack_decode. rewrite (parse_back h d ex tv h1 ed bytes rest D E L).
  eapply decode_round; eassumption.
Qed.
