(** Documents of the Java port that pass through the Python port. *)
From Verif Require Import PyBase PyBaseFacts Model_Text Model_Heap Model_Layer Model_Types Model_Msgpack Model_Document Model_Codec Model_JUnits Model_JLayer Model_JStream Model_JText Model_JCodec Model_JEncode
  Spec_Layer Spec_Types Spec_Msgpack Spec_Document Spec_Codec Spec_JText Spec_JUnits Spec_JCodec Spec_JEncode Spec_Through Spec_Return
  Proof_Text Proof_Document Proof_Msgpack Proof_Layout Proof_Codec Proof_Codec2 Proof_Codec3 Proof_Codec4 Proof_JText Proof_JText2 Proof_JText3 Proof_JUnits Proof_JCodec Proof_JCodec2 Proof_JEncode Proof_JEncode2 Proof_JEncode3 Proof_JEncode4 Proof_Through Proof_Through2 Proof_Through3 Proof_Through4 Proof_Through5.
Local Open Scope Z_scope.
Local Arguments s : simpl never.

Section Valid.
Variables (j : jdoc) (h : heap) (d : doc).
Hypothesis Jok : jdoc_ok j.
Hypothesis NX : no_extension j.
Hypothesis P : python_doc j h d.
Hypothesis W : wf h.
Hypothesis K : known h d.

Lemma keys_same {A B} (R : A -> B -> Prop) (a : dict A) (b : dict B) : Forall2 (fun x y => fst y = fst x /\ R (snd x) (snd y)) a b -> dkeys b = dkeys a.
Proof. induction 1 as [|x y a b [E _] F IH]; [reflexivity|]. unfold dkeys in *. cbn [map]. congruence. Qed.
Lemma layer_keys : dkeys (d_layers d) = dkeys (jd_layers j).
Proof. pose proof (pd_same_layers j h d P) as F. induction F as [|x y a b [E _] F IH]; [reflexivity|]. unfold dkeys in *. cbn [map]. congruence. Qed.
Lemma text_keys : dkeys (d_texts d) = dkeys (jd_texts j).
Proof. rewrite <- (pd_same_texts j h d P). unfold dkeys. rewrite map_map. reflexivity. Qed.
Lemma layer_there k l : In (k, l) (d_layers d) -> exists fs rows, In (k, (fs, rows)) (jd_layers j) /\ l_nameof h l = k /\ python_layer h d (fs, rows) l.
Proof.
  intros I. apply In_nth_error in I. destruct I as [i Hi]. pose proof (pd_same_layers j h d P) as F.
  destruct (Forall2_nth _ _ _ _ _ (Forall2_flip (fun kl kj => fst kl = fst kj /\ l_nameof h (snd kl) = fst kj /\ python_layer h d (snd kj) (snd kl)) _ _ F) Hi) as ([k' [fs rows]] & Hj & E & Nm & L). cbn [fst snd] in *. subst k'. exists fs, rows. split; [eapply nth_error_In; exact Hj|auto].
Qed.
Lemma field_there fs rows l f t : python_layer h d (fs, rows) l -> In (f, t) (l_fields (h_layer h l)) -> exists jt, In (f, jt) fs /\ python_type jt t.
Proof.
  intros L I. apply In_nth_error in I. destruct I as [i Hi]. destruct (Forall2_nth _ _ _ _ _ (Forall2_flip (fun ft fj => fst ft = fst fj /\ python_type (snd fj) (snd ft)) _ _ (pl_fields _ _ _ _ L)) Hi) as ([f' jt] & Hj & E & T). cbn [fst snd] in *. subst f'. exists jt. split; [eapply nth_error_In; exact Hj|exact T].
Qed.
Lemma node_row fs rows l n : python_layer h d (fs, rows) l -> In (Some n) (layer_iter h l) -> exists p row, at_pos h l p n /\ nth_error rows p = Some row.
Proof.
  intros L I. apply In_nth_error in I. destruct I as [p Hp]. exists p. destruct (nth_error rows p) as [row|] eqn:E; [exists row; auto|]. exfalso. apply nth_error_None in E. pose proof (pl_len _ _ _ _ L) as Q. cbn [snd] in Q. assert (X : nth_error (layer_iter h l) p <> None) by congruence. apply nth_error_Some in X. lia.
Qed.
Lemma option_there jt t key x : python_type jt t -> argument jt key x -> dget (dt_opts t) key = Some (VStr x).
Proof.
  intros (_ & _ & F) A. destruct (dget_Forall2 (fun _ a o => same_scalar a o) (ty_args jt) (dt_opts t) F _ _ A) as (w & E & S). inversion S; subst. exact E.
Qed.
Lemma python_name jt t tn : python_type jt t -> ty_name jt = JT tn -> dt_name t = tn.
Proof. intros (_ & E & _) H. congruence. Qed.
Lemma sees_value jt t w v : python_type jt t -> jtyped j jt w -> ty_name jt <> JT TExt -> python_sees h d (Some w) (Some v) -> value_ok h d t v /\ (unreadable w = false -> java_value h d t (Some v) (Some w)).
Proof.
  intros T V NE S. pose proof (fun tn => python_name jt t tn T) as Nm.
  inversion V as [i T1 R|i T1 R|b T1 R|b T1|x T1|x T1 R|y x T1 A R|c x p q T1 A Hh Hp Hq|x p T1 A Hn|x ps T1 A Hn|x p q T1 A Hp Hn]; subst; specialize (Nm _ T1); cbn [unreadable].
  - inversion S as [|? ? Sc| | | |]; subst. inversion Sc; subst. split; [constructor; rewrite Nm; simpl; auto|]. intros _. constructor; assumption.
  - inversion S as [|? ? Sc| | | |]; subst. inversion Sc; subst. split; [constructor; rewrite Nm; simpl; auto|]. intros _. constructor; assumption.
  - inversion S as [|? ? Sc| | | |]; subst. inversion Sc; subst. split; [constructor; assumption|]. intros _. constructor; assumption.
  - inversion S as [|? ? Sc| | | |]; subst. inversion Sc; subst. split; [apply vo_bool; assumption|]. intros _. apply jw_bool; assumption.
  - inversion S as [|? ? Sc| | | |]; subst. inversion Sc; subst. split; [constructor; assumption|]. intros _. constructor; assumption.
  - inversion S as [|? ? Sc| | | |]; subst. inversion Sc; subst. split; [constructor; assumption|]. discriminate.
  - contradiction.
  - inversion S as [|? ? Sc|? x' p' q' Ex Hp' Hq'| | |]; subst; [inversion Sc|]. split; [apply vo_span; try assumption; split; [exact Nm|eapply option_there; eassumption]|]. intros _. 
    match goal with E1 : upos _ _ = upos _ _, E2 : upos _ _ = upos _ _ |- _ => rewrite <- ?E1, <- ?E2 end. apply jw_span. exact Nm.
  - inversion S as [|? ? Sc| |? ? n Hno| |]; subst; [inversion Sc|]. assert (TL : targets_layer t x) by (split; [rewrite Nm; simpl; auto|eapply option_there; eassumption]). destruct Hno as (l & El & Ap). split; [eapply vo_node; [exact Nm|exact TL|exists l, p; auto]|]. intros _. eapply jw_node; eassumption.
  - inversion S as [|? ? Sc| | |? ? ns F|]; subst; [inversion Sc|]. assert (TL : targets_layer t x) by (split; [rewrite Nm; simpl; auto|eapply option_there; eassumption]). split.
    + eapply vo_many; [exact Nm|exact TL|]. apply Forall_forall. intros n In_. apply In_nth_error in In_. destruct In_ as [i Hi]. destruct (Forall2_nth _ _ _ _ _ (Forall2_flip (fun n p => node_no h d x p n) _ _ F) Hi) as (p & _ & l & El & Ap). exists l, p. auto.
    + intros U. destruct ps as [|p0 ps]; [discriminate|]. inversion F as [|? n0 ? ns0 (l & El & Ap) F0]; subst. eapply jw_many; [exact Nm|exact TL|exact El|discriminate|]. constructor; [exact Ap|]. apply Forall2_flip. eapply Forall2_impl'; [exact F0|]. intros p n _ (l' & El' & Ap'). assert (l' = l) by congruence. subst l'. exact Ap'.
  - inversion S as [|? ? Sc| | | |? ? ? a b Ha Hb]; subst; [inversion Sc|]. assert (TL : targets_layer t x) by (split; [rewrite Nm; simpl; auto|eapply option_there; eassumption]). destruct Ha as (l & El & Ap). destruct Hb as (l' & El' & Aq). assert (l' = l) by congruence. subst l'.
    split; [eapply vo_nodespan; [exact Nm|exact TL|exists l, p, q; auto]|]. intros _. eapply jw_nodespan; eassumption.
Qed.
Lemma value_seen k fs rows l p n row f t jt : In (k, (fs, rows)) (jd_layers j) -> python_layer h d (fs, rows) l -> at_pos h l p n -> nth_error rows p = Some row -> In (f, jt) fs -> python_type jt t ->
  (forall v, dget (n_fieldsof h n) f = Some v -> value_ok h d t v) /\
  (java_rereadable j -> java_value h d t (dget (n_fieldsof h n) f) (dget row f)).
Proof.
  intros Ik L Ap Er If T. pose proof (jk_fields j Jok _ _ _ Ik) as (NDf & _). assert (Ef : dget fs f = Some jt) by (apply dget_nodup; assumption). pose proof (pl_values _ _ _ _ L p n row f jt Ap Er Ef) as S. pose proof (nth_error_In _ _ Er) as Ir.
  destruct (dget row f) as [w|] eqn:Ew.
  - pose proof (jk_values j Jok _ _ _ _ _ _ _ Ik Ir If Ew) as V. destruct (dget (n_fieldsof h n) f) as [v|] eqn:Ev; [|inversion S]. destruct (sees_value jt t w v T V (NX _ _ _ _ _ Ik If) S) as [S1 S2]. split; [intros v' [= <-]; exact S1|]. intros RR. apply S2. eapply RR; eassumption.
  - inversion S as [S0 S1| | | | |]; subst. split; [intros v E; congruence|]. intros _. constructor.
Qed.
Theorem python_valid : doc_valid h d.
Proof.
  assert (Decl : forall k f t, declared h d k f t -> exists fs rows jt, In (k, (fs, rows)) (jd_layers j) /\ In (f, jt) fs /\ python_type jt t /\ jtype_ok j jt).
  { intros k f t (l & Il & If). destruct (layer_there k l Il) as (fs & rows & Ik & _ & L). destruct (field_there fs rows l f t L If) as (jt & Ij & T). exists fs, rows, jt. pose proof (jk_fields j Jok _ _ _ Ik) as (_ & _ & Ty). eauto 6. }
  assert (Ok_ : doc_ok h d).
  { split; [exact W|exact K| | | | |].
    - rewrite text_keys. apply (jk_texts j Jok).
    - rewrite layer_keys. apply (jk_layers j Jok).
    - destruct (pd_same_props j h d P) as (ps & -> & F). destruct (jk_props j Jok) as [ND Sc]. constructor; [change (NoDup (dkeys ps)); rewrite (keys_same same_prop _ _ F); exact ND|].
      clear ND. revert Sc. induction F as [|[k v] [k' o] a b [E O] F IH]; intros Sc; constructor; [|apply IH; intros k0 v0 I; eapply Sc; right; exact I]. cbn [snd] in *. pose proof (Sc k v (or_introl eq_refl)) as S. inversion O; subst; inversion S; subst; constructor; assumption.
    - intros k f t Hd. destruct (Decl k f t Hd) as (fs & rows & jt & Ik & If & T & Jt). destruct (jt_known j jt Jt) as (tn & En & Nu). pose proof (python_name jt t tn T En) as Nm. split; [|split; [congruence|split; [split|split]]].
      + rewrite Nm. intros ->. exact (NX _ _ _ _ _ Ik If En).
      + intros I. destruct (jt_layer j jt Jt) as (x & A & _); [rewrite En; rewrite Nm in I; simpl in *; intuition congruence|]. exists x. eapply option_there; eassumption.
      + intros I. destruct (jt_context j jt Jt) as (x & A & _); [congruence|]. exists x. eapply option_there; eassumption.
      + destruct T as (_ & _ & F). rewrite (keys_same same_scalar _ _ F). apply (jt_args j jt Jt).
      + intros o v I. destruct T as (_ & _ & F). apply In_nth_error in I. destruct I as [i Hi]. destruct (Forall2_nth _ _ _ _ _ (Forall2_flip (fun y x => fst y = fst x /\ same_scalar (snd x) (snd y)) _ _ F) Hi) as ([o' a] & Ha & _ & S). cbn [fst snd] in *. apply nth_error_In in Ha. pose proof (proj2 (jt_args j jt Jt) _ _ Ha) as Sc. inversion S; subst; inversion Sc; subst; constructor; assumption.
    - intros k l n f v t [Il Ino] Ev Et. destruct (layer_there k l Il) as (fs & rows & Ik & _ & L). destruct (node_row fs rows l n L Ino) as (p & row & Ap & Er). destruct (field_there fs rows l f t L (dget_In _ _ Et)) as (jt & Ij & T). exact (proj1 (value_seen k fs rows l p n row f t jt Ik L Ap Er Ij T) v Ev). }
  split; [exact Ok_| | | | | |].
  - intros k l Il. destruct (layer_there k l Il) as (fs & rows & _ & E & _). exact E.
  - intros k l Il f t E. destruct (layer_there k l Il) as (fs & rows & _ & _ & L). destruct (field_there fs rows l f t L (dget_In _ _ E)) as (jt & _ & T). exists []. unfold type_ok. rewrite (proj1 T). exact I.
  - intros k f t x Hd [In_ Ex]. destruct (Decl k f t Hd) as (fs & rows & jt & Ik & If & T & Jt). destruct (jt_known j jt Jt) as (tn & En & Nu). pose proof (python_name jt t tn T En) as Nm. destruct (jt_layer j jt Jt) as (y & A & Iy); [rewrite En; rewrite Nm in In_; simpl in *; intuition congruence|]. pose proof (option_there _ _ _ _ T A) as Ey. rewrite layer_keys. congruence.
  - intros k f t x Hd [En Ex]. destruct (Decl k f t Hd) as (fs & rows & jt & Ik & If & T & Jt). destruct (jt_context j jt Jt) as (y & A & Iy); [rewrite (proj1 (proj2 T)); congruence|]. pose proof (option_there _ _ _ _ T A) as Ey. rewrite text_keys. congruence.
  - intros k l n f v [Il Ino] If. destruct (layer_there k l Il) as (fs & rows & Ik & _ & L). destruct (node_row fs rows l n L Ino) as (p & row & Ap & Er). rewrite (keys_same python_type fs _ (pl_fields _ _ _ _ L)). eapply (pl_keys _ _ _ _ L); [exact Ap|]. apply in_map_iff. exists (f, v). auto.
  - intros k l n [Il Ino] f t v Et Ev. destruct (layer_there k l Il) as (fs & rows & _ & _ & L). destruct (field_there fs rows l f t L (dget_In _ _ Et)) as (jt & _ & T). exists []. unfold type_ok. rewrite (proj1 T). split; [exact I|constructor].
Qed.

(** what Java reads again is what Python has *)
Hypothesis RR : java_rereadable j.
Hypothesis SA : single_args j.
Variable k : jdoc.
Hypothesis Ag : doc_again j k.

Theorem again_read : java_doc h d k.
Proof.
  split.
  - destruct (pd_same_props j h d P) as (ps & E & F). exists ps. split; [exact E|]. pose proof (da_props j k Ag) as G. destruct (jk_props j Jok) as [_ Sc]. clear E. revert ps F. induction G as [|[k0 v] [k1 w] a b [E0 A0] G IH]; intros ps F; inversion F as [|? [k2 o] ? ps' [E1 O] F']; subst; constructor; [|apply IH; [intros k' v' I; eapply Sc; right; exact I|exact F']].
    cbn [fst snd] in *. split; [congruence|]. pose proof (Sc k0 v (or_introl eq_refl)) as S. inversion A0; subst; inversion O; subst; inversion S; subst; constructor; assumption.
  - rewrite (da_texts j k Ag). symmetry. exact (pd_same_texts j h d P).
  - pose proof (pd_same_layers j h d P) as F. pose proof (da_layers j k Ag) as G. assert (Inc : incl (jd_layers j) (jd_layers j)) by apply incl_refl. revert F G Inc. generalize (jd_layers j) at 1 2 3. generalize (d_layers d). generalize (jd_layers k). intros kl dl jl F. revert kl. induction F as [|[x [fs rows]] [x' l] jl dl (E & Nm & L) F IH]; intros kl G Inc; inversion G as [|? [x2 [fs2 rows2]] ? kl' [E2 [L1 L2]] G']; subst; constructor; [|apply IH; [exact G'|intros y Hy; apply Inc; right; exact Hy]].
    cbn [fst snd] in *. subst x' x2. split; [reflexivity|]. pose proof (Inc _ (or_introl eq_refl)) as Ix. pose proof (jk_fields j Jok _ _ _ Ix) as (ND & Lr & Ty). split; [|split; [|split]]; cbn [fst snd].
    + clear G. pose proof (pl_fields _ _ _ _ L) as Fl. cbn [fst] in Fl. assert (Inf : incl fs fs) by apply incl_refl. revert Fl Inf. generalize (l_fields (h_layer h l)). revert L1. generalize fs at 1 2 3. intros gs L1. induction L1 as [|[f jt] [f' kt] gs gs' [Ef [Et Ea]] L1 IH1]; intros tl Fl Inf; inversion Fl as [|? [f2 t] ? tl' [Ef2 T] Fl']; subst; first [solve [apply Forall2_nil]|constructor; [|apply IH1; [exact Fl'|intros y Hy; apply Inf; right; exact Hy]]].
      cbn [fst snd] in *. subst f' f2. split; [reflexivity|]. destruct T as (_ & Tn & To). split; [congruence|]. pose proof (Inf _ (or_introl eq_refl)) as If. pose proof (fun o b => SA _ _ _ _ _ o b Ix If) as Sg. pose proof (proj2 (jt_args j jt (Ty _ _ If))) as Sc.
      revert Ea To Sg Sc. generalize (ty_args jt) (dt_opts t) (ty_args kt). clear. intros a o b Ea. revert o. induction Ea as [|[k v] [k' w] a b [E A] Ea IH]; intros o To Sg Sc; inversion To as [|? [k2 u] ? o' [E2 S] To']; subst; first [solve [constructor]|constructor; [|apply IH; [exact To'|intros; eapply Sg; right; eassumption|intros; eapply Sc; right; eassumption]]].
      cbn [fst snd] in *. split; [congruence|]. pose proof (Sc k v (or_introl eq_refl)) as Sv. inversion A as [b0|v0 w0 Nd Pa]; subst.
      * inversion S; subst. pose proof (Sg _ _ (or_introl eq_refl)) as Si. rewrite (to_float_single _ Si). constructor. exact Si.
      * inversion Pa; subst; inversion S; subst; inversion Sv; subst; try (constructor; assumption). exfalso. eapply Nd. reflexivity.
    + rewrite (pl_len _ _ _ _ L). cbn [snd]. clear - L2. induction L2; [reflexivity|]. cbn [length]. congruence.
    + assert (El : length rows2 = length rows) by (clear - L2; induction L2; [reflexivity|]; cbn [length]; congruence). unfold zlen in *. rewrite El. exact Lr.
    + intros p n row2 Ap Er2. destruct (Forall2_nth _ _ _ _ _ (Forall2_flip (fun q r => row_again fs r q) _ _ L2) Er2) as (row & Er & R1 & R2). cbn [fst] in *. split.
      * intros f t Et. destruct (field_there fs rows l f t L (dget_In _ _ Et)) as (jt & Ij & T). rewrite (R1 f jt) by (apply dget_nodup; assumption). exact (proj2 (value_seen x fs rows l p n row f t jt Ix L Ap Er Ij T) RR).
      * intros f If. rewrite (keys_same python_type fs _ (pl_fields _ _ _ _ L)). exact (R2 f If).
Qed.
End Valid.

(** the same bytes *)
Lemma sobj_again v w : prop_again v w -> sobj w = sobj v.
Proof. intros []; reflexivity. Qed.
Lemma row_spans_again fs gs r q : Forall2 (again type_again) fs gs -> (forall f t, In (f, t) fs -> dget q f = dget r f) -> row_spans gs q = row_spans fs r.
Proof.
  intros F. induction F as [|[f t] [f' u] fs gs [E [Et _]] F IH]; intros H; [reflexivity|]. cbn [fst snd] in *. subst f'. cbn [row_spans]. rewrite (IH (fun f0 t0 I => H f0 t0 (or_intror I))). unfold is_span_field. rewrite Et, (H f t (or_introl eq_refl)). reflexivity.
Qed.
Lemma mapM_Forall2 {A B} (R : A -> A -> Prop) (f g : A -> res B) l m : Forall2 R l m -> (forall x y, In x l -> R x y -> g y = f x) -> mapM g m = mapM f l.
Proof.
  induction 1 as [|x y l m Hr F IH]; intros E; [reflexivity|]. cbn [mapM]. rewrite (E x y (or_introl eq_refl) Hr), (IH (fun a b I => E a b (or_intror I))). reflexivity.
Qed.
Lemma map_Forall2 {A B} (R : A -> A -> Prop) (f g : A -> B) l m : Forall2 R l m -> (forall x y, In x l -> R x y -> g y = f x) -> map g m = map f l.
Proof.
  induction 1 as [|x y l m Hr F IH]; intros E; [reflexivity|]. cbn [map]. rewrite (E x y (or_introl eq_refl) Hr), (IH (fun a b I => E a b (or_intror I))). reflexivity.
Qed.
Lemma compile_again j k : jdoc_ok j -> doc_again j k -> jcompile k = jcompile j.
Proof.
  intros Jok Ag. unfold jcompile, all_spans. rewrite (da_texts j k Ag). replace (mapM (fun kl => let* rows := mapM (row_spans (fst (snd kl))) (snd (snd kl)) in Ok (List.concat rows)) (jd_layers k)) with (mapM (fun kl => let* rows := mapM (row_spans (fst (snd kl))) (snd (snd kl)) in Ok (List.concat rows)) (jd_layers j)); [reflexivity|].
  symmetry. eapply mapM_Forall2; [exact (da_layers j k Ag)|]. intros [x [fs rows]] [x' [gs rows']] Ix [_ [L1 L2]]. cbn [fst snd] in *. pose proof (proj1 (jk_fields j Jok _ _ _ Ix)) as ND.
  replace (mapM (row_spans gs) rows') with (mapM (row_spans fs) rows); [reflexivity|]. symmetry. eapply mapM_Forall2; [exact L2|]. intros r q _ [R1 _]. apply row_spans_again; [exact L1|]. intros f t I. apply (R1 f t). apply dget_nodup; assumption.
Qed.
Lemma edoc_again j k T : jdoc_ok j -> single_args j -> doc_again j k -> edoc_of T k = edoc_of T j.
Proof.
  intros Jok SA Ag. unfold edoc_of. f_equal.
  - f_equal. unfold sobjs. eapply map_Forall2; [exact (da_props j k Ag)|]. intros [x v] [x' w] _ [E A]. cbn [fst snd] in *. subst x'. rewrite (sobj_again _ _ A). reflexivity.
  - eapply map_Forall2; [exact (da_layers j k Ag)|]. intros [x [fs rows]] [x' [gs rows']] Ix [E [L1 L2]]. cbn [fst snd] in *. subst x'. pose proof (jk_fields j Jok _ _ _ Ix) as (ND & _ & Ty). unfold elayer_of. cbn [fst snd]. f_equal.
    + unfold zlen. f_equal. clear - L2. induction L2; [reflexivity|]. cbn [length]. congruence.
    + eapply map_Forall2; [exact L1|]. intros [f t] [f' u] If [E [Et Ea]]. cbn [fst snd] in *. subst f'. unfold efield_of. cbn [fst snd]. f_equal.
      * unfold type_name. rewrite Et. reflexivity.
      * assert (S : sobjs (ty_args u) = sobjs (ty_args t)). { unfold sobjs. eapply map_Forall2; [exact Ea|]. intros [o v] [o' w] Io [E A]. cbn [fst snd] in *. subst o'. f_equal. inversion A as [b|v0 w0 Nd Pa]; subst; [|apply sobj_again; exact Pa]. rewrite (to_float_single b); [reflexivity|]. eapply SA; eassumption. }
        inversion Ea as [Ex Ey|a0 b0 la lb]; [reflexivity|]. match goal with H1 : _ :: _ = ty_args t, H2 : _ :: _ = ty_args u |- _ => rewrite H1, H2, S; reflexivity end.
      * assert (Eq : dget fs f = Some t) by (apply dget_nodup; assumption). unfold is_span_field. rewrite Et. clear - L2 Eq. induction L2 as [|r q rows rows' [R1 _] L2 IH]; [reflexivity|]. cbn [flat_map]. rewrite IH, (R1 f t Eq). reflexivity.
Qed.
Theorem there_again j bytes rest h0 ex tv : jdoc_ok j -> no_extension j -> java_rereadable j -> single_args j -> no_empty_text j -> java_encode j = Ok bytes -> wf h0 ->
  exists h2 d h3, msgpack_decode h0 (bytes ++ rest) = (h2, Ok d) /\ python_doc j h2 d /\ doc_valid h2 d /\ msgpack_encode h2 d ex tv = (h3, Ok bytes).
Proof.
  intros Jok NX RR SA NE H W0. destruct (python_reads j bytes rest h0 Jok NX H W0) as (h2 & d & Ed & P & W & _ & K & _). destruct (java_again j bytes [] Jok RR H) as (k & _ & Ag). pose proof (python_valid j h2 d Jok NX P W K) as V. pose proof (again_read j h2 d Jok NX P RR SA k Ag) as J.
  destruct (encode_total h2 d V ex tv) as (h3 & ed & Ee). destruct (codec_encode_inv _ _ _ _ _ _ Ee) as (offsets & Ec & Ft & Fl & Ep). exists h2, d, h3. split; [exact Ed|]. split; [exact P|]. split; [exact V|].
  pose proof (read_ok h2 d k (dv_ok _ _ V) (dv_layer_targets _ _ V) (dv_text_targets _ _ V) (pd_scalar j h2 d P) J) as Kok.
  apply (java_writes j bytes Jok) in H. destruct H as (T & ET & L & _). pose proof ET as ET'. rewrite <- (compile_again j k Jok Ag) in ET'. destruct (compiles k Kok) as (T' & ET2 & FT). rewrite ET' in ET2. apply Ok_inj in ET2. subst T'.
  assert (NE' : forall c x, In (c, x) (d_texts d) -> x <> []). { intros c x I ->. eapply (NE c (utf16 [])); [|reflexivity]. rewrite <- (pd_same_texts j h2 d P). apply in_map_iff. exists (c, []). auto. }
  pose proof (same_layout h2 d ex tv h3 ed offsets k T (dv_ok _ _ V) Ec Ft Fl Ep (pd_scalar j h2 d P) NE' J Kok ET' FT) as Es. rewrite (edoc_again j k T Jok SA Ag) in Es. rewrite Es in L. unfold msgpack_encode. rewrite Ee, L. reflexivity.
Qed.
