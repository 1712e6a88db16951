(** A document of the Python port, read and written by the Java port, is read by the Python port. *)
From Coq Require Import Permutation.
From Verif Require Import PyBase PyBaseFacts Model_Text Model_Heap Model_Layer Model_Types Model_Msgpack Model_Document Model_Codec Model_JUnits Model_JCodec Model_JEncode
  Spec_Layer Spec_Types Spec_Msgpack Spec_Document Spec_Codec Spec_JUnits Spec_JCodec Spec_JEncode Spec_Through
  Proof_Msgpack Proof_Layout Proof_Layer4 Proof_Codec Proof_Codec2 Proof_JUnits Proof_JCodec Proof_JCodec2 Proof_JEncode4 Proof_Through.
Local Open Scope Z_scope.
Local Arguments s : simpl never.

(** the texts of a document that can be written *)
Lemma strings_scalar l b : concatM pack (map MStr l) = Ok b -> Forall scalar (List.concat l).
Proof.
  revert b. induction l as [|x l IH]; intros b H; [constructor|]. cbn [map] in H. apply concatM_cons in H. destruct H as (p & q & H1 & H2 & _). cbn [List.concat]. apply Forall_app. split; [|exact (IH q H2)].
  cbn [pack] in H1. unfold pack_str in H1. destruct (utf8_encode x) as [u|] eqn:E; [|discriminate]. exact (utf8_encode_scalar x u E).
Qed.
Lemma parts_scalar ts b : pack (texts_obj ts) = Ok b -> forall k parts, In (k, parts) ts -> Forall scalar (List.concat parts).
Proof.
  intros H. unfold texts_obj in H. destruct (map_inv' _ _ H) as (hd & b' & _ & E & _). clear H. revert b' E. induction ts as [|[k0 p0] ts IH]; intros b' E k parts Hin; [destruct Hin|].
  cbn [map] in E. apply concatM_cons in E. destruct E as (q1 & q2 & E1 & E2 & _). destruct Hin as [Hin|Hin]; [|eapply IH; [exact E2|exact Hin]]. injection Hin as -> ->.
  apply entry_inv in E1. destruct E1 as (p1 & p2 & _ & E1 & _). cbn [fst snd] in E1. apply arr_inv in E1. destruct E1 as (h0 & b0 & _ & E1 & _). eapply strings_scalar. exact E1.
Qed.
Lemma texts_scalar h d ex tv h1 bytes : doc_ok h d -> msgpack_encode h d ex tv = (h1, Ok bytes) -> forall c x, In (c, x) (d_texts d) -> Forall scalar x.
Proof.
  intros D H. destruct (msgpack_encode_inv _ _ _ _ _ _ H) as (ed & E & L). destruct (codec_encode_inv _ _ _ _ _ _ E) as (offsets & Ec & Ft & _).
  destruct (layout_inv _ _ L) as (n1 & k1 & b1 & sc & n2 & k2 & b2 & bl & _ & _ & _ & _ & _ & _ & H5 & _).
  intros c x I. apply In_nth_error in I. destruct I as [i Hi]. destruct (Forall2_nth _ _ _ _ _ Ft Hi) as ([k' y] & Hy & E1 & o & E2 & E3). cbn [fst snd] in *. subst k'.
  assert (S1 : List.concat y = x).
  { destruct (compile_offsets h d ex tv h1 offsets (do_wf h d D) (do_known h d D) Ec) as [_ Ho]. pose proof (dget_nodup (d_texts d) c x (do_texts h d D) (nth_error_In _ _ Hi)) as Ek.
    destruct (Ho c x Ek) as (q & Eq & Hq). assert (o = sorted_offsets x q) by congruence. subst o y. destruct (Proof_Text.segmentation x q) as [S1 _]; [|exact S1].
    apply Forall_forall. intros z Hz. apply Hq in Hz. eapply span_bounds; eassumption. }
  subst x. eapply parts_scalar; [exact H5|]. eapply nth_error_In. exact Hy.
Qed.

Section Read.
Variables (h : heap) (d : doc) (j : jdoc).
Hypothesis D : doc_ok h d.
Hypothesis TL : forall k f t x, declared h d k f t -> targets_layer t x -> In x (dkeys (d_layers d)).
Hypothesis TT : forall k f t x, declared h d k f t -> targets_text t x -> In x (dkeys (d_texts d)).
Hypothesis TS : forall c x, In (c, x) (d_texts d) -> Forall scalar x.
Hypothesis J : java_doc h d j.

Lemma options_dget (o : dict value) (a : dict jv) : Forall2 (fun ov oj => fst oj = fst ov /\ java_option (snd ov) (snd oj)) o a ->
  forall x, match dget o x, dget a x with Some v, Some w => java_option v w | None, None => True | _, _ => False end.
Proof. apply (again_dget java_option). Qed.
Lemma read_arg t u key x : java_type t u -> dget (dt_opts t) key = Some (VStr x) -> argument u key x.
Proof. intros [_ F] E. pose proof (options_dget _ _ F key) as H. rewrite E in H. unfold argument. destruct (dget (ty_args u) key) as [w|]; [|destruct H]. inversion H; subst. reflexivity. Qed.
Lemma read_texts_dget c x : dget (d_texts d) c = Some x -> dget (jd_texts j) c = Some (utf16 x).
Proof. rewrite (jd_same_texts h d j J). clear. induction (d_texts d) as [|[k y] l IH]; cbn [map dget fst snd]; [discriminate|]. destruct (str_eqb c k); [intros H; injection H as <-; reflexivity|exact IH]. Qed.
Lemma read_holds c x : In (c, x) (d_texts d) -> holds_text j c x.
Proof. intros I. split; [apply read_texts_dget, dget_nodup; [apply (do_texts h d D)|exact I]|exact (TS c x I)]. Qed.
Lemma read_layers_dget x : match dget (d_layers d) x, dget (jd_layers j) x with Some l, Some jl => java_layer h d l jl | None, None => True | _, _ => False end.
Proof. apply (again_dget (java_layer h d)). exact (jd_same_layers h d j J). Qed.
Lemma read_layer_keys : dkeys (jd_layers j) = dkeys (d_layers d).
Proof. exact (again_keys (java_layer h d) _ _ (jd_same_layers h d j J)). Qed.
Lemma read_text_keys : dkeys (jd_texts j) = dkeys (d_texts d).
Proof. rewrite (jd_same_texts h d j J). unfold dkeys. rewrite map_map. reflexivity. Qed.
Lemma read_layer_of x jl : In (x, jl) (jd_layers j) -> exists l, In (x, l) (d_layers d) /\ java_layer h d l jl.
Proof.
  intros I. apply In_nth_error in I. destruct I as [i Hi]. pose proof (jd_same_layers h d j J) as F. 
  assert (F' : Forall2 (fun y z => again (java_layer h d) z y) (jd_layers j) (d_layers d)) by (apply Forall2_flip; exact F).
  destruct (Forall2_nth _ _ _ _ _ F' Hi) as ([x' l] & Hl & E & H). cbn [fst snd] in *. subst x'. exists l. split; [eapply nth_error_In; exact Hl|exact H].
Qed.
Lemma read_node x l p n : dget (d_layers d) x = Some l -> at_pos h l p n -> has_node j x p.
Proof.
  intros E A. pose proof (read_layers_dget x) as R. rewrite E in R. destruct (dget (jd_layers j) x) as [[fs rows]|] eqn:Ej; [|destruct R]. destruct R as (_ & L & _). exists fs, rows. split; [exact Ej|].
  cbn [snd] in L. rewrite L. apply nth_error_Some. unfold at_pos in A. rewrite A. discriminate.
Qed.
Lemma prop_scalar o v : python_value o -> java_prop o v -> jscalar v.
Proof. intros V H. inversion H; subst; inversion V; subst; constructor; assumption. Qed.
Lemma option_scalar o v : option_value o -> java_option o v -> jscalar v.
Proof. intros V H. inversion H; subst; inversion V; subst; constructor; assumption. Qed.

Theorem read_ok : jdoc_ok j.
Proof.
  destruct J as [(ps & Ep & Fp) Jt Jl]. split.
  - pose proof (do_props h d D) as V. rewrite Ep in V. inversion V as [| | | | | | |? N Fv]; subst. split; [rewrite (again_keys java_prop _ _ Fp); exact N|].
    intros k v I. apply In_nth_error in I. destruct I as [i Hi]. assert (F' : Forall2 (fun y z => again java_prop z y) (jd_props j) ps) by (apply Forall2_flip; exact Fp).
    destruct (Forall2_nth _ _ _ _ _ F' Hi) as ([k' o] & Ho & _ & H). cbn [snd] in *. eapply prop_scalar; [|exact H]. rewrite Forall_forall in Fv. apply Fv. apply (in_map snd) in Ho || (apply nth_error_In in Ho; apply (in_map snd) in Ho; exact Ho).
  - rewrite read_text_keys. split; [apply (do_texts h d D)|]. intros c u I. assert (Ic : In c (dkeys (d_texts d))) by (rewrite <- read_text_keys; apply (in_map fst) in I; exact I).
    apply in_map_iff in Ic. destruct Ic as ([c' x] & E & Ic). cbn [fst] in E. subst c'. exists x. apply read_holds, Ic.
  - rewrite read_layer_keys. apply (do_layers h d D).
  - intros x fs rows I. destruct (read_layer_of x _ I) as (l & Il & Ff & Len & Sm & _). cbn [fst snd] in *. split; [|split; [exact Sm|]].
    + rewrite (again_keys java_type _ _ Ff). apply (wf_schema h (do_wf h d D)).
    + intros f u If. apply In_nth_error in If. destruct If as [i Hi]. assert (F' : Forall2 (fun y z => again java_type z y) fs (l_fields (h_layer h l))) by (apply Forall2_flip; exact Ff).
      destruct (Forall2_nth _ _ _ _ _ F' Hi) as ([f' t] & Ht & E & H). cbn [fst snd] in *. subst f'. apply nth_error_In in Ht. assert (Dc : declared h d x f t) by (exists l; split; assumption).
      destruct (do_types h d D x f t Dc) as (X1 & X2 & [O1 O2] & X4 & X5). pose proof H as [En Fo]. split; rewrite ?En.
      * exists (dt_name t). auto.
      * intros R. assert (R' : In (dt_name t) [TNodeRef; TNodeRefMany; TNodeRefSpan]) by (simpl in R |- *; intuition congruence). destruct (O1 R') as (y & Ey). exists y. split; [eapply read_arg; eassumption|].
        rewrite read_layer_keys. eapply TL; [exact Dc|]. split; assumption.
      * intros R. injection R as R. destruct (O2 R) as (y & Ey). exists y. split; [eapply read_arg; eassumption|]. rewrite read_text_keys. eapply TT; [exact Dc|]. split; assumption.
      * intros R. injection R as R. contradiction.
      * split; [rewrite (again_keys java_option _ _ Fo); exact X4|]. intros a v Iv. apply In_nth_error in Iv. destruct Iv as [i' Hi']. assert (Fo' : Forall2 (fun y z => again java_option z y) (ty_args u) (dt_opts t)) by (apply Forall2_flip; exact Fo).
        destruct (Forall2_nth _ _ _ _ _ Fo' Hi') as ([a' o] & Ho & _ & Hv). cbn [snd] in Hv. eapply option_scalar; [eapply X5; eapply nth_error_In; exact Ho|exact Hv].
  - intros x fs rows row f u v I Ir If Ev. destruct (read_layer_of x _ I) as (l & Il & Ff & Len & Sm & Rows). cbn [fst snd] in *.
    apply In_nth_error in If. destruct If as [i Hi]. assert (F' : Forall2 (fun y z => again java_type z y) fs (l_fields (h_layer h l))) by (apply Forall2_flip; exact Ff).
    destruct (Forall2_nth _ _ _ _ _ F' Hi) as ([f' t] & Ht & E & H). cbn [fst snd] in *. subst f'. pose proof (nth_dget _ _ _ _ (wf_schema h (do_wf h d D) l) Ht) as Et. pose proof H as [En Fo].
    apply In_nth_error in Ir. destruct Ir as [p Hp]. assert (Lp : (p < length (layer_iter h l))%nat) by (rewrite <- Len; apply nth_error_Some; rewrite Hp; discriminate).
    destruct (nth_error (layer_iter h l) p) as [o|] eqn:Eo; [|apply nth_error_None in Eo; lia]. destruct o as [n|].
    2:{ exfalso. rewrite (iter_wf _ _ (do_wf h d D)), nth_error_map in Eo. destruct (nth_error (content h l) p); discriminate. }
    destruct (Rows p n row Eo Hp) as [V _]. specialize (V f t Et). rewrite Ev in V. assert (Dn : doc_node h d x l n) by (split; [exact Il|eapply nth_error_In; exact Eo]).
    inversion V as [| |i0 X1 X2 X3 X4|b X1 X2 X3|i0 X1 X2 X3 X4|b X1 X2 X3|b X1 X2 X3|b X1 X2 X3|y X1 X2 X3|c txt a b X1 X2 X3|y l' n' q X1 X2 X3 X4 X5 X6| |y l' ns ps' X1 X2 X3 X4 X5 X6 X7|y l' a b ns ps' X1 X2 X3 X4 X5 X6 X7|y l' a b q q' X1 X2 X3 X4 X5 X6 X7]; subst.
    + apply jy_int; [now rewrite En, X1|assumption].
    + apply jy_int; [now rewrite En, X1|]. unfold int_range. destruct b; lia.
    + apply jy_long; [now rewrite En, X1|assumption].
    + apply jy_long; [now rewrite En, X1|]. unfold long_range. destruct b; lia.
    + apply jy_double; [now rewrite En, X1|]. pose proof (do_values h d D x l n f _ t Dn (eq_sym X2) Et) as W. inversion W; subst; assumption.
    + apply jy_bool. now rewrite En, X1.
    + apply jy_str. now rewrite En, X1.
    + pose proof (do_values h d D x l n f _ t Dn (eq_sym X2) Et) as W. inversion W as [| | | | | | |c' txt' a' b' W1 W2 W3 W4| | | |]; subst. eapply jy_span; [now rewrite En, X1|eapply read_arg; [exact H|apply W1]|apply read_holds; exact (dget_In _ _ W2)|exact W3|exact W4].
    + eapply jy_node; [now rewrite En, X1|eapply read_arg; [exact H|apply X2]|]. eapply read_node; eassumption.
    + eapply jy_nodes; [now rewrite En, X1|eapply read_arg; [exact H|apply X2]|]. clear - X3 X5 J. apply Forall_forall. intros q Iq. apply In_nth_error in Iq. destruct Iq as [i Hi]. assert (F : Forall2 (fun q n => at_pos h l' q n) ps' ns) by (apply Forall2_flip; exact X5).
      destruct (Forall2_nth _ _ _ _ _ F Hi) as (m & _ & A). eapply read_node; eassumption.
    + eapply jy_nodes; [now rewrite En, X1|eapply read_arg; [exact H|apply X2]|]. clear - X3 X5 J. apply Forall_forall. intros q Iq. apply In_nth_error in Iq. destruct Iq as [i Hi]. assert (F : Forall2 (fun q n => at_pos h l' q n) ps' ns) by (apply Forall2_flip; exact X5).
      destruct (Forall2_nth _ _ _ _ _ F Hi) as (m & _ & A). eapply read_node; eassumption.
    + eapply jy_nodespan; [now rewrite En, X1|eapply read_arg; [exact H|apply X2]| |eapply read_node; eassumption].
      pose proof (do_values h d D x l n f _ t Dn (eq_sym X6) Et) as W. inversion W as [| | | | | | | | | |y1 a1 b1 W1 W2 W3|y1 a1 b1 W1 W2 W3]; subst; [congruence|]. destruct W3 as (l1 & p1 & q1 & W4 & W5 & W6 & W7).
      assert (y1 = y) by (destruct X2 as [_ X2], W2 as [_ W2]; congruence). subst y1. assert (l1 = l') by congruence. subst l1.
      assert (U : forall z r1 r2, at_pos h l' r1 z -> at_pos h l' r2 z -> r1 = r2). { intros z r1 r2 Z1 Z2. eapply (NoDup_nth_error (layer_iter h l')); [exact (proj1 (membership_spec h l' (do_wf h d D)))|apply nth_error_Some; unfold at_pos in Z1; rewrite Z1; discriminate|unfold at_pos in *; congruence]. }
      rewrite (U a q p1), (U b q' q1) by assumption. exact W7.
Qed.
End Read.

Lemma prop_back o v o' : java_prop o v -> same_prop v o' -> o' = o.
Proof. intros H K. inversion H; subst; inversion K; subst; reflexivity. Qed.
Lemma option_back o v o' : java_option o v -> same_scalar v o' -> o' = o.
Proof. intros H K. inversion H; subst; inversion K; subst; reflexivity. Qed.
Lemma perm_back {A B} (R : A -> B -> Prop) (S : B -> A -> Prop) (a : dict A) (b b' : dict B) (c : dict A) :
  (forall x y z, R x y -> S y z -> z = x) -> Forall2 (again R) a b -> Permutation b b' -> Forall2 (again S) b' c -> Permutation a c.
Proof.
  intros Q F P G. revert b b' P c G a F. intros b b' P. induction P as [|[k y] b b' P IH|[k y] [k2 y2] b|b b' b'' P1 IH1 P2 IH2]; intros c G a F.
  - inversion G; subst. inversion F; subst. constructor.
  - inversion G as [|? [k3 z] ? c' [E1 H1] G']; subst. inversion F as [|[k4 x] ? a' ? [E2 H2] F']; subst. cbn [fst snd] in *. subst. rewrite (Q _ _ _ H2 H1). constructor. exact (IH _ G' _ F').
  - inversion G as [|? [k3 z] ? c' [E1 H1] G']; subst. inversion G' as [|? [k5 z5] ? c'' [E5 H5] G'']; subst. inversion F as [|[k4 x] ? a' ? [E2 H2] F']; subst. inversion F' as [|[k6 x6] ? a'' ? [E6 H6] F'']; subst.
    cbn [fst snd] in *. subst. rewrite (Q _ _ _ H2 H5), (Q _ _ _ H6 H1). assert (c'' = a''). { clear - F'' G'' Q. revert c'' G''. induction F'' as [|[k x] [k' y] a b [E H] F IH]; intros c G; inversion G as [|? [k3 z] ? c' [E1 H1] G']; subst; [reflexivity|]. cbn [fst snd] in *. subst. rewrite (Q _ _ _ H H1), (IH _ G'). reflexivity. }
    subst. apply perm_swap.
  - (* a document between the two *)
    assert (M : exists m, Forall2 (again S) b' m /\ Permutation c m /\ True).
    { clear - P2 G. revert c G. induction P2 as [|z b b' P IH|z1 z2 b|b b' b'' P1 IH1 P2 IH2]; intros c G.
      - inversion G; subst. exists []. repeat constructor.
      - inversion G as [|? z' ? c' H1 G']; subst. destruct (IH _ G') as (m & F & Pm & _). exists (z' :: m). split; [constructor; assumption|]. split; [constructor; exact Pm|exact Logic.I].
      - inversion G as [|? w1 ? c' H1 G']; subst. inversion G' as [|? w2 ? c'' H2 G'']; subst. exists (w2 :: w1 :: c''). split; [constructor; [assumption|constructor; assumption]|]. split; [apply perm_swap|exact Logic.I].
      - destruct (IH2 _ G) as (m & F & Pm & _). destruct (IH1 _ F) as (m' & F' & Pm' & _). exists m'. split; [exact F'|]. split; [eapply Permutation_trans; eassumption|exact Logic.I]. }
    destruct M as (m & F' & Pm & _). eapply Permutation_trans; [exact (IH1 m F' a F)|apply Permutation_sym; exact Pm].
Qed.

Section Compose.
Variables (h : heap) (d : doc) (j k : jdoc) (h2 : heap) (d2 : doc).
Hypothesis D : doc_ok h d.
Hypothesis TS : forall c x, In (c, x) (d_texts d) -> Forall scalar x.
Hypothesis J : java_doc h d j.
Hypothesis Jok : jdoc_ok j.
Hypothesis O : doc_reordered j k.
Hypothesis P : python_doc k h2 d2.

Lemma back_texts : Permutation (d_texts d) (d_texts d2).
Proof.
  pose proof (dr_texts j k O) as R. rewrite (jd_same_texts h d j J), <- (pd_same_texts k h2 d2 P) in R.
  assert (Inv : forall q : dict pystr, (forall c x, In (c, x) q -> Forall scalar x) -> map (fun kt => (fst kt, from_units (snd kt))) (map (fun kt => (fst kt, utf16 (snd kt))) q) = q).
  { intros q Sq. rewrite map_map. cbn [fst snd]. induction q as [|[c x] q IH]; [reflexivity|]. cbn [map fst snd]. rewrite from_utf16 by (eapply Sq; left; reflexivity). f_equal. apply IH. intros c' x' I. eapply Sq. right. exact I. }
  apply (Permutation_map (fun kt => (fst kt, from_units (snd kt)))) in R. rewrite !Inv in R; [exact R|exact (pd_scalar k h2 d2 P)|exact TS].
Qed.
Lemma back_text c x : dget (d_texts d2) c = Some x -> dget (d_texts d) c = Some x.
Proof. intros E. rewrite <- E. symmetry. apply perm_dget; [apply (do_texts h d D)|exact back_texts]. Qed.
Lemma back_keys : Permutation (dkeys (d_layers d)) (dkeys (d_layers d2)).
Proof.
  rewrite <- (again_keys (java_layer h d) _ _ (jd_same_layers h d j J)). eapply Permutation_trans; [exact (reordered_keys _ _ _ (dr_layers j k O))|].
  rewrite (again_keys (fun jl l => exists x, l_nameof h2 l = x /\ python_layer h2 d2 jl l) (jd_layers k) (d_layers d2)); [apply Permutation_refl|].
  eapply Forall2_impl'; [exact (pd_same_layers k h2 d2 P)|]. intros [x jl] [x' l] _ (E1 & E2 & E3). split; [exact E1|]. cbn [fst snd] in *. eauto.
Qed.
Lemma back_layer x l : dget (d_layers d) x = Some l -> exists jl kl l', dget (d_layers d2) x = Some l' /\ l_nameof h2 l' = x /\ java_layer h d l jl /\ In (x, jl) (jd_layers j) /\ layer_reordered jl kl /\ python_layer h2 d2 kl l'.
Proof.
  intros E. pose proof (again_dget (java_layer h d) _ _ (jd_same_layers h d j J) x) as R. rewrite E in R. destruct (dget (jd_layers j) x) as [jl|] eqn:Ej; [|destruct R].
  pose proof (reordered_dget _ _ _ (jk_layers j Jok) (dr_layers j k O) x) as R2. rewrite Ej in R2. destruct (dget (jd_layers k) x) as [kl|] eqn:Ek; [|destruct R2].
  assert (F : forall (ks : dict (dict jdtype * list (dict jv))) (ds : dict lid), Forall2 (fun kj kl => fst kl = fst kj /\ l_nameof h2 (snd kl) = fst kj /\ python_layer h2 d2 (snd kj) (snd kl)) ks ds -> dget ks x = Some kl ->
     exists l', dget ds x = Some l' /\ l_nameof h2 l' = x /\ python_layer h2 d2 kl l').
  { intros ks ds F. induction F as [|[a b] [a' b'] ks ds (E1 & E2 & E3) F IH]; cbn [dget]; [discriminate|]. cbn [fst snd] in *. subst a'. destruct (str_eqb x a) eqn:Q; [|exact IH]. apply str_eqb_eq in Q. subst a. intros H. injection H as ->. eauto. }
  destruct (F _ _ (pd_same_layers k h2 d2 P) Ek) as (l' & E1 & E2 & E3). exists jl, kl, l'. exact (conj E1 (conj E2 (conj R (conj (dget_In _ _ Ej) (conj R2 E3))))).
Qed.
Lemma back_node x l p n n' : dget (d_layers d) x = Some l -> at_pos h l p n -> node_no h2 d2 x p n' -> same_node h d h2 d2 x n n'.
Proof. intros E A (l' & E' & A'). exists l, l', p. auto. Qed.
Lemma back_nodes x l ns ps ns' : dget (d_layers d) x = Some l -> Forall2 (fun n p => at_pos h l p n) ns ps -> Forall2 (node_no h2 d2 x) ps ns' -> Forall2 (same_node h d h2 d2 x) ns ns'.
Proof. intros E F. revert ns'. induction F as [|n p ns ps A F IH]; intros ns' G; inversion G; subst; constructor; [eapply back_node; eassumption|auto]. Qed.
Lemma back_value x l n f t o w : doc_node h d x l n -> dget (l_fields (h_layer h l)) f = Some t -> java_value h d t (dget (n_fieldsof h n) f) o -> python_sees h2 d2 o w ->
  same_value h (same_node h d h2 d2) t (dget (n_fieldsof h n) f) w.
Proof.
  intros Dn Et V W. remember (dget (n_fieldsof h n) f) as v eqn:Ev.
  destruct V as [| |i X1 X2|b X1|i X1 X2|b X1|b X1|b X1|y X1|c txt a b X1|y l' n' q X1 X2 X3 X4|X1|y l' ns ps' X1 X2 X3 X4 X5|y l' a b ns ps' X1 X2 X3 X4 X5|y l' a b q q' X1 X2 X3 X4 X5].
  - inversion W; subst. constructor.
  - inversion W; subst. constructor.
  - inversion W as [|v0 w0 Sc| | | |]; subst. inversion Sc; subst. constructor. rewrite X1. simpl; auto.
  - inversion W as [|v0 w0 Sc| | | |]; subst. inversion Sc; subst. constructor. rewrite X1. simpl; auto.
  - inversion W as [|v0 w0 Sc| | | |]; subst. inversion Sc; subst. constructor. rewrite X1. simpl; auto.
  - inversion W as [|v0 w0 Sc| | | |]; subst. inversion Sc; subst. constructor. rewrite X1. simpl; auto.
  - inversion W as [|v0 w0 Sc| | | |]; subst. inversion Sc; subst. constructor. exact X1.
  - inversion W as [|v0 w0 Sc| | | |]; subst. inversion Sc; subst. constructor. exact X1.
  - inversion W as [|v0 w0 Sc| | | |]; subst. inversion Sc; subst. constructor. exact X1.
  - pose proof (do_values h d D x l n f _ t Dn (eq_sym Ev) Et) as K. inversion K as [| | | | | | |c' txt' a' b' K1 K2 K3 K4| | | |]; subst.
    inversion W as [|v0 w0 Sc|c1 x1 p1 q1 W1 W2 W3 W4 W5| | |]; subst; [inversion Sc|]. apply back_text in W1. assert (x1 = txt) by congruence. subst x1.
    rewrite (upos_eq txt p1 a), (upos_eq txt q1 b) by congruence. constructor. exact X1.
  - inversion W as [|v0 w0 Sc| |x1 p1 n1 W1| |]; subst; [inversion Sc|]. eapply sv_node; [exact X1|exact X2|]. eapply back_node; eassumption.
  - inversion W; subst. now constructor.
  - inversion W as [|v0 w0 Sc| | |x1 ps1 ns1 W1|]; subst; [inversion Sc|]. eapply sv_many; [exact X1|exact X2|exact X4|]. eapply back_nodes; eassumption.
  - inversion W as [|v0 w0 Sc| | |x1 ps1 ns1 W1|]; subst; [inversion Sc|]. eapply sv_coll; [exact X1|exact X2|exact X4|]. eapply back_nodes; eassumption.
  - inversion W as [|v0 w0 Sc| | | |x1 p1 q1 a1 b1 W1 W2]; subst; [inversion Sc|]. eapply sv_nodespan; [exact X1|exact X2| |]; eapply back_node; eassumption.
Qed.
Theorem back : same_content h d h2 d2.
Proof.
  split.
  - destruct (jd_same_props h d j J) as (ps & Ep & F). destruct (pd_same_props k h2 d2 P) as (ps' & Ep' & F'). exists ps, ps'. split; [exact Ep|]. split; [exact Ep'|].
    eapply (perm_back java_prop same_prop); [exact prop_back|exact F|exact (dr_props j k O)|exact F'].
  - exact back_texts.
  - exact back_keys.
  - intros x l E. destruct (back_layer x l E) as (jl & kl & l' & E1 & E2 & (F1 & F2 & F3 & F4) & Ij & [R1 R2] & [P1 P2 P3 P4]). exists l'. split; [exact E1|]. split; [exact E2|].
    pose proof (wf_schema h (do_wf h d D) l) as ND. assert (NJ : NoDup (dkeys (fst jl))) by (rewrite (again_keys java_type _ _ F1); exact ND).
    assert (Lr : length (snd kl) = length (snd jl)) by (clear - R2; induction R2; cbn [length]; congruence).
    assert (Tk : forall f t, dget (l_fields (h_layer h l)) f = Some t -> exists u v, dget (fst jl) f = Some u /\ java_type t u /\ dget (fst kl) f = Some v /\ type_reordered u v).
    { intros f t Et. pose proof (again_dget java_type _ _ F1 f) as A. rewrite Et in A. destruct (dget (fst jl) f) as [u|] eqn:Eu; [|destruct A]. pose proof (reordered_dget _ _ _ NJ R1 f) as B. rewrite Eu in B.
      destruct (dget (fst kl) f) as [v|] eqn:Ev; [|destruct B]. exists u, v. auto. }
    split.
    + rewrite <- (again_keys java_type _ _ F1). eapply Permutation_trans; [exact (reordered_keys _ _ _ R1)|]. rewrite <- (again_keys python_type _ _ P1). apply Permutation_refl.
    + intros f t Et. destruct (Tk f t Et) as (u & v & _ & [T1 T2] & Ev & [T3 T4]). pose proof (again_dget python_type _ _ P1 f) as A. rewrite Ev in A. destruct (dget (l_fields (h_layer h2 l')) f) as [t'|]; [|destruct A].
      destruct A as (A1 & A2 & A3). exists t'. split; [reflexivity|]. split; [exact A1|]. split; [congruence|]. eapply (perm_back java_option same_scalar); [exact option_back|exact T2|exact T4|exact A3].
    + congruence.
    + intros p n n' f t Hp Hp' Et. destruct (Tk f t Et) as (u & v & _ & _ & Ev & _). destruct (nth_error (snd jl) p) as [row|] eqn:Er.
      2:{ exfalso. apply nth_error_None in Er. assert (p < length (layer_iter h l))%nat by (apply nth_error_Some; unfold at_pos in Hp; rewrite Hp; discriminate). lia. }
      destruct (Forall2_nth _ _ _ _ _ R2 Er) as (row' & Er' & Eq). destruct (F4 p n row Hp Er) as [V _]. specialize (V f t Et). pose proof (P3 p n' row' f v Hp' Er' Ev) as W. rewrite Eq in W.
      eapply back_value; [split; [exact (dget_In _ _ E)|eapply nth_error_In; exact Hp]|exact Et|exact V|exact W].
    + intros p n' f Hp Hf. rewrite <- (again_keys java_type _ _ F1). eapply Permutation_in; [apply Permutation_sym; exact (reordered_keys _ _ _ R1)|]. eapply P4; eassumption.
Qed.
End Compose.

(** Python -> Java -> Python, whatever order the maps of Java have *)
Theorem there_and_back h d ex tv h1 bytes rest : doc_ok h d -> msgpack_encode h d ex tv = (h1, Ok bytes) -> java_readable h d -> zlen bytes < 2147483648 ->
  exists j, java_decode (bytes ++ rest) = Ok j /\ forall k bytes' rest' h0, doc_reordered j k -> java_encode k = Ok bytes' -> wf h0 ->
    exists h2 d2, msgpack_decode h0 (bytes' ++ rest') = (h2, Ok d2) /\ same_content h d h2 d2 /\ wf h2 /\ untouched h0 h2.
Proof.
  intros D H R S0. destruct (java_reads h d ex tv h1 bytes rest D H R S0) as (j & Ej & J). exists j. split; [exact Ej|]. intros k bytes' rest' h0 O Ek W0.
  destruct (msgpack_encode_inv _ _ _ _ _ _ H) as (ed & E & _). pose proof (texts_scalar h d ex tv h1 bytes D H) as TS.
  assert (Jok : jdoc_ok j) by (apply (read_ok h d j D); [intros a f t x Hd; exact (proj1 (refs_ok h d ex tv h1 ed E a f t Hd) x)|intros a f t x Hd; exact (proj2 (refs_ok h d ex tv h1 ed E a f t Hd) x)|exact TS|exact J]).
  pose proof (reordered_ok j k Jok O) as Kok.
  assert (NX : no_extension k).
  { intros x fs rows f t I If X. destruct (reordered_In _ _ _ _ _ (dr_layers j k O) I) as ([fs0 rows0] & I0 & Rf & _). destruct (reordered_In _ _ _ _ _ Rf If) as (t0 & If0 & [En _]).
    destruct (read_layer_of h d j J x _ I0) as (l & Il & Ff & _). cbn [fst] in *. apply In_nth_error in If0. destruct If0 as [i Hi]. assert (F' : Forall2 (fun y z => again java_type z y) fs0 (l_fields (h_layer h l))) by (apply Forall2_flip; exact Ff).
    destruct (Forall2_nth _ _ _ _ _ F' Hi) as ([f' t'] & Ht & _ & [Et _]). cbn [snd] in Et. apply nth_error_In in Ht. apply (proj1 (do_types h d D x f' t' (ex_intro _ l (conj Il Ht)))). congruence. }
  destruct (python_reads k bytes' rest' h0 Kok NX Ek W0) as (h2 & d2 & E2 & P & W2 & U & _). exists h2, d2. split; [exact E2|]. split; [|auto]. eapply back; eassumption.
Qed.
