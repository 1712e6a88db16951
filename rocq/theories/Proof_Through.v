(** A document that the Java port has read is one that it can write. *)
From Coq Require Import Permutation.
From Verif Require Import PyBase PyBaseFacts Model_Text Model_Heap Model_Layer Model_Types Model_Msgpack Model_Document Model_Codec Model_JUnits Model_JCodec Model_JEncode
  Spec_Layer Spec_Types Spec_Msgpack Spec_Document Spec_Codec Spec_JUnits Spec_JCodec Spec_JEncode Spec_Through
  Proof_Msgpack Proof_Layout Proof_Codec Proof_Codec2 Proof_JUnits Proof_JCodec Proof_JCodec2 Proof_JEncode4.
Local Open Scope Z_scope.

(** ** maps in another order *)
Lemma perm_dget {A} (l m : dict A) : NoDup (dkeys l) -> Permutation l m -> forall x, dget m x = dget l x.
Proof.
  intros ND P x. assert (ND' : NoDup (dkeys m)) by (unfold dkeys in *; eapply Permutation_NoDup; [apply Permutation_map; exact P|exact ND]).
  destruct (dget l x) as [a|] eqn:E.
  - apply dget_nodup; [exact ND'|]. eapply Permutation_in; [exact P|]. exact (dget_In _ _ E).
  - apply dget_None. apply dget_None in E. intros I. apply E. eapply Permutation_in; [|exact I]. apply Permutation_sym. unfold dkeys. apply Permutation_map. exact P.
Qed.
Lemma again_keys {A B} (R : A -> B -> Prop) l m : Forall2 (again R) l m -> dkeys m = dkeys l.
Proof. induction 1 as [|[k a] [k' b] l m [E _] F IH]; [reflexivity|]. unfold dkeys in *. cbn [map fst] in *. rewrite IH, E. reflexivity. Qed.
Lemma again_dget {A B} (R : A -> B -> Prop) l m : Forall2 (again R) l m -> forall x, match dget l x, dget m x with Some a, Some b => R a b | None, None => True | _, _ => False end.
Proof.
  induction 1 as [|[k a] [k' b] l m [E H] F IH]; intros x; [exact Logic.I|]. cbn [fst snd] in *. subst k'. cbn [dget]. destruct (str_eqb x k); [exact H|apply IH].
Qed.
Lemma reordered_keys {A} (R : A -> A -> Prop) l m : reordered R l m -> Permutation (dkeys l) (dkeys m).
Proof. intros (l' & P & F). rewrite (again_keys _ _ _ F). unfold dkeys. now apply Permutation_map. Qed.
Lemma reordered_dget {A} (R : A -> A -> Prop) l m : NoDup (dkeys l) -> reordered R l m -> forall x, match dget l x, dget m x with Some a, Some b => R a b | None, None => True | _, _ => False end.
Proof. intros ND (l' & P & F) x. rewrite <- (perm_dget l l' ND P x). apply (again_dget _ _ _ F). Qed.
Lemma reordered_In {A} (R : A -> A -> Prop) l m x b : reordered R l m -> In (x, b) m -> exists a, In (x, a) l /\ R a b.
Proof.
  intros (l' & P & F) I. apply In_nth_error in I. destruct I as [i Hi]. apply Forall2_flip in F. assert (F' : Forall2 (fun y z => again R z y) m l') by (apply Forall2_flip; exact (Forall2_flip _ _ _ F)).
  destruct (Forall2_nth _ _ _ _ _ F' Hi) as ([x' a] & Ha & E & H). cbn [fst snd] in *. subst x'. exists a. split; [|exact H]. eapply Permutation_in; [apply Permutation_sym; exact P|]. eapply nth_error_In. exact Ha.
Qed.
Lemma reordered_nodup {A} (R : A -> A -> Prop) l m : NoDup (dkeys l) -> reordered R l m -> NoDup (dkeys m).
Proof. intros ND H. eapply Permutation_NoDup; [exact (reordered_keys _ _ _ H)|exact ND]. Qed.

Lemma reordered_ok j k : jdoc_ok j -> doc_reordered j k -> jdoc_ok k.
Proof.
  intros D [Rp Rt Rl]. destruct (jk_props j D) as [Np Hp]. destruct (jk_texts j D) as [Nt Ht]. pose proof (jk_layers j D) as Nl.
  assert (T : forall c x, holds_text j c x -> holds_text k c x). { intros c x [E Sx]. split; [|exact Sx]. rewrite (perm_dget _ _ Nt Rt). exact E. }
  assert (A : forall t u key x, NoDup (dkeys (ty_args t)) -> type_reordered t u -> argument t key x -> argument u key x). { intros t u key x N [_ P] E. unfold argument. rewrite (perm_dget _ _ N P). exact E. }
  assert (Nd : forall x p, has_node j x p -> has_node k x p).
  { intros x p (fs & rows & E & L). pose proof (reordered_dget _ _ _ Nl Rl x) as R. rewrite E in R. destruct (dget (jd_layers k) x) as [[fs' rows']|] eqn:E'; [|destruct R]. destruct R as [_ F]. cbn [fst snd] in *.
    exists fs', rows'. split; [exact E'|]. assert (length rows' = length rows) by (clear - F; induction F; cbn [length]; congruence). lia. }
  split.
  - split; [unfold dkeys in *; eapply Permutation_NoDup; [apply Permutation_map; exact Rp|exact Np]|]. intros a v I. apply (Hp a v). eapply Permutation_in; [apply Permutation_sym; exact Rp|exact I].
  - split; [unfold dkeys in *; eapply Permutation_NoDup; [apply Permutation_map; exact Rt|exact Nt]|]. intros c u I. destruct (Ht c u) as (x & Hx); [eapply Permutation_in; [apply Permutation_sym; exact Rt|exact I]|]. exists x. apply T, Hx.
  - eapply reordered_nodup; eassumption.
  - intros x fs rows I. destruct (reordered_In _ _ _ _ _ Rl I) as ([fs0 rows0] & I0 & Rf & Rr). cbn [fst snd] in *. destruct (jk_fields j D x fs0 rows0 I0) as (N0 & L0 & T0). split; [eapply reordered_nodup; eassumption|].
    split; [assert (length rows = length rows0) by (clear - Rr; induction Rr; cbn [length]; congruence); unfold zlen in *; rewrite H; exact L0|].
    intros f t If. destruct (reordered_In _ _ _ _ _ Rf If) as (t0 & If0 & Rt0). destruct (T0 f t0 If0) as [K1 K2 K3 K4 [K5 K6]]. pose proof Rt0 as [En Pa]. split; rewrite ?En.
    + exact K1.
    + intros X. destruct (K2 X) as (y & Ay & Iy). exists y. split; [eapply A; eassumption|]. eapply Permutation_in; [exact (reordered_keys _ _ _ Rl)|exact Iy].
    + intros X. destruct (K3 X) as (y & Ay & Iy). exists y. split; [eapply A; eassumption|]. eapply Permutation_in; [unfold dkeys; apply Permutation_map; exact Rt|exact Iy].
    + intros X. destruct (K4 X) as (y & Ay). exists y. eapply A; eassumption.
    + split; [unfold dkeys in *; eapply Permutation_NoDup; [apply Permutation_map; exact Pa|exact K5]|]. intros a v Iv. apply (K6 a v). eapply Permutation_in; [apply Permutation_sym; exact Pa|exact Iv].
  - intros x fs rows row f t v I Ir If Ev. destruct (reordered_In _ _ _ _ _ Rl I) as ([fs0 rows0] & I0 & Rf & Rr). cbn [fst snd] in *. destruct (jk_fields j D x fs0 rows0 I0) as (N0 & L0 & T0).
    destruct (reordered_In _ _ _ _ _ Rf If) as (t0 & If0 & Rt0). pose proof Rt0 as [En Pa]. destruct (T0 f t0 If0) as [_ _ _ _ [K5 _]].
    apply In_nth_error in Ir. destruct Ir as [i Hi]. assert (Rr' : Forall2 (fun q r => forall f, dget q f = dget r f) rows rows0) by (apply Forall2_flip; exact Rr).
    destruct (Forall2_nth _ _ _ _ _ Rr' Hi) as (row0 & Hi0 & Er). rewrite Er in Ev. apply nth_error_In in Hi0.
    pose proof (jk_values j D x fs0 rows0 row0 f t0 v I0 Hi0 If0 Ev) as V.
    inversion V; subst; [apply jy_int|apply jy_long|apply jy_double|apply jy_bool|apply jy_str|apply jy_bin|eapply jy_ext|eapply jy_span|eapply jy_node|eapply jy_nodes|eapply jy_nodespan]; rewrite ?En; try eassumption; eauto.
    eapply Forall_impl; [|eassumption]. intros p. apply Nd.
Qed.
