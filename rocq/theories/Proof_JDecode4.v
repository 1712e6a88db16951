(** Proofs about Model_JCodec.v and Model_JEncode.v: a decoded document is written and read again. *)
From Verif Require Import PyBase PyBaseFacts Model_Text Model_Heap Model_Layer Model_Types Model_Msgpack Model_Document Model_Codec Model_JUnits Model_JCodec Model_JEncode
  Spec_Layer Spec_Types Spec_Msgpack Spec_Document Spec_Codec Spec_JUnits Spec_JCodec Spec_JEncode Spec_JDecode Proof_Layer4 Proof_JUnits Proof_JEncode2 Proof_JEncode3 Proof_JEncode4 Proof_JDecode Proof_JDecode3.
Local Open Scope Z_scope.

Lemma decoded_doc j : decoded_ok j -> names_exist j -> each_value forward j -> jdoc_ok j.
Proof.
  intros D NE FW. split.
  - exact (dk_props j D).
  - exact (dk_texts j D).
  - exact (dk_layers j D).
  - intros k fs rows I. destruct (dk_fields j D k fs rows I) as (ND & L & T). split; [exact ND|]. split; [exact L|]. intros f t If. destruct (T f t If) as [T1 T2 T3 T4 T5].
    destruct (NE k fs rows f t I If) as [N1 N2]. split.
    + exact T1.
    + intros R. destruct (T2 R) as (x & Hx). exists x. split; [exact Hx|]. apply N2; assumption.
    + intros R. destruct (T3 R) as (c & Hc). exists c. split; [exact Hc|]. apply N1; assumption.
    + exact T4.
    + destruct T5 as [A B]. split; [exact A|]. intros a v Ia. exact (proj1 (B a v Ia)).
  - intros k fs rows row f t v I Ir If Ev. pose proof (dk_values j D k fs rows row f t v I Ir If Ev) as H. pose proof (FW k fs rows row f v I Ir Ev) as F.
    inversion H; subst; try (econstructor; eassumption).
    apply jy_span; try assumption; [|lia]. specialize (F c (upos x p) (upos x q) eq_refl). apply Z.leb_le in F. rewrite upos_leb in F. apply Z.leb_le in F. lia.
Qed.
Lemma decoded_readable j : decoded_ok j -> each_value not_bytes j -> java_rereadable j.
Proof.
  intros D NB k fs rows row f t v I Ir If Ev. pose proof (dk_values j D k fs rows row f t v I Ir If Ev) as H. pose proof (NB k fs rows row f v I Ir Ev) as B.
  inversion H; subst; try reflexivity.
  - exfalso. eapply B. reflexivity.
  - destruct ps; [contradiction|reflexivity].
Qed.
Lemma prop_same v w : shortest v -> prop_again v w -> w = v.
Proof. intros Sh H. inversion H; subst; try reflexivity. exfalso. exact (Sh i eq_refl ltac:(assumption)). Qed.
Lemma arg_same v w : shortest v -> float_only v -> arg_again v w -> w = v.
Proof. intros Sh Fl H. inversion H; subst; [rewrite (Fl b eq_refl); reflexivity|]. apply prop_same; assumption. Qed.
Lemma again_same {A} (R : A -> A -> Prop) (l m : list (pystr * A)) : Forall2 (again R) l m -> (forall k v w, In (k, v) l -> R v w -> w = v) -> m = l.
Proof.
  intros F. induction F as [|[k v] [k' w] l m [E H] F IH]; intros G; [reflexivity|]. cbn [fst snd] in *. subst k'. rewrite (G k v w (or_introl eq_refl) H). f_equal. apply IH.
  intros a b c I. apply G with a. right. exact I.
Qed.
Theorem decoded_again bs j bytes' rest : bytes bs -> java_decode bs = Ok j -> names_exist j -> each_value forward j -> each_value not_bytes j -> no_short_long j ->
  java_encode j = Ok bytes' -> exists k, java_decode (bytes' ++ rest) = Ok k /\ same_document j k.
Proof.
  intros Hb H NE FW NB [Sp Sa] E. pose proof (decoded bs j Hb H) as D. destruct (java_again j bytes' rest (decoded_doc j D NE FW) (decoded_readable j D NB) E) as (k & Hk & [A1 A2 A3]).
  exists k. split; [exact Hk|]. split.
  - eapply again_same; [exact A1|]. intros a v w I R. eapply prop_same; [eapply Sp; exact I|exact R].
  - exact A2.
  - assert (G : forall l, incl l (jd_layers j) -> forall m, Forall2 (again layer_again) l m ->
      Forall2 (fun l m => fst m = fst l /\ fst (snd m) = fst (snd l) /\ Forall2 same_rows (snd (snd l)) (snd (snd m))) l m).
    { intros l I m F. induction F as [|[x [fs rows]] [x' [fs' rows']] l m [Ex [Lf Lr]] F IH]; constructor; [|apply IH; intros z Hz; apply I; right; exact Hz].
      cbn [fst snd] in *. subst x'. assert (Ix : In (x, (fs, rows)) (jd_layers j)) by (apply I; left; reflexivity). split; [reflexivity|]. split.
      - eapply again_same; [exact Lf|]. intros f [n as1] [n' as2] If [En Ea]. cbn [ty_name ty_args] in *. subst n'. f_equal. eapply again_same; [exact Ea|].
        intros a v w Iv R. destruct (dk_fields j D x fs rows Ix) as (_ & _ & T). destruct (tf_args _ (T f _ If)) as [_ B]. cbn [ty_args] in B. destruct (B a v Iv) as [_ Fl].
        eapply arg_same; [eapply (Sa x fs rows f (mkJT n as1) a v Ix If); exact Iv|exact Fl|exact R].
      - assert (R : forall r, In r rows -> incl (dkeys r) (dkeys fs)) by (intros r Ir; exact (proj2 (dk_rows j D x fs rows r Ix Ir))).
        clear - Lr R. induction Lr as [|r q rows rows' [H1 H2] Lr IH]; constructor; [|apply IH; intros z Iz; apply R; right; exact Iz].
        intros f. destruct (dget fs f) as [t|] eqn:Ef; [apply (H1 f t Ef)|]. apply dget_None in Ef.
        assert (N1 : dget q f = None) by (apply dget_None; intros X; apply Ef, H2, X). assert (N2 : dget r f = None) by (apply dget_None; intros X; apply Ef, (R r (or_introl eq_refl)), X). congruence. }
    apply G; [apply incl_refl|exact A3].
Qed.
Theorem decoded_document bs j : bytes bs -> java_decode bs = Ok j -> names_exist j -> each_value forward j -> jdoc_ok j.
Proof. intros Hb H. apply decoded_doc. exact (decoded bs j Hb H). Qed.
Theorem decoded_python bs j bytes' rest h0 : bytes bs -> java_decode bs = Ok j -> names_exist j -> each_value forward j -> no_extension j ->
  java_encode j = Ok bytes' -> wf h0 -> exists h2 d, msgpack_decode h0 (bytes' ++ rest) = (h2, Ok d) /\ python_doc j h2 d.
Proof.
  intros Hb H NE FW NX E W. destruct (python_reads j bytes' rest h0 (decoded_document bs j Hb H NE FW) NX E W) as (h2 & d & H1 & H2 & _). exists h2, d. split; assumption.
Qed.
Theorem rounded : (forall b, (b < 18446744073709551616)%N -> to_float (to_float b) = to_float b) /\
  forall m k, 0 <= k -> nearest_even m k (half_even m k).
Proof. split; [intros b H; exact (proj1 (to_float_again b H))|exact half_even_nearest]. Qed.
