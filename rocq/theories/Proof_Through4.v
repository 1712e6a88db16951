(** The texts of a document of the Java port are cut at the ends of its spans. *)
From Coq Require Import Sorted.
From Verif Require Import PyBase PyBaseFacts Model_Text Model_Heap Model_Layer Model_Types Model_Msgpack Model_Document Model_Codec Model_JUnits Model_JLayer Model_JStream Model_JText Model_JCodec Model_JEncode
  Spec_Layer Spec_Types Spec_Msgpack Spec_Document Spec_Codec Spec_JText Spec_JUnits Spec_JCodec Spec_JEncode
  Proof_Text Proof_Msgpack Proof_Layout Proof_Codec Proof_Codec2 Proof_JText Proof_JText2 Proof_JText3 Proof_JUnits Proof_JCodec Proof_JCodec2 Proof_JEncode Proof_JEncode2 Proof_Through3.
Local Open Scope Z_scope.
Local Arguments s : simpl never.

(** a span of the document starts or ends at position p (in characters) of the text x called c *)
Definition end_of (j : jdoc) (c x : pystr) (p : Z) : Prop := exists k fs rows row f t a b, In (k, (fs, rows)) (jd_layers j) /\ In row rows /\ In (f, t) fs /\
  dget row f = Some (JSpan c (upos x a) (upos x b)) /\ 0 <= a <= b /\ b <= zlen x /\ (p = a \/ p = b).
Definition cut_exactly (j : jdoc) (ku : pystr * list N) (kT : pystr * (jtext * list (list N))) : Prop :=
  fst kT = fst ku /\ exists x cuts, holds_text j (fst ku) x /\ snd ku = utf16 x /\ snd (snd kT) = map utf16 (cut_text x cuts) /\ forall p, In p cuts <-> end_of j (fst ku) x p.
Lemma row_spans_ok j k fs rows row gs : jdoc_ok j -> In (k, (fs, rows)) (jd_layers j) -> In row rows -> incl gs fs -> exists l, row_spans gs row = Ok l.
Proof.
  intros D Ik Ir. induction gs as [|[f t] gs IH]; intros I; [exists []; reflexivity|]. destruct IH as [q Eq]; [intros y Hy; apply I; right; assumption|]. cbn [row_spans]. rewrite Eq.
  destruct (is_span_field t) eqn:Et; [|eexists; reflexivity]. destruct (dget row f) as [v|] eqn:Ev; [|eexists; reflexivity].
  pose proof (jk_values j D _ _ _ _ _ _ _ Ik Ir (I _ (or_introl eq_refl)) Ev) as V. unfold is_span_field in Et. inversion V as [? E|? E|? E|? E|? E|? E|? ? E|? ? ? ? E|? ? E|? ? E|? ? ? E]; subst; rewrite E in Et; try discriminate. eexists; reflexivity.
Qed.
Lemma all_spans_ok j : jdoc_ok j -> exists l, all_spans j = Ok l.
Proof.
  intros D. unfold all_spans. destruct (mapM_some (fun kl => let* rows := mapM (row_spans (fst (snd kl))) (snd (snd kl)) in Ok (List.concat rows)) (jd_layers j)) as [r Er]; [|rewrite Er; eexists; reflexivity].
  intros [k [fs rows]] Ik. cbn [fst snd]. destruct (mapM_some (row_spans fs) rows) as [q Eq]; [|rewrite Eq; eexists; reflexivity]. intros row Ir. eapply row_spans_ok; [exact D|exact Ik|exact Ir|apply incl_refl].
Qed.
Lemma typed_span j : jdoc_ok j -> forall c x, holds_text j c x -> forall k fs rows row f t a b, In (k, (fs, rows)) (jd_layers j) -> In row rows -> In (f, t) fs -> dget row f = Some (JSpan c a b) ->
  is_span_field t = true /\ exists p q, 0 <= p <= q /\ q <= zlen x /\ a = upos x p /\ b = upos x q.
Proof.
  intros D c x Hh k fs rows row f t a b Hk Hr Hf Ev. pose proof (jk_values j D k fs rows row f t _ Hk Hr Hf Ev) as Ty. inversion Ty as [| | | | | | |c0 x0 p q Ht Ha Hh' Hp Hq| | |]; subst.
  split; [unfold is_span_field; rewrite Ht; reflexivity|]. pose proof (holds_same _ _ _ _ Hh Hh'). subst x0. exists p, q. auto.
Qed.
Lemma some_cut j l c x : jdoc_ok j -> all_spans j = Ok l -> In (c, utf16 x) (jd_texts j) -> holds_text j c x -> exists t cuts, jcut c (utf16 x) (spans_in c l) = Ok (t, map utf16 (cut_text x cuts)) /\ (forall p, In p cuts <-> end_of j c x p).
Proof.
  intros D El Hin Hh. destruct (all_spans_In j l El) as [S1 S2]. pose proof (typed_span j D c x Hh) as Typed.
  assert (Ch : exists l0, spans_in c l = map (pair_units x) l0 /\ Forall (fun r => 0 <= fst r <= snd r /\ snd r <= zlen x) l0).
  { assert (Al : forall r, In r (spans_in c l) -> exists r0, r = pair_units x r0 /\ 0 <= fst r0 <= snd r0 /\ snd r0 <= zlen x).
    { intros r Hr. apply spans_in_In in Hr. destruct (S1 c r Hr) as (k & fs & rows & row & f & t & Hk & Hrow & Hf & Ev). destruct (Typed _ _ _ _ _ _ _ _ Hk Hrow Hf Ev) as (_ & p & q & Hp & Hq & Ea & Eb).
      exists (p, q). unfold pair_units. cbn [fst snd]. rewrite <- Ea, <- Eb. split; [destruct r; reflexivity|]. lia. }
    clear - Al. induction (spans_in c l) as [|r rs IH]; [exists []; split; [reflexivity|constructor]|]. destruct IH as (l0 & E0 & F0); [intros y Hy; apply Al; right; assumption|].
    destruct (Al r (or_introl eq_refl)) as (r0 & -> & Hr0). exists (r0 :: l0). split; [cbn [map]; congruence|constructor; assumption]. }
  destruct Ch as (l0 & El0 & Fl0). assert (Fl1 : Forall (fun r => 0 <= fst r <= zlen x /\ 0 <= snd r <= zlen x) l0) by (eapply Forall_impl; [|exact Fl0]; cbn beta; intros; lia).
  destruct (jcut_spec c x l0 (proj2 Hh) Fl1) as (t & xs & Ecut & -> & _). exists t, (ends l0). rewrite El0, Ecut. split; [reflexivity|]. intros p. rewrite ends_In. split.
  - intros (r & Hr & Hp). assert (Hl : In (pair_units x r) (spans_in c l)) by (rewrite El0; apply in_map; assumption). apply spans_in_In in Hl. destruct (S1 _ _ Hl) as (k & fs & rows & row & f & ty & Hk & Hrow & Hf & Ev).
    apply (Forall_In _ _ _ Fl0) in Hr. exists k, fs, rows, row, f, ty, (fst r), (snd r). unfold pair_units in Ev. cbn [fst snd] in Ev. tauto.
  - intros (k & fs & rows & row & f & ty & a & b & Hk & Hrow & Hf & Ev & Ha & Hb & Hp). destruct (Typed _ _ _ _ _ _ _ _ Hk Hrow Hf Ev) as (Hs & _). pose proof (S2 _ _ _ _ _ _ _ _ _ Hk Hrow Hf Hs Ev) as Hl.
    apply spans_in_In in Hl. rewrite El0 in Hl. apply in_map_iff in Hl. destruct Hl as (r0 & E0 & Hr0). unfold pair_units in E0. injection E0 as E1 E2. apply upos_eq in E1. apply upos_eq in E2. exists r0. split; [assumption|]. destruct Hp as [->| ->]; [left|right]; congruence.
Qed.
Theorem compiles j : jdoc_ok j -> exists T, jcompile j = Ok T /\ Forall2 (cut_exactly j) (jd_texts j) T.
Proof.
  intros D. destruct (all_spans_ok j D) as [l El]. unfold jcompile. rewrite El. cbn [rbind]. destruct (jk_texts j D) as [ND Hx].
  assert (G : forall ts, incl ts (jd_texts j) -> exists T, mapM (fun kt => let* x := jcut (fst kt) (snd kt) (spans_in (fst kt) l) in Ok (fst kt, x)) ts = Ok T /\ Forall2 (cut_exactly j) ts T).
  { induction ts as [|[c u] ts IH]; intros I; [exists []; split; [reflexivity|constructor]|]. destruct IH as (T & ET & FT); [intros z Hz; apply I; right; assumption|].
    assert (Hin : In (c, u) (jd_texts j)) by (apply I; left; reflexivity). destruct (Hx c u Hin) as (x & Hh). assert (u = utf16 x) by (pose proof (proj1 Hh) as E; rewrite (dget_nodup _ _ _ ND Hin) in E; congruence). subst u.
    destruct (some_cut j l c x D El Hin Hh) as (t & cuts & Ecut & Hc). exists ((c, (t, map utf16 (cut_text x cuts))) :: T). cbn [mapM fst snd]. rewrite Ecut. cbn [rbind]. rewrite ET. split; [reflexivity|]. constructor; [|exact FT].
    split; [reflexivity|]. exists x, cuts. cbn [fst snd]. auto. }
  apply G. apply incl_refl.
Qed.
Theorem numbered j T : jdoc_ok j -> jcompile j = Ok T -> all_numbered T j.
Proof.
  intros D E k fs rows row f t c a b Ik Ir If Ev. pose proof (jk_values j D k fs rows row f t _ Ik Ir If Ev) as Ty. inversion Ty as [| | | | | | |c0 x p q Ht Ha Hh Hp Hq| | |]; subst.
  pose proof (compiled j T D E) as F.
  destruct (dget_Forall2 (fun c u tp => cut_well j (c, tp) (c, u)) (jd_texts j) T) with (k := c) (v := utf16 x) as ([t0 parts] & Et & _ & x' & xs & Hh' & Eu & Ep & Ec & Hn); [|exact (proj1 Hh)|].
  { eapply Forall2_impl'; [apply Forall2_flip; exact F|]. intros [c1 u] [c2 tp] _ [E1 E2]. cbn [fst snd] in *. subst c2. split; [reflexivity|split; [reflexivity|exact E2]]. }
  cbn [fst snd] in *. pose proof (holds_same _ _ _ _ Hh Hh') as <-. assert (Bp : 0 <= p <= zlen x) by lia. assert (Bq : 0 <= q <= zlen x) by lia. pose proof (Hn _ _ _ _ _ _ _ _ Ik Ir If Ev Bp Bq) as G. unfold jnumber. rewrite Et.
  split; [destruct (G p (or_introl eq_refl)) as (o & i & Eo & _)|destruct (G q (or_intror eq_refl)) as (o & i & Eo & _)]; rewrite Eo; eexists; reflexivity.
Qed.
(** what is written, exactly *)
Theorem java_writes j bytes : jdoc_ok j -> (java_encode j = Ok bytes <-> exists T, jcompile j = Ok T /\ layout (edoc_of T j) = Ok bytes /\ zlen bytes < 2147483648).
Proof.
  intros D. split.
  - apply java_layout; [apply (jk_props j D)|]. intros k fs rows row f t c a b Ik Ir If Ev. pose proof (jk_values j D _ _ _ _ _ _ _ Ik Ir If Ev) as V. unfold is_span_field. inversion V as [| | | | | | |? ? ? ? E| | |]; subst. rewrite E. reflexivity.
  - intros (T & E1 & E2 & E3). eapply layout_written; try eassumption. apply numbered; assumption.
Qed.
(** ** sorted offsets *)
Lemma sorted_ext (l : list Z) : forall m, StronglySorted Z.lt l -> StronglySorted Z.lt m -> (forall x, In x l <-> In x m) -> l = m.
Proof.
  induction l as [|x l IH]; intros m Sl Sm H.
  - destruct m as [|y m]; [reflexivity|]. destruct (proj2 (H y) (or_introl eq_refl)).
  - destruct m as [|y m]; [destruct (proj1 (H x) (or_introl eq_refl))|]. inversion Sl as [|? ? Sl' Fl]; subst. inversion Sm as [|? ? Sm' Fm]; subst. rewrite Forall_forall in Fl, Fm.
    assert (x = y). { destruct (proj1 (H x) (or_introl eq_refl)) as [E|Ix]; [congruence|]. destruct (proj2 (H y) (or_introl eq_refl)) as [E|Iy]; [congruence|]. apply Fm in Ix. apply Fl in Iy. lia. }
    subst y. f_equal. apply IH; [assumption|assumption|]. intros z. split; intros Hz.
    + destruct (proj1 (H z) (or_intror Hz)) as [E|I]; [|exact I]. subst z. apply Fl in Hz. lia.
    + destruct (proj2 (H z) (or_intror Hz)) as [E|I]; [|exact I]. subst z. apply Fm in Hz. lia.
Qed.
Lemma offsets_ext x a b : (forall p, In p a <-> In p b) -> sorted_offsets x a = sorted_offsets x b.
Proof. intros H. apply sorted_ext; [apply sorted_offsets_sorted|apply sorted_offsets_sorted|]. intros p. rewrite !sorted_offsets_In, H. reflexivity. Qed.
Lemma cut_ext x a b : (forall p, In p a <-> In p b) -> cut_text x a = cut_text x b.
Proof. intros H. unfold cut_text. destruct x; [reflexivity|]. rewrite (offsets_ext _ a b H). reflexivity. Qed.
Lemma sorted_NoDup (l : list Z) : StronglySorted Z.lt l -> NoDup l.
Proof. induction 1 as [|x l S IH F]; constructor; [|assumption]. intros I. rewrite Forall_forall in F. apply F in I. lia. Qed.
(** the number of a position of a text is its place among the sorted cuts *)
Lemma number_at j T c x cuts p : jdoc_ok j -> jcompile j = Ok T -> holds_text j c x -> (forall q, In q cuts <-> end_of j c x q) -> end_of j c x p -> x <> [] ->
  dget (parts_of T) c = Some (cut_text x cuts) -> offset_id (sorted_offsets x cuts) p = Some (number_of T c (upos x p)).
Proof.
  intros D E Hh Hc Hp Nx Ep. destruct (parts_known j T c x D E Hh) as (t & xs & _ & Exs & _ & Hn). assert (xs = cut_text x cuts) by congruence. subst xs.
  destruct Hp as (k & fs & rows & row & f & ty & a & b & Ik & Ir & If & Ev & Ha & Hb & Hp).
  destruct (Hn _ _ _ _ _ _ _ _ Ik Ir If Ev ltac:(lia) ltac:(lia) p Hp) as [B N1].
  assert (Fc : Forall (fun o => 0 <= o <= zlen x) cuts). { apply Forall_forall. intros o Ho. apply Hc in Ho. destruct Ho as (?&?&?&?&?&?&a'&b'&?&?&?&?&?&?&[->| ->]); lia. }
  assert (Hin : In p (0 :: zlen x :: cuts)). { right. right. apply Hc. exists k, fs, rows, row, f, ty, a, b. tauto. }
  destruct (segmentation_ids x cuts p Fc Hin) as (i & Ei & Ni). assert (X : cut_text x cuts = text_compile x (sorted_offsets x cuts)) by (destruct x; [congruence|reflexivity]). rewrite <- X in Ni. rewrite Ei. f_equal.
  pose proof (proj2 (segmentation x cuts Fc)) as Sg. rewrite <- X in Sg. rewrite Sg in N1, Ni. pose proof (sorted_NoDup _ (sorted_offsets_sorted x cuts)) as ND.
  assert (i = Z.to_nat (number_of T c (upos x p))). { apply (proj1 (NoDup_nth_error _) ND); [apply nth_error_Some; rewrite Ni; discriminate|congruence]. } subst i. apply Z2Nat.id. lia.
Qed.
