(** The texts of a document of the Java port, once compiled. *)
From Verif Require Import PyBase PyBaseFacts Model_Text Model_Heap Model_Layer Model_Types Model_Msgpack Model_Document Model_Codec Model_JUnits Model_JLayer Model_JStream Model_JText Model_JCodec Model_JEncode
  Spec_Layer Spec_Types Spec_Msgpack Spec_Document Spec_Codec Spec_JText Spec_JUnits Spec_JCodec Spec_JEncode
  Proof_Text Proof_Msgpack Proof_Layout Proof_Codec Proof_Codec2 Proof_JText Proof_JText2 Proof_JText3 Proof_JUnits Proof_JCodec Proof_JCodec2 Proof_JEncode.
Local Open Scope Z_scope.
Local Arguments s : simpl never.

Lemma hand_out_spec l : forall t t' q, jt_ok t -> Forall (fun r => 0 <= fst r <= zlen (jt_text t) /\ 0 <= snd r <= zlen (jt_text t)) l -> hand_out t l = (t', q) ->
  jt_ok t' /\ jt_text t' = jt_text t /\ (jt_next t <= jt_next t')%nat /\ (forall o, (o < jt_next t)%nat -> jt_obj t' o = jt_obj t o) /\ (forall o, entered t o -> entered t' o) /\
  Forall (current t') q /\ map (range_of t') q = l.
Proof.
  induction l as [|[a b] l IH]; intros t t' q [W R] F H; cbn [hand_out] in H.
  - injection H as <- <-. split; [split; assumption|]. repeat split; auto.
  - inversion F as [|? ? [Fa Fb] F']; subst. cbn [fst snd] in *.
    destruct (jt_place t a) as [t1 x] eqn:E1. destruct (place_spec _ _ _ _ W E1) as (W1&P1&P2&P3&P4&P5&P6&P7&P8&P9&P10).
    destruct (jt_place t1 b) as [t2 y] eqn:E2. destruct (place_spec _ _ _ _ W1 E2) as (W2&Q1&Q2&Q3&Q4&Q5&Q6&Q7&Q8&Q9&Q10).
    destruct (hand_out t2 l) as [t3 q'] eqn:E3. injection H as <- <-. pose proof (entered_lt _ _ W1 P1) as Lx. pose proof (entered_lt _ _ W2 Q1) as Ly.
    assert (X2 : jt_text t2 = jt_text t) by congruence.
    assert (R2 : in_range t2).
    { intros p o Hp. rewrite X2. apply Q8 in Hp. destruct Hp as [Hp|[-> _]]; [|assumption]. apply P8 in Hp. destruct Hp as [Hp|[-> _]]; [|assumption]. apply (R _ _ Hp). }
    destruct (IH t2 t3 q' (conj W2 R2)) as (O3 & T3 & N3 & B3 & C3 & D3 & M3); [rewrite X2; exact F'|exact E3|].
    assert (Ex : entered t2 x) by (unfold entered; rewrite Q6 by assumption; apply Q8; left; exact P1).
    split; [assumption|]. split; [congruence|]. split; [lia|]. split; [intros o Ho; rewrite B3 by lia; rewrite Q6 by lia; apply P6; assumption|]. split.
    + intros o Ho. apply C3. pose proof (entered_lt _ _ W Ho) as L. unfold entered. rewrite Q6 by lia. rewrite P6 by assumption. apply Q8. left. apply P8. left. exact Ho.
    + split; [constructor; [split; cbn [fst snd]; apply C3; assumption|assumption]|]. cbn [map]. rewrite M3. f_equal. unfold range_of, js_start, js_stop. cbn [fst snd].
      rewrite !B3 by lia. rewrite Q2. rewrite Q6 by assumption. rewrite P2. reflexivity.
Qed.
Lemma firstn_concat_map i (xs : list pystr) : List.concat (firstn i (map utf16 xs)) = utf16 (List.concat (firstn i xs)).
Proof. rewrite firstn_map. rewrite utf16_concat. reflexivity. Qed.
Lemma concat_firstn_prefix i (xs : list pystr) : List.concat (firstn i xs) = firstn (length (List.concat (firstn i xs))) (List.concat xs).
Proof.
  assert (E : List.concat xs = List.concat (firstn i xs) ++ List.concat (skipn i xs)) by (rewrite <- concat_app, firstn_skipn; reflexivity).
  rewrite E. rewrite firstn_app, Nat.sub_diag, firstn_all, firstn_O, app_nil_r. reflexivity.
Qed.
(** a number that names a position in units names the position in code points *)
Lemma names_offset xs i p : 0 <= p <= zlen (List.concat xs) -> names (map utf16 xs) i (upos (List.concat xs) p) (utf16 (List.concat xs)) ->
  0 <= i <= zlen xs /\ nth_error (seg_offsets 0 xs) (Z.to_nat i) = Some p.
Proof.
  intros Hp [Hi E]. rewrite zlen_map in Hi. split; [exact Hi|]. rewrite seg_offsets_at by (unfold zlen in Hi; lia). f_equal. rewrite Z.add_0_l.
  rewrite firstn_concat_map in E. set (y := List.concat (firstn (Z.to_nat i) xs)) in *. set (x := List.concat xs) in *.
  assert (Py : y = firstn (length y) x) by apply concat_firstn_prefix.
  assert (Ly : zlen y <= zlen x) by (apply (f_equal (@length N)) in Py; rewrite firstn_length in Py; unfold zlen; lia).
  apply (upos_eq x). assert (U : upos x (zlen y) = zlen (utf16 y)) by (rewrite upos_in by (split; [apply zlen_nonneg|exact Ly]); unfold zlen at 2; rewrite Nat2Z.id, <- Py; reflexivity).
  etransitivity; [exact U|]. etransitivity; [apply f_equal; exact E|].
  assert (Lp : 0 <= upos x p <= zlen (utf16 x)).
  { rewrite <- (upos_len x), <- (upos_0 x). split; [destruct (Z.eq_dec p 0) as [->|]; [lia|]|destruct (Z.eq_dec p (zlen x)) as [->|]; [lia|]];
      apply Z.lt_le_incl; apply upos_lt; lia. }
  unfold zlen. rewrite firstn_length. unfold zlen in Lp. lia.
Qed.
Lemma ends_In p l : In p (ends l) <-> exists r, In r l /\ (p = fst r \/ p = snd r).
Proof. unfold ends. rewrite in_flat_map. split; intros (r & Hr & H); exists r; (split; [assumption|]); simpl in *; intuition. Qed.
(** one text *)
Lemma jcut_spec c x l0 : Forall scalar x -> Forall (fun r => 0 <= fst r <= zlen x /\ 0 <= snd r <= zlen x) l0 ->
  exists t xs, jcut c (utf16 x) (map (pair_units x) l0) = Ok (t, map utf16 xs) /\ xs = cut_text x (ends l0) /\ List.concat xs = x /\
    forall p, In p (ends l0) -> exists o i, zget (jt_map t) (upos x p) = Some o /\ o_num (jt_obj t o) = i /\ 0 <= i <= zlen xs /\ nth_error (seg_offsets 0 xs) (Z.to_nat i) = Some p.
Proof.
  intros Sx F. unfold jcut. destruct (hand_out (jt_new c (utf16 x)) (map (pair_units x) l0)) as [t q] eqn:E.
  assert (Bd : forall p, 0 <= p <= zlen x -> 0 <= upos x p <= zlen (utf16 x)).
  { intros p Hp. rewrite <- (upos_len x), <- (upos_0 x). split; [destruct (Z.eq_dec p 0) as [->|]; [lia|]|destruct (Z.eq_dec p (zlen x)) as [->|]; [lia|]]; apply Z.lt_le_incl; apply upos_lt; lia. }
  assert (Fl : Forall (fun r => 0 <= fst r <= zlen (jt_text (jt_new c (utf16 x))) /\ 0 <= snd r <= zlen (jt_text (jt_new c (utf16 x)))) (map (pair_units x) l0)).
  { apply Forall_forall. intros r Hr. apply in_map_iff in Hr. destruct Hr as (r0 & <- & Hr). apply (Forall_In _ _ _ F) in Hr. unfold pair_units. cbn [jt_new jt_text fst snd]. split; apply Bd; apply Hr. }
  destruct (hand_out_spec _ _ _ _ (jt_new_ok c (utf16 x)) Fl E)
    as (O & Tx & _ & _ & _ & Cu & Mr). cbn [jt_new jt_text] in Tx.
  destruct (prepare_spec t q O) as (t' & parts & Ep & Hparts & Hc & _ & Hpos & Hn & _ & O' & _ & Tx' & _ & Hnext & He). rewrite Ep.
  assert (Kc : known_cuts t q = map (upos x) (ends l0)) by (rewrite known_cuts_current by assumption; rewrite <- ends_cut, Mr; apply ends_units).
  assert (Fe : Forall (fun o => 0 <= o <= zlen x) (ends l0)).
  { apply Forall_forall. intros p Hp. apply ends_In in Hp. destruct Hp as (r & Hr & [->| ->]); apply (Forall_In _ _ _ F) in Hr; apply Hr. }
  rewrite Tx, Kc, cut_units in Hparts by exact Fe. exists t', (cut_text x (ends l0)). rewrite <- Hparts. split; [reflexivity|]. split; [reflexivity|].
  assert (Cc : List.concat (cut_text x (ends l0)) = x).
  { destruct x as [|c0 x]; [reflexivity|]. destruct (segmentation (c0 :: x) (ends l0) Fe) as [S1 _]. exact S1. }
  split; [exact Cc|]. intros p Hp.
  assert (Ho : exists o, In o (used q) /\ o_pos (jt_obj t o) = upos x p).
  { assert (I : In (upos x p) (cut_at t q)) by (rewrite <- ends_cut, Mr, ends_units; apply in_map; assumption). unfold cut_at in I. apply in_map_iff in I. destruct I as (o & Eo & Io). exists o. auto. }
  destruct Ho as (o & Uo & Po). pose proof (used_current t q o Cu Uo) as Eo. pose proof (entered_lt _ _ (proj1 O) Eo) as Lo.
  exists o, (o_num (jt_obj t' o)). assert (Eo' : entered t' o) by (apply He; auto).
  pose proof (proj1 (entered_zget t' o (proj1 O')) Eo') as Z1. rewrite Hpos, Po in Z1 by assumption. split; [exact Z1|]. split; [reflexivity|].
  pose proof (Hn o Eo Uo) as Nm. rewrite Po, Hparts, Tx in Nm. apply (names_offset (cut_text x (ends l0))); rewrite Cc; [|exact Nm]. apply (Forall_In _ _ _ Fe Hp).
Qed.

(** ** the document *)
Lemma mapM_Forall2' {A B} (f : A -> res B) l m : mapM f l = Ok m -> Forall2 (fun x y => f x = Ok y) l m.
Proof. apply mapM_Forall2. Qed.
Lemma row_spans_In fs row l : row_spans fs row = Ok l ->
  (forall c r, In (c, r) l -> exists f t, In (f, t) fs /\ dget row f = Some (JSpan c (fst r) (snd r))) /\
  (forall f t c a b, In (f, t) fs -> is_span_field t = true -> dget row f = Some (JSpan c a b) -> In (c, (a, b)) l).
Proof.
  revert l. induction fs as [|[f t] fs IH]; intros l H; cbn [row_spans] in H; [apply Ok_inj in H; subst l; split; [intros c r []|intros f t c a b []]|].
  destruct (if is_span_field t then _ else _) as [here|] eqn:Eh; [|discriminate]. cbn [rbind] in H. destruct (row_spans fs row) as [q|]; [|discriminate]. cbn [rbind] in H. apply Ok_inj in H. subst l.
  destruct (IH q eq_refl) as [I1 I2]. split.
  - intros c r Hin. apply in_app_or in Hin. destruct Hin as [Hin|Hin]; [|destruct (I1 c r Hin) as (g & u & Hg & Eg); exists g, u; split; [right|]; assumption].
    destruct (is_span_field t); [|apply Ok_inj in Eh; subst here; destruct Hin]. destruct (dget row f) as [v|] eqn:Ev; [|apply Ok_inj in Eh; subst here; destruct Hin].
    destruct v; try discriminate. apply Ok_inj in Eh. subst here. destruct Hin as [Hin|[]]. injection Hin as <- <-. exists f, t. split; [left; reflexivity|exact Ev].
  - intros g u c a b Hg Hs Ev. apply in_or_app. destruct Hg as [Hg|Hg]; [|right; eapply I2; eassumption]. injection Hg as <- <-. rewrite Hs, Ev in Eh. apply Ok_inj in Eh. subst here. left. left. reflexivity.
Qed.
Lemma all_spans_In j l : all_spans j = Ok l ->
  (forall c r, In (c, r) l -> exists k fs rows row f t, In (k, (fs, rows)) (jd_layers j) /\ In row rows /\ In (f, t) fs /\ dget row f = Some (JSpan c (fst r) (snd r))) /\
  (forall k fs rows row f t c a b, In (k, (fs, rows)) (jd_layers j) -> In row rows -> In (f, t) fs -> is_span_field t = true -> dget row f = Some (JSpan c a b) -> In (c, (a, b)) l).
Proof.
  unfold all_spans. destruct (mapM _ (jd_layers j)) as [ll|] eqn:E; [|discriminate]. cbn [rbind]. intros H. apply Ok_inj in H. subst l. apply mapM_Forall2' in E. split.
  - intros c r Hin. apply in_concat in Hin. destruct Hin as (y & Hy & Hin). apply In_nth_error in Hy. destruct Hy as [i Hi].
    destruct (Forall2_nth _ _ _ _ _ (Forall2_flip _ _ _ E) Hi) as ([k [fs rows]] & Hk & Ek). cbn [fst snd] in Ek. destruct (mapM (row_spans fs) rows) as [rr|] eqn:Er; [|discriminate]. cbn [rbind] in Ek. apply Ok_inj in Ek. subst y.
    apply in_concat in Hin. destruct Hin as (z & Hz & Hin). apply mapM_Forall2' in Er. apply In_nth_error in Hz. destruct Hz as [n Hn]. destruct (Forall2_nth _ _ _ _ _ (Forall2_flip _ _ _ Er) Hn) as (row & Hr & Err).
    destruct (proj1 (row_spans_In _ _ _ Err) c r Hin) as (f & t & Hf & Ev). exists k, fs, rows, row, f, t. repeat split; try assumption; eapply nth_error_In; eassumption.
  - intros k fs rows row f t c a b Hk Hr Hf Hs Ev. apply In_nth_error in Hk. destruct Hk as [i Hi]. destruct (Forall2_nth _ _ _ _ _ E Hi) as (y & Hy & Ey). cbn [fst snd] in Ey.
    destruct (mapM (row_spans fs) rows) as [rr|] eqn:Er; [|discriminate]. cbn [rbind] in Ey. apply Ok_inj in Ey. subst y. apply in_concat. exists (List.concat rr). split; [eapply nth_error_In; exact Hy|].
    apply mapM_Forall2' in Er. apply In_nth_error in Hr. destruct Hr as [n Hn]. destruct (Forall2_nth _ _ _ _ _ Er Hn) as (z & Hz & Ez). apply in_concat. exists z. split; [eapply nth_error_In; exact Hz|].
    eapply (proj2 (row_spans_In _ _ _ Ez)); eassumption.
Qed.
Lemma spans_in_In c l r : In r (spans_in c l) <-> In (c, r) l.
Proof.
  unfold spans_in. rewrite in_map_iff. split.
  - intros ([k r'] & <- & H). apply filter_In in H. destruct H as [H E]. apply str_eqb_eq in E. cbn [fst snd] in *. subst k. assumption.
  - intros H. exists (c, r). split; [reflexivity|]. apply filter_In. split; [assumption|]. apply str_eqb_refl.
Qed.
Lemma holds_same j c x y : holds_text j c x -> holds_text j c y -> x = y.
Proof. intros [E1 S1] [E2 S2]. rewrite <- (from_utf16 x S1), <- (from_utf16 y S2). congruence. Qed.
(** what is known of a compiled text *)
Definition cut_well (j : jdoc) (kT : pystr * (jtext * list (list N))) (ku : pystr * list N) : Prop :=
  fst kT = fst ku /\ exists x xs, holds_text j (fst ku) x /\ snd ku = utf16 x /\ snd (snd kT) = map utf16 xs /\ List.concat xs = x /\
    forall k fs rows row f t a b, In (k, (fs, rows)) (jd_layers j) -> In row rows -> In (f, t) fs -> dget row f = Some (JSpan (fst ku) (upos x a) (upos x b)) -> 0 <= a <= zlen x -> 0 <= b <= zlen x ->
      forall p, p = a \/ p = b -> exists o i, zget (jt_map (fst (snd kT))) (upos x p) = Some o /\ o_num (jt_obj (fst (snd kT)) o) = i /\ 0 <= i <= zlen xs /\ nth_error (seg_offsets 0 xs) (Z.to_nat i) = Some p.
Lemma compiled j T : jdoc_ok j -> jcompile j = Ok T -> Forall2 (cut_well j) T (jd_texts j).
Proof.
  intros D H. unfold jcompile in H. destruct (all_spans j) as [l|] eqn:El; [|discriminate]. cbn [rbind] in H. apply mapM_Forall2' in H. destruct (all_spans_In j l El) as [S1 S2].
  apply Forall2_flip. destruct (jk_texts j D) as [ND Hx]. 
  assert (G : forall ts T', incl ts (jd_texts j) -> Forall2 (fun kt y => (let* x := jcut (fst kt) (snd kt) (spans_in (fst kt) l) in Ok (fst kt, x)) = Ok y) ts T' -> Forall2 (fun ku kT => cut_well j kT ku) ts T').
  { intros ts T' I F. induction F as [|[c u] [c' w] ts T' E F IH]; constructor; [|apply IH; intros z Hz; apply I; right; assumption].
    cbn [fst snd] in E. assert (Hin : In (c, u) (jd_texts j)) by (apply I; left; reflexivity). destruct (Hx c u Hin) as (x & Hh). pose proof Hh as [Ec Sx].
    assert (u = utf16 x) by (rewrite (dget_nodup _ _ _ ND Hin) in Ec; congruence). subst u.
    assert (Typed : forall k fs rows row f t a b, In (k, (fs, rows)) (jd_layers j) -> In row rows -> In (f, t) fs -> dget row f = Some (JSpan c a b) ->
       is_span_field t = true /\ exists p q, 0 <= p <= q /\ q <= zlen x /\ a = upos x p /\ b = upos x q).
    { intros k fs rows row f t a b Hk Hr Hf Ev. pose proof (jk_values j D k fs rows row f t _ Hk Hr Hf Ev) as Ty. inversion Ty as [| | | | | | |c0 x0 p q Ht Ha Hh' Hp Hq| | |]; subst.
      split; [unfold is_span_field; rewrite Ht; reflexivity|]. pose proof (holds_same _ _ _ _ Hh Hh'). subst x0. exists p, q. auto. }
    assert (Ch : exists l0, spans_in c l = map (pair_units x) l0 /\ Forall (fun r => 0 <= fst r <= zlen x /\ 0 <= snd r <= zlen x) l0).
    { assert (Al : forall r, In r (spans_in c l) -> exists r0, r = pair_units x r0 /\ 0 <= fst r0 <= zlen x /\ 0 <= snd r0 <= zlen x).
      { intros r Hr. apply spans_in_In in Hr. destruct (S1 c r Hr) as (k & fs & rows & row & f & t & Hk & Hrow & Hf & Ev). destruct (Typed _ _ _ _ _ _ _ _ Hk Hrow Hf Ev) as (_ & p & q & Hp & Hq & Ea & Eb).
        exists (p, q). unfold pair_units. cbn [fst snd]. rewrite <- Ea, <- Eb. split; [destruct r; reflexivity|]. lia. }
      clear - Al. induction (spans_in c l) as [|r rs IH]; [exists []; split; [reflexivity|constructor]|]. destruct IH as (l0 & E0 & F0); [intros y Hy; apply Al; right; assumption|].
      destruct (Al r (or_introl eq_refl)) as (r0 & -> & Hr0). exists (r0 :: l0). split; [cbn [map]; congruence|constructor; assumption]. }
    destruct Ch as (l0 & El0 & Fl0). destruct (jcut_spec c x l0 Sx Fl0) as (t & xs & Ecut & _ & Cx & Hn). rewrite El0, Ecut in E. cbn [rbind] in E. apply Ok_inj in E. injection E as <- <-.
    split; [reflexivity|]. exists x, xs. cbn [fst snd]. repeat (split; [assumption || reflexivity|]). intros k fs rows row f ty a b Hk Hr Hf Ev Ha Hb p Hp.
    apply Hn. destruct (Typed _ _ _ _ _ _ _ _ Hk Hr Hf Ev) as (Hs & _). pose proof (S2 _ _ _ _ _ _ _ _ _ Hk Hr Hf Hs Ev) as Hl. apply spans_in_In in Hl. rewrite El0 in Hl. apply in_map_iff in Hl.
    destruct Hl as (r0 & E0 & Hr0). unfold pair_units in E0. injection E0 as E1 E2. apply upos_eq in E1. apply upos_eq in E2. apply ends_In. exists r0. split; [assumption|]. destruct Hp as [->| ->]; [left|right]; congruence. }
  apply (G _ _ (incl_refl _) H).
Qed.
(** the parts as the Python port would see them *)
Lemma from_units_parts (xs : list pystr) : Forall scalar (List.concat xs) -> map from_units (map utf16 xs) = xs.
Proof.
  induction xs as [|x xs IH]; intros F; [reflexivity|]. cbn [List.concat] in F. apply Forall_app in F. destruct F as [F1 F2]. cbn [map]. rewrite from_utf16 by assumption. rewrite IH by assumption. reflexivity.
Qed.
Lemma parts_known j T c x : jdoc_ok j -> jcompile j = Ok T -> holds_text j c x -> exists t xs, dget T c = Some (t, map utf16 xs) /\ dget (parts_of T) c = Some xs /\ List.concat xs = x /\
    forall k fs rows row f ty a b, In (k, (fs, rows)) (jd_layers j) -> In row rows -> In (f, ty) fs -> dget row f = Some (JSpan c (upos x a) (upos x b)) -> 0 <= a <= zlen x -> 0 <= b <= zlen x ->
      forall p, p = a \/ p = b -> 0 <= number_of T c (upos x p) <= zlen xs /\ nth_error (seg_offsets 0 xs) (Z.to_nat (number_of T c (upos x p))) = Some p.
Proof.
  intros D H Hh. pose proof (compiled j T D H) as F. pose proof Hh as [Ex Sx]. 
  destruct (dget_Forall2 (fun c u tp => cut_well j (c, tp) (c, u)) (jd_texts j) T) with (k := c) (v := utf16 x) as ([t parts] & Et & _ & x' & xs & Hh' & Eu & Ep & Ec & Hn); [|exact Ex|].
  { eapply Forall2_impl'; [apply Forall2_flip; exact F|]. intros [c1 u] [c2 tp] _ [E1 E2]. cbn [fst snd] in *. subst c2. split; [reflexivity|split; [reflexivity|exact E2]]. }
  cbn [fst snd] in *. destruct (holds_same _ _ _ _ Hh Hh'). subst parts. exists t, xs. split; [exact Et|]. split; [|split; [assumption|]].
  - clear - Et Ec Sx. unfold parts_of. induction T as [|[k w] T IH]; cbn [dget map fst snd] in *; [discriminate|]. destruct (str_eqb c k); [injection Et as ->; cbn [snd]; rewrite from_units_parts by (rewrite Ec; exact Sx); reflexivity|apply IH; assumption].
  - intros k fs rows row f ty a b Hk Hr Hf Ev Ha Hb p Hp. destruct (Hn _ _ _ _ _ _ _ _ Hk Hr Hf Ev Ha Hb p Hp) as (o & i & Eo & Ei & Hi & Ni). unfold number_of, jnumber. rewrite Et. cbn [fst snd]. rewrite Eo, Ei. auto.
Qed.
Lemma parts_keys j T : jdoc_ok j -> jcompile j = Ok T -> dkeys (parts_of T) = dkeys (jd_texts j).
Proof.
  intros D H. pose proof (compiled j T D H) as F. unfold parts_of, dkeys. rewrite map_map. cbn [fst]. clear - F. induction F as [|kT ku T ts [E _] F IH]; [reflexivity|]. cbn [map]. congruence.
Qed.
