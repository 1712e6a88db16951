(** The Java port writes what it has read from the Python port as the Python port has written it. *)
From Coq Require Import Permutation.
From Verif Require Import PyBase PyBaseFacts Model_Text Model_Heap Model_Layer Model_Types Model_Msgpack Model_Document Model_Codec Model_JUnits Model_JLayer Model_JStream Model_JText Model_JCodec Model_JEncode
  Spec_Layer Spec_Types Spec_Msgpack Spec_Document Spec_Codec Spec_JText Spec_JUnits Spec_JCodec Spec_JEncode Spec_Through
  Proof_Text Proof_Layer4 Proof_Document Proof_Msgpack Proof_Layout Proof_Codec Proof_Codec2 Proof_JText Proof_JText2 Proof_JText3 Proof_JUnits Proof_JCodec Proof_JCodec2 Proof_JEncode Proof_JEncode2 Proof_Through Proof_Through2 Proof_Through3 Proof_Through4.
Local Open Scope Z_scope.
Local Arguments s : simpl never.

Section Same.
Variables (h : heap) (d : doc) (ex tv : bool) (h1 : heap) (ed : edoc) (offsets : dict (list Z)) (j : jdoc) (T : dict (jtext * list (list N))).
Hypothesis D : doc_ok h d.
Hypothesis Ec : compile h d ex tv = (h1, Ok offsets).
Hypothesis Ft : Forall2 (fun kt ke => fst ke = fst kt /\ exists o, dget offsets (fst kt) = Some o /\ snd ke = text_compile (snd kt) o) (d_texts d) (ed_texts ed).
Hypothesis Fl : Forall2 (fun kl el => encode_layer h1 offsets kl = Ok el) (d_layers d) (ed_layers ed).
Hypothesis Ep : ed_props ed = d_props d.
Hypothesis TS : forall c x, In (c, x) (d_texts d) -> Forall scalar x.
Hypothesis NE : forall c x, In (c, x) (d_texts d) -> x <> [].
Hypothesis J : java_doc h d j.
Hypothesis Jok : jdoc_ok j.
Hypothesis ET : jcompile j = Ok T.
Hypothesis FT : Forall2 (cut_exactly j) (jd_texts j) T.

Lemma text_held c x : dget (d_texts d) c = Some x -> holds_text j c x.
Proof.
  intros E. split; [|eapply TS; eapply dget_In; exact E]. rewrite (jd_same_texts h d j J). clear - E. induction (d_texts d) as [|[k y] l IH]; [discriminate|]. cbn [map dget fst snd] in *. destruct (str_eqb c k); [congruence|auto].
Qed.
Lemma value_there k l n f t : In (k, l) (d_layers d) -> In (Some n) (layer_iter h l) -> In (f, t) (l_fields (h_layer h l)) ->
  exists fs rows row jt, In (k, (fs, rows)) (jd_layers j) /\ In row rows /\ In (f, jt) fs /\ java_value h d t (dget (n_fieldsof h n) f) (dget row f).
Proof.
  intros Il In_ If. apply In_nth_error in Il. destruct Il as [i Hi]. destruct (Forall2_nth _ _ _ _ _ (jd_same_layers h d j J) Hi) as ([k' [fs rows]] & Hj & Ek & F1 & F2 & F3 & F4). cbn [fst snd] in *. subst k'.
  assert (Et : dget (l_fields (h_layer h l)) f = Some t) by (apply dget_nodup; [apply (wf_schema h (do_wf h d D))|exact If]).
  apply In_nth_error in If. destruct If as [m Hm]. destruct (Forall2_nth _ _ _ _ _ F1 Hm) as ([f' jt] & Hm' & Ef & _). cbn [fst] in Ef. subst f'.
  apply In_nth_error in In_. destruct In_ as [p Hp]. destruct (nth_error rows p) as [row|] eqn:Er.
  2:{ exfalso. apply nth_error_None in Er. assert (p < length (layer_iter h l))%nat by (apply nth_error_Some; rewrite Hp; discriminate). lia. }
  destruct (F4 p n row Hp Er) as [V _]. exists fs, rows, row, jt. split; [eapply nth_error_In; exact Hj|]. split; [eapply nth_error_In; exact Er|]. split; [eapply nth_error_In; exact Hm'|]. exact (V f t Et).
Qed.
Lemma ends_same c x : dget (d_texts d) c = Some x -> forall p, end_of j c x p <-> doc_offset h d c p.
Proof.
  intros Ex p. split.
  - intros (k & fs & rows & row & f & jt & a & b & Ik & Ir & If & Ev & Ha & Hb & Hp). destruct (read_layer_of h d j J k _ Ik) as (l & Il & F1 & F2 & F3 & F4). cbn [fst snd] in *.
    apply In_nth_error in If. destruct If as [m Hm]. destruct (Forall2_nth _ _ _ _ _ (Forall2_flip (fun fj ft => fst fj = fst ft /\ java_type (snd ft) (snd fj)) _ _ F1) Hm) as ([f' t] & Hm' & Ef & _). cbn [fst snd] in *. subst f'.
    apply nth_error_In in Hm'. assert (Et : dget (l_fields (h_layer h l)) f = Some t) by (apply dget_nodup; [apply (wf_schema h (do_wf h d D))|exact Hm']).
    apply In_nth_error in Ir. destruct Ir as [q Hq]. assert (Lq : (q < length (layer_iter h l))%nat) by (rewrite <- F2; apply nth_error_Some; rewrite Hq; discriminate).
    destruct (iter_nth h d D l q Lq) as [n Hn]. destruct (F4 q n row Hn Hq) as [V _]. specialize (V f t Et). rewrite Ev in V. inversion V as [| | | | | | | | |c' txt a' b' Tn Ea Eb| | | | | ]; subst.
    assert (Hdn : doc_node h d k l n) by (split; [exact Il|eapply nth_error_In; exact Hn]). assert (Hv : dget (n_fieldsof h n) f = Some (VSpan c txt a' b')) by congruence.
    pose proof (do_values h d D k l n f _ t Hdn Hv Et) as K. inversion K as [| | | | | | |? ? ? ? K1 K2 K3 K4| | | |]; subst. assert (txt = x) by congruence. subst txt.
    match goal with E1 : upos x a' = upos x a |- _ => apply upos_eq in E1; subst a' end. match goal with E1 : upos x b' = upos x b |- _ => apply upos_eq in E1; subst b' end.
    exists k, l. split; [exact Il|]. exists n, f, t, c, x, a, b. split; [exact (proj2 Hdn)|]. split; [exact Hm'|]. split; [exact K1|]. split; [exact Hv|exact Hp].
  - intros (k & l & Il & n & f & t & tn & tx & a & b & Hn & Hf & Ht & Hv & Hx).
    assert (Et : dget (l_fields (h_layer h l)) f = Some t) by (apply dget_nodup; [apply (wf_schema h (do_wf h d D))|exact Hf]).
    pose proof (do_values h d D k l n f _ t (conj Il Hn) Hv Et) as K. inversion K as [| | | | | | |? ? ? ? K1 K2 K3 K4| | | |]; subst.
    assert (tn = c) by (destruct Ht as [_ Ht]; destruct K1 as [_ K1]; congruence). subst tn. assert (tx = x) by congruence. subst tx.
    destruct (value_there k l n f t Il Hn Hf) as (fs & rows & row & jt & Ik & Ir & If & V). rewrite Hv in V. inversion V; subst.
    exists k, fs, rows, row, f, jt, a, b. split; [exact Ik|]. split; [exact Ir|]. split; [exact If|]. split; [congruence|]. split; [lia|]. split; [lia|exact Hx].
Qed.
Lemma text_same c x : dget (d_texts d) c = Some x -> exists cuts, dget offsets c = Some (sorted_offsets x cuts) /\ (forall p, In p cuts <-> end_of j c x p) /\ dget (parts_of T) c = Some (cut_text x cuts).
Proof.
  intros Ex. pose proof (text_held c x Ex) as Hh. destruct (compile_offsets h d ex tv h1 offsets (do_wf h d D) (do_known h d D) Ec) as [_ Ho]. destruct (Ho c x Ex) as (q & Eq & Hq).
  destruct (dget_Forall2 (fun c u tp => cut_exactly j (c, u) (c, tp)) (jd_texts j) T) with (k := c) (v := utf16 x) as ([t0 parts] & Et & _ & x' & cuts & Hh' & Eu & Epp & Hc); [|exact (proj1 Hh)|].
  { eapply Forall2_impl'; [exact FT|]. intros [c1 u] [c2 tp] _ [E1 E2]. cbn [fst snd] in *. subst c2. split; [reflexivity|split; [reflexivity|exact E2]]. }
  cbn [fst snd] in *. pose proof (holds_same _ _ _ _ Hh Hh') as <-. exists cuts. split; [rewrite Eq; f_equal; apply offsets_ext; intros p; rewrite Hq, Hc; symmetry; apply ends_same; exact Ex|]. split; [exact Hc|].
  destruct (parts_known j T c x Jok ET Hh) as (t & xs & E1 & E2 & E3 & _). rewrite Et in E1. injection E1 as -> E1. rewrite E2. f_equal. subst parts. 
  assert (X : map from_units (map utf16 xs) = map from_units (map utf16 (cut_text x cuts))) by congruence. rewrite from_units_parts in X by (rewrite E3; exact (proj2 Hh)). rewrite X. apply from_units_parts.
  assert (Nx : x <> []) by (eapply NE; eapply dget_In; exact Ex). assert (Y : cut_text x cuts = text_compile x (sorted_offsets x cuts)) by (destruct x; [congruence|reflexivity]). rewrite Y.
  assert (Fc : Forall (fun o => 0 <= o <= zlen x) cuts). { apply Forall_forall. intros o Ho'. apply Hc in Ho'. destruct Ho' as (?&?&?&?&?&?&a'&b'&?&?&?&?&?&?&[->| ->]); lia. }
  pose proof (proj1 (segmentation x cuts Fc)) as Sg. unfold join_segs in Sg. rewrite Sg. exact (proj2 Hh).
Qed.
Lemma texts_same : parts_of T = ed_texts ed.
Proof.
  assert (K : dkeys (parts_of T) = dkeys (d_texts d)) by (rewrite (parts_keys j T Jok ET), (jd_same_texts h d j J); unfold dkeys; rewrite map_map; reflexivity).
  pose proof (do_texts h d D) as ND.
  assert (G : forall ts es ps, incl ts (d_texts d) -> Forall2 (fun kt ke => fst ke = fst kt /\ exists o, dget offsets (fst kt) = Some o /\ snd ke = text_compile (snd kt) o) ts es -> dkeys ps = dkeys ts -> incl ps (parts_of T) -> ps = es).
  { intros ts es ps I F. revert ps. induction F as [|[c x] [c' y] ts es (E1 & o & E2 & E3) F IH]; intros ps Kp Ip; [destruct ps; [reflexivity|discriminate]|]. cbn [fst snd] in *. subst c'.
    destruct ps as [|[c' z] ps]; [discriminate|]. cbn [dkeys map fst] in Kp. injection Kp as E4 Kp. subst c'. f_equal.
    - f_equal. assert (Ex : dget (d_texts d) c = Some x) by (apply dget_nodup; [exact ND|apply I; left; reflexivity]). destruct (text_same c x Ex) as (cuts & Eo & _ & Ep').
      assert (Ez : dget (parts_of T) c = Some z) by (apply dget_nodup; [rewrite K; exact ND|apply Ip; left; reflexivity]). assert (z = cut_text x cuts) by congruence. subst z y. assert (o = sorted_offsets x cuts) by congruence. subst o.
      pose proof (NE c x (dget_In _ _ Ex)) as Nx. destruct x; [congruence|reflexivity].
    - apply IH; [intros q Hq; apply I; right; exact Hq|exact Kp|intros q Hq; apply Ip; right; exact Hq]. }
  apply (G _ _ _ (incl_refl _) Ft K (incl_refl _)).
Qed.
Lemma elems_same x l ns ps : dget (d_layers d) x = Some l -> Forall2 (fun n p => at_pos h l p n) ns ps -> (forall n p, at_pos h l p n -> node_i h1 n = Ok (Z.of_nat p)) -> mapM (elem_i h1) (map Some ns) = Ok (map Z.of_nat ps).
Proof. intros El F P. induction F as [|n p ns ps A F IH]; [reflexivity|]. cbn [map mapM elem_i]. rewrite (P n p A). cbn [rbind]. rewrite IH. reflexivity. Qed.
Lemma cell_same k l n f t jt offs o c : doc_node h d k l n -> dget (l_fields (h_layer h l)) f = Some t -> ty_name jt = JT (dt_name t) -> uses_offsets offsets t offs ->
  java_value h d t (dget (n_fieldsof h n) f) o -> (forall c a b, o = Some (JSpan c a b) -> exists fs rows row f t, In (k, (fs, rows)) (jd_layers j) /\ In row rows /\ In (f, t) fs /\ dget row f = Some (JSpan c a b)) ->
  encode_cell h1 offs (dt_name t) (field_value h1 n f) = Ok c -> ocell T (is_span_field jt) o = c.
Proof.
  intros Dn Et Ty Uo V Lives H. destruct (compile_keeps h d ex tv h1 _ (do_wf h d D) (do_known h d D) Ec) as (W1 & S & P). unfold field_value in H. rewrite (same_fields _ _ S) in H.
  assert (Pi : forall x l' p n, dget (d_layers d) x = Some l' -> at_pos h l' p n -> node_i h1 n = Ok (Z.of_nat p)).
  { intros x l' p n' El A. eapply (P _); [reflexivity|eapply dget_In; exact El|]. unfold at_pos. rewrite (same_iter _ _ S). exact A. }
  pose proof (fun v Hv => do_values h d D k l n f v t Dn Hv Et) as OKv. destruct (dget (n_fieldsof h n) f) as [v|] eqn:Ev.
  2:{ inversion V; subst. unfold is_span_field, ocell. rewrite Ty. destruct (dt_name t); cbn [encode_cell] in H; try discriminate; apply Ok_inj in H; subst c; reflexivity. }
  specialize (OKv v eq_refl). unfold is_span_field. rewrite Ty. inversion V as [|X0|i X1 X2|b X1|i X1 X2|b X1|b X1|b X1|y X1|c0 txt a b X1|y l' n' q X1 X2 X3 X4|X1|y l' ns ps' X1 X2 X3 X4 X5|y l' a b ns ps' X1 X2 X3 X4 X5|y l' a b q q' X1 X2 X3 X4 X5]; subst.
  1:{ destruct (dt_name t); cbn [encode_cell] in H; try discriminate; apply Ok_inj in H; subst c; reflexivity. }
  all: rewrite X1 in H; cbn [encode_cell] in H.
  1-7: apply Ok_inj in H; subst c; cbn [ocell vcell sobj]; reflexivity.
  - inversion OKv as [| | | | | | |? ? ? ? K1 K2 K3 K4| | | |]; subst. destruct (text_same c0 txt K2) as (cuts & Eo & Hc & Epp). rewrite (Uo c0 K1) in Eo. injection Eo as ->.
    destruct (Lives _ _ _ eq_refl) as (fs & rows & row & g & u & I1 & I2 & I3 & I4).
    assert (Ends : forall p, p = a \/ p = b -> end_of j c0 txt p). { intros p Hp. exists k, fs, rows, row, g, u, a, b. split; [exact I1|]. split; [exact I2|]. split; [exact I3|]. split; [exact I4|]. split; [lia|]. split; [lia|exact Hp]. }
    pose proof (NE c0 txt (dget_In _ _ K2)) as Nx. pose proof (text_held c0 txt K2) as Hh.
    rewrite (number_at j T c0 txt cuts a Jok ET Hh Hc (Ends a (or_introl eq_refl)) Nx Epp) in H. rewrite (number_at j T c0 txt cuts b Jok ET Hh Hc (Ends b (or_intror eq_refl)) Nx Epp) in H. apply Ok_inj in H. subst c. reflexivity.
  - rewrite (Pi y l' q n' X3 X4) in H. cbn [rbind] in H. apply Ok_inj in H. subst c. reflexivity.
  - cbn [value_elems rbind] in H. apply Ok_inj in H. subst c. rewrite X1. reflexivity.
  - cbn [value_elems rbind] in H. pose proof (elems_same y l' ns ps' X3 X5 (fun n p A => Pi y l' p n X3 A)) as M. destruct ns as [|n0 ns]; [congruence|]. cbn [map] in H, M. rewrite M in H. cbn [rbind] in H. apply Ok_inj in H. subst c. reflexivity.
  - inversion OKv as [| | | | | | | | | |? ? ? K1 K2 K3|? ? ? K1 K2 K3]; subst; [|congruence]. destruct (own_span_iter h d (do_wf h d D) _ a b K3) as (ns' & En' & Hne & _). assert (ns' = ns) by congruence. subst ns'.
    cbn [value_elems rbind] in H. rewrite (same_nodespan h h1 a b ns (do_wf h d D) W1 S X4) in H. cbn [rbind] in H. pose proof (elems_same y l' ns ps' X3 X5 (fun n p A => Pi y l' p n X3 A)) as M. destruct ns as [|n0 ns]; [congruence|]. cbn [map] in H, M. rewrite M in H. cbn [rbind] in H. apply Ok_inj in H. subst c. reflexivity.
  - cbn [value_left value_right rbind elem_i] in H. rewrite (Pi y l' q a X3 X4), (Pi y l' q' b X3 X5) in H. cbn [rbind] in H. apply Ok_inj in H. subst c. reflexivity.
Qed.
Lemma column_same h2 offs tn f T0 sp : forall ns rows col, encode_column h2 offs tn f ns = Ok col -> length rows = length ns ->
  (forall p n row c, nth_error ns p = Some (Some n) -> nth_error rows p = Some row -> encode_cell h2 offs tn (field_value h2 n f) = Ok c -> ocell T0 sp (dget row f) = c) ->
  flat_map (fun row : dict jv => ocell T0 sp (dget row f)) rows = col.
Proof.
  induction ns as [|[n|] ns IH]; intros rows col H L C; cbn [encode_column] in H.
  - destruct rows; [|discriminate]. apply Ok_inj in H. exact H.
  - destruct rows as [|row rows]; [discriminate|]. fold (field_value h2 n f) in H. destruct (encode_cell h2 offs tn (field_value h2 n f)) as [c|] eqn:Ecc; [|discriminate]. cbn [rbind] in H.
    destruct (encode_column h2 offs tn f ns) as [q|] eqn:Eq; [|discriminate]. cbn [rbind] in H. apply Ok_inj in H. subst col. cbn [flat_map]. f_equal; [apply (C O n row c); [reflexivity|reflexivity|exact Ecc]|].
    apply IH; [reflexivity|simpl in L; lia|]. intros p n' row' c' Hp Hr. apply (C (Datatypes.S p)); assumption.
  - discriminate.
Qed.
Lemma args_same opts args a : Forall2 (fun ov oj => fst oj = fst ov /\ java_option (snd ov) (snd oj)) opts args -> dict_objs opts = Ok a -> sobjs args = a.
Proof.
  intros F. revert a. unfold dict_objs. induction F as [|[k v] [k' w] opts args [E O] F IH]; intros a H; [apply Ok_inj in H; exact H|]. cbn [fst snd] in *. subst k'. cbn [mapM fst snd] in H.
  destruct (value_obj v) as [o|] eqn:Eo; [|discriminate]. cbn [rbind] in H. destruct (mapM _ opts) as [b|]; [|discriminate]. cbn [rbind] in H. apply Ok_inj in H. subst a. cbn [sobjs map fst snd]. unfold sobjs in IH. rewrite (IH b eq_refl). f_equal. f_equal.
  inversion O; subst; apply Ok_inj in Eo; subst o; reflexivity.
Qed.
Lemma field_same k l f t jt fs rows ef : In (k, l) (d_layers d) -> In (f, t) (l_fields (h_layer h l)) -> In (k, (fs, rows)) (jd_layers j) -> In (f, jt) fs -> java_layer h d l (fs, rows) -> java_type t jt ->
  encode_field h1 offsets l f t = Ok ef -> efield_of T rows (f, jt) = ef.
Proof.
  intros Il If Ik Ij (F1 & F2 & F3 & F4) [Tn Ta] H. cbn [fst snd] in *. assert (Et : dget (l_fields (h_layer h l)) f = Some t) by (apply dget_nodup; [apply (wf_schema h (do_wf h d D))|exact If]).
  destruct (compile_keeps h d ex tv h1 _ (do_wf h d D) (do_known h d D) Ec) as (W1 & S & P).
  destruct (encode_field_inv _ _ _ _ _ _ H) as (_ & _ & _ & offs & Uo & Hcol). rewrite (same_iter _ _ S) in Hcol.
  unfold encode_field in H. destruct (type_string (dt_name t)) as [ts|] eqn:Es; [|discriminate]. cbn [rbind] in H.
  match type of H with rbind ?m _ = _ => destruct m as [args|] eqn:E1; [|discriminate] end. cbn [rbind] in H.
  match type of H with rbind ?m _ = _ => destruct m as [offs'|] eqn:E2; [|discriminate] end. cbn [rbind] in H.
  match type of H with rbind ?m _ = _ => destruct m as [col|] eqn:E3; [|discriminate] end. cbn [rbind] in H. apply Ok_inj in H. subst ef. cbn [ef_col] in Hcol.
  unfold efield_of, type_name. cbn [fst snd]. rewrite Tn. cbn [jname_string]. rewrite Es. f_equal.
  - destruct (dt_opts t) as [|o os] eqn:Eo; [inversion Ta; subst; apply Ok_inj in E1; exact E1|]. destruct (dict_objs (o :: os)) as [a|] eqn:Ea; [|discriminate]. apply Ok_inj in E1. subst args.
    rewrite <- (args_same _ _ _ Ta Ea). inversion Ta; subst. reflexivity.
  - eapply column_same; [exact Hcol|exact F2|]. intros p n row c Hp Hr Hc. assert (Hdn : doc_node h d k l n) by (split; [exact Il|eapply nth_error_In; exact Hp]).
    eapply (cell_same k l n f t jt offs); [exact Hdn|exact Et|exact Tn|exact Uo|exact (proj1 (F4 p n row Hp Hr) f t Et)| |exact Hc].
    intros c0 a b Ev. exists fs, rows, row, f, jt. split; [exact Ik|]. split; [eapply nth_error_In; exact Hr|]. split; [exact Ij|exact Ev].
Qed.
Lemma layers_same : map (elayer_of T) (jd_layers j) = ed_layers ed.
Proof.
  destruct (compile_keeps h d ex tv h1 _ (do_wf h d D) (do_known h d D) Ec) as (W1 & S & P).
  assert (G : forall ls js es, incl ls (d_layers d) -> incl js (jd_layers j) -> Forall2 (fun kl kj => fst kj = fst kl /\ java_layer h d (snd kl) (snd kj)) ls js -> Forall2 (fun kl el => encode_layer h1 offsets kl = Ok el) ls es -> map (elayer_of T) js = es).
  { intros ls js es Il Ij F. revert es Il Ij. induction F as [|[k l] [k' [fs rows]] ls js [Ek JL] F IH]; intros es Il Ij F'; inversion F' as [|? el ? es' E1 F'']; subst; [reflexivity|]. cbn [fst snd] in *. subst k'. cbn [map]. f_equal.
    - destruct (encode_layer_inv _ _ _ _ _ E1) as (N1 & N2 & N3). destruct el as [en em ef]. cbn [el_name el_num el_fields] in *. subst en em. unfold elayer_of. cbn [fst snd]. pose proof JL as (F1 & F2 & F3 & F4). cbn [fst snd] in *. f_equal.
      + unfold zlen. rewrite F2, <- (same_iter _ _ S), (iter_wf _ _ W1), map_length, (ok_num _ _ (wf_layers h1 W1 l)). unfold zlen. reflexivity.
      + rewrite (same_schema _ _ S) in N3. assert (I1 : In (k, l) (d_layers d)) by (apply Il; left; reflexivity). assert (I2 : In (k, (fs, rows)) (jd_layers j)) by (apply Ij; left; reflexivity).
        clear - D Ec Ft TS NE J Jok ET FT F1 N3 JL I1 I2.
        assert (G2 : forall gs gj efs, incl gs (l_fields (h_layer h l)) -> incl gj fs -> Forall2 (fun ft fj => fst fj = fst ft /\ java_type (snd ft) (snd fj)) gs gj -> Forall2 (fun ft ef => encode_field h1 offsets l (fst ft) (snd ft) = Ok ef) gs efs -> map (efield_of T rows) gj = efs).
        { intros gs gj efs Ig Igj G. revert efs Ig Igj. induction G as [|[f t] [f' jt] gs gj [Ef JT] G IH]; intros efs Ig Igj G'; inversion G' as [|? e0 ? es' Ee G'']; subst; [reflexivity|]. cbn [fst snd] in *. subst f'. cbn [map]. f_equal.
          - eapply field_same; [exact I1|apply Ig; left; reflexivity|exact I2|apply Igj; left; reflexivity|exact JL|exact JT|exact Ee].
          - apply IH; [intros q Hq; apply Ig; right; exact Hq|intros q Hq; apply Igj; right; exact Hq|exact G'']. }
        apply (G2 _ _ _ (incl_refl _) (incl_refl _) F1 N3).
    - apply IH; [intros q Hq; apply Il; right; exact Hq|intros q Hq; apply Ij; right; exact Hq|exact F'']. }
  apply (G _ _ _ (incl_refl _) (incl_refl _) (jd_same_layers h d j J) Fl).
Qed.
Lemma props_same : MMap (sobjs (jd_props j)) = ed_props ed.
Proof.
  rewrite Ep. destruct (jd_same_props h d j J) as (ps & -> & F). f_equal. clear - F. induction F as [|[k o] [k' v] ps js [E O] F IH]; [reflexivity|]. cbn [fst snd sobjs map] in *. subst k'. unfold sobjs in IH. rewrite IH. f_equal. f_equal. inversion O; subst; reflexivity.
Qed.
Theorem same_layout : edoc_of T j = ed.
Proof. unfold edoc_of. rewrite props_same, texts_same, layers_same. destruct ed; reflexivity. Qed.
End Same.

(** what Java has read from Python holds what it declares *)
Lemma read_holds h d ex tv h1 bytes j : doc_ok h d -> msgpack_encode h d ex tv = (h1, Ok bytes) -> java_doc h d j -> jdoc_ok j.
Proof.
  intros D H J. destruct (msgpack_encode_inv _ _ _ _ _ _ H) as (ed & E & _). pose proof (texts_scalar h d ex tv h1 bytes D H) as TS.
  apply (read_ok h d j D); [intros a f t x Hd; exact (proj1 (refs_ok h d ex tv h1 ed E a f t Hd) x)|intros a f t x Hd; exact (proj2 (refs_ok h d ex tv h1 ed E a f t Hd) x)|exact TS|exact J].
Qed.
Theorem same_bytes h d ex tv h1 bytes rest : doc_ok h d -> msgpack_encode h d ex tv = (h1, Ok bytes) -> java_readable h d -> zlen bytes < 2147483648 -> (forall c x, In (c, x) (d_texts d) -> x <> []) ->
  exists j, java_decode (bytes ++ rest) = Ok j /\ java_encode j = Ok bytes.
Proof.
  intros D H R S0 NE. destruct (java_reads h d ex tv h1 bytes rest D H R S0) as (j & Ej & J). exists j. split; [exact Ej|]. pose proof (read_holds h d ex tv h1 bytes j D H J) as Jok. pose proof (texts_scalar h d ex tv h1 bytes D H) as TS.
  destruct (msgpack_encode_inv _ _ _ _ _ _ H) as (ed & E & L). destruct (codec_encode_inv _ _ _ _ _ _ E) as (offsets & Ec & Ft & Fl & Ep). destruct (compiles j Jok) as (T & ET & FT).
  apply (java_writes j bytes Jok). exists T. split; [exact ET|]. split; [|exact S0]. rewrite (same_layout h d ex tv h1 ed offsets j T D Ec Ft Fl Ep TS NE J Jok ET FT). exact L.
Qed.
