(** A document of the Java port is written with the same number of bytes in whatever order its maps are. *)
From Coq Require Import Permutation.
From Verif Require Import PyBase PyBaseFacts Model_Text Model_Heap Model_Layer Model_Types Model_Msgpack Model_Document Model_Codec Model_JUnits Model_JLayer Model_JStream Model_JText Model_JCodec Model_JEncode
  Spec_Layer Spec_Types Spec_Msgpack Spec_Document Spec_Codec Spec_JText Spec_JUnits Spec_JCodec Spec_JEncode Spec_Through
  Proof_Text Proof_Document Proof_Msgpack Proof_Layout Proof_Codec Proof_Codec2 Proof_JText Proof_JText2 Proof_JText3 Proof_JUnits Proof_JCodec Proof_JCodec2 Proof_JEncode Proof_JEncode2 Proof_Through Proof_Through2 Proof_Through3 Proof_Through4 Proof_Through5.
Local Open Scope Z_scope.
Local Arguments s : simpl never.

(** ** as many bytes *)
Definition as_long (r r' : res (list N)) : Prop := forall b, r = Ok b -> exists b', r' = Ok b' /\ zlen b' = zlen b.
Lemma as_long_refl r : as_long r r.
Proof. intros b E. exists b. auto. Qed.
Lemma as_long_trans a b c : as_long a b -> as_long b c -> as_long a c.
Proof. intros H1 H2 x E. destruct (H1 x E) as (y & Ey & Ly). destruct (H2 y Ey) as (z & Ez & Lz). exists z. split; [exact Ez|lia]. Qed.
Lemma as_long_concat {A B} (f : A -> res (list N)) (g : B -> res (list N)) l m : Forall2 (fun x y => as_long (f x) (g y)) l m -> as_long (concatM f l) (concatM g m).
Proof.
  induction 1 as [|x y l m H F IH]; [apply as_long_refl|]. intros b E. apply concatM_cons in E. destruct E as (p & q & E1 & E2 & ->). destruct (H p E1) as (p' & E1' & L1). destruct (IH q E2) as (q' & E2' & L2).
  exists (p' ++ q'). cbn [concatM]. rewrite E1'. cbn [rbind]. rewrite E2'. split; [reflexivity|]. rewrite !zlen_app'. lia.
Qed.
Lemma as_long_perm {A} (f : A -> res (list N)) l m : Permutation l m -> as_long (concatM f l) (concatM f m).
Proof.
  induction 1 as [|x l m P IH|x y l|l m n P1 IH1 P2 IH2].
  - apply as_long_refl.
  - intros b E. apply concatM_cons in E. destruct E as (p & q & E1 & E2 & ->). destruct (IH q E2) as (q' & E2' & L2). exists (p ++ q'). cbn [concatM]. rewrite E1. cbn [rbind]. rewrite E2'. split; [reflexivity|]. rewrite !zlen_app'. lia.
  - intros b E. apply concatM_cons in E. destruct E as (p & q & E1 & E2 & ->). apply concatM_cons in E2. destruct E2 as (p1 & q1 & E2 & E3 & ->). exists (p1 ++ p ++ q1). cbn [concatM]. rewrite E2. cbn [rbind]. rewrite E1. cbn [rbind]. rewrite E3.
    split; [reflexivity|]. rewrite !zlen_app'. lia.
  - eapply as_long_trans; eassumption.
Qed.
Lemma as_long_both {A B} (f : A -> res (list N)) (g : B -> res (list N)) l l' m : Permutation l l' -> Forall2 (fun x y => as_long (f x) (g y)) l' m -> as_long (concatM f l) (concatM g m).
Proof. intros P F. eapply as_long_trans; [apply as_long_perm; exact P|apply as_long_concat; exact F]. Qed.
Lemma as_long_cons x y l m : as_long (pack x) (pack y) -> as_long (pack_all l) (pack_all m) -> as_long (pack_all (x :: l)) (pack_all (y :: m)).
Proof.
  intros H1 H2 b E. apply pack_cons_inv in E. destruct E as (p & q & E1 & E2 & ->). destruct (H1 p E1) as (p' & E1' & L1). destruct (H2 q E2) as (q' & E2' & L2). exists (p' ++ q'). split; [apply cons_ok; assumption|]. rewrite !zlen_app'. lia.
Qed.
Lemma as_long_arr l m : zlen m = zlen l -> as_long (pack_all l) (pack_all m) -> as_long (pack (MArr l)) (pack (MArr m)).
Proof.
  intros L H b E. apply arr_inv in E. destruct E as (hd & b' & E1 & E2 & ->). destruct (H b' E2) as (b2 & E2' & L2). exists (hd ++ b2). split; [apply arr_ok; [rewrite L; exact E1|exact E2']|]. rewrite !zlen_app'. lia.
Qed.
Lemma zlen_perm {A} (l m : list A) : Permutation l m -> zlen m = zlen l.
Proof. intros P. unfold zlen. rewrite (Permutation_length P). reflexivity. Qed.
Lemma as_long_map d e : Permutation d e -> as_long (pack (MMap d)) (pack (MMap e)).
Proof.
  intros P b E. apply map_inv' in E. destruct E as (hd & b' & E1 & E2 & ->).
  destruct (as_long_perm (fun kv => let* k := pack_str (fst kv) in let* v := pack (snd kv) in Ok (k ++ v)) _ _ P b' E2) as (b2 & E2' & L2).
  exists (hd ++ b2). split; [apply map_ok; [rewrite (zlen_perm _ _ P); exact E1|exact E2']|]. rewrite !zlen_app'. lia.
Qed.
Lemma as_long_section l m : as_long (pack_all l) (pack_all m) -> as_long (section l) (section m).
Proof.
  intros H b E. unfold section in E. destruct (pack_all l) as [x|] eqn:Ex; [|discriminate]. cbn [rbind] in E. destruct (pack (MInt (zlen x))) as [n|] eqn:En; [|discriminate]. cbn [rbind] in E. apply Ok_inj in E. subst b.
  destruct (H x eq_refl) as (y & Ey & Ly). exists (n ++ y). unfold section. rewrite Ey. cbn [rbind]. rewrite Ly, En. split; [reflexivity|]. rewrite !zlen_app'. lia.
Qed.
Lemma as_long_flat {A B} (f : A -> list mobj) (g : B -> list mobj) l l' m : Permutation l l' -> Forall2 (fun x y => as_long (pack_all (f x)) (pack_all (g y))) l' m -> as_long (pack_all (flat_map f l)) (pack_all (flat_map g m)).
Proof.
  intros P F b E. apply flat_concatM in E. destruct (as_long_both _ _ _ _ _ P F b E) as (b' & E' & L). exists b'. split; [apply concatM_flat; exact E'|exact L].
Qed.

(** ** documents in another order *)
Record field_moved (e f : efield) : Prop := {
  fm_name : ef_name f = ef_name e;
  fm_type : ef_type f = ef_type e;
  fm_args : match ef_args e, ef_args f with None, None => True | Some a, Some b => Permutation a b | _, _ => False end;
  fm_len : zlen (ef_col f) = zlen (ef_col e);
  fm_col : as_long (pack_all (ef_col e)) (pack_all (ef_col f)) }.
Record layer_moved (e f : elayer) : Prop := {
  lm_name : el_name f = el_name e;
  lm_num : el_num f = el_num e;
  lm_fields : exists fs, Permutation (el_fields e) fs /\ Forall2 field_moved fs (el_fields f) }.
Lemma moved_len {A B} (R : A -> B -> Prop) l l' m : Permutation l l' -> Forall2 R l' m -> zlen m = zlen l.
Proof. intros P F. rewrite <- (zlen_perm _ _ P). clear P. unfold zlen. induction F; cbn [length]; lia. Qed.
Lemma moved_layout ps ps' ts ts' ls ls' ms : Permutation ps ps' -> Permutation ts ts' -> Permutation ls ls' -> Forall2 layer_moved ls' ms ->
  as_long (layout (mkED (MMap ps) ts ls)) (layout (mkED (MMap ps') ts' ms)).
Proof.
  intros P1 P2 P3 F b E. apply layout_parts in E. cbn [ed_props ed_texts ed_layers] in E. destruct E as (p & sc & tx & l & E1 & E2 & E3 & E4 & ->).
  destruct (as_long_section [MMap ps] [MMap ps']) with (b := p) as (p' & E1' & L1); [apply as_long_cons; [apply as_long_map; exact P1|apply as_long_refl]|exact E1|].
  assert (A2 : as_long (pack_all (MArr (map (fun l => MStr (el_name l)) ls) :: schema_objs ls)) (pack_all (MArr (map (fun l => MStr (el_name l)) ms) :: schema_objs ms))).
  { apply as_long_cons.
    - apply as_long_arr; [rewrite !zlen_map; eapply moved_len; eassumption|]. unfold pack_all. intros b0 Eb. rewrite concatM_map in *. revert b0 Eb. eapply as_long_both; [exact P3|]. eapply Forall2_impl'; [exact F|]. intros e f _ M. rewrite (lm_name e f M). apply as_long_refl.
    - unfold schema_objs. eapply as_long_flat; [exact P3|]. eapply Forall2_impl'; [exact F|]. intros e f _ M. destruct (lm_fields e f M) as (fs & Pf & Ff). apply as_long_cons; [rewrite (moved_len _ _ _ _ Pf Ff); apply as_long_refl|].
      eapply as_long_flat; [exact Pf|]. eapply Forall2_impl'; [exact Ff|]. intros x y _ [N1 N2 N3 N4 N5]. unfold field_objs. rewrite N1, N2. destruct (ef_args x), (ef_args y); try contradiction; [|apply as_long_refl].
      do 3 (apply as_long_cons; [apply as_long_refl|]). apply as_long_cons; [apply as_long_map; exact N3|apply as_long_refl]. }
  destruct (A2 sc E2) as (sc' & E2' & L2).
  destruct (as_long_section [texts_obj ts] [texts_obj ts']) with (b := tx) as (tx' & E3' & L3); [apply as_long_cons; [apply as_long_map; apply Permutation_map; exact P2|apply as_long_refl]|exact E3|].
  assert (A4 : as_long (concatM (fun l => section (layer_objs l)) ls) (concatM (fun l => section (layer_objs l)) ms)).
  { eapply as_long_both; [exact P3|]. eapply Forall2_impl'; [exact F|]. intros e f _ M. destruct (lm_fields e f M) as (fs & Pf & Ff). apply as_long_section. unfold layer_objs. rewrite (lm_num e f M). apply as_long_cons; [apply as_long_refl|].
    eapply as_long_flat; [exact Pf|]. eapply Forall2_impl'; [exact Ff|]. intros x y _ M'. apply as_long_cons; [apply as_long_refl|]. apply as_long_cons; [apply as_long_arr; [exact (fm_len x y M')|exact (fm_col x y M')]|apply as_long_refl]. }
  destruct (A4 l E4) as (l' & E4' & L4). exists (magic ++ p' ++ sc' ++ tx' ++ l'). split; [|rewrite !zlen_app'; lia].
  unfold layout. cbn [ed_props ed_texts ed_layers]. rewrite E1'. cbn [rbind]. rewrite E2'. cbn [rbind]. rewrite E3'. cbn [rbind]. rewrite E4'. reflexivity.
Qed.

Lemma Forall2_map_both {A B A' B'} (R : A' -> B' -> Prop) (f : A -> A') (g : B -> B') l m : Forall2 (fun x y => R (f x) (g y)) l m -> Forall2 R (map f l) (map g m).
Proof. induction 1; cbn [map]; constructor; assumption. Qed.

Section Moved.
Variables (j k : jdoc) (T U : dict (jtext * list (list N))).
Hypothesis Jok : jdoc_ok j.
Hypothesis O : doc_reordered j k.
Hypothesis ET : jcompile j = Ok T.
Hypothesis FT : Forall2 (cut_exactly j) (jd_texts j) T.
Hypothesis EU : jcompile k = Ok U.
Hypothesis FU : Forall2 (cut_exactly k) (jd_texts k) U.
Let Kok : jdoc_ok k := reordered_ok j k Jok O.

Lemma reordered_In' {A} (R : A -> A -> Prop) l m x a : reordered R l m -> In (x, a) l -> exists b, In (x, b) m /\ R a b.
Proof.
  intros (l' & P & F) I. apply (Permutation_in _ P) in I. apply In_nth_error in I. destruct I as [i Hi]. destruct (Forall2_nth _ _ _ _ _ F Hi) as ([x' b] & Hb & E & Rb). cbn [fst snd] in *. subst x'. exists b. split; [eapply nth_error_In; exact Hb|exact Rb].
Qed.
Lemma texts_moved c : dget (jd_texts k) c = dget (jd_texts j) c.
Proof. apply perm_dget; [apply (jk_texts j Jok)|exact (dr_texts j k O)]. Qed.
Lemma holds_moved c x : holds_text k c x <-> holds_text j c x.
Proof. unfold holds_text. rewrite texts_moved. reflexivity. Qed.
Lemma ends_moved c x p : end_of k c x p <-> end_of j c x p.
Proof.
  split.
  - intros (n & fs & rows & row & f & t & a & b & Ik & Ir & If & Ev & H). destruct (reordered_In _ _ _ _ _ (dr_layers j k O) Ik) as ([fs0 rows0] & I0 & Rf & Rr). cbn [fst snd] in *. destruct (reordered_In _ _ _ _ _ Rf If) as (t0 & If0 & _).
    apply In_nth_error in Ir. destruct Ir as [i Hi]. destruct (Forall2_nth _ _ _ _ _ (Forall2_flip (fun q r => forall f, dget q f = dget r f) _ _ Rr) Hi) as (row0 & Hr0 & Er0).
    exists n, fs0, rows0, row0, f, t0, a, b. split; [exact I0|]. split; [eapply nth_error_In; exact Hr0|]. split; [exact If0|]. split; [rewrite <- Er0; exact Ev|exact H].
  - intros (n & fs & rows & row & f & t & a & b & Ik & Ir & If & Ev & H). destruct (reordered_In' _ _ _ _ _ (dr_layers j k O) Ik) as ([fs0 rows0] & I0 & Rf & Rr). cbn [fst snd] in *. destruct (reordered_In' _ _ _ _ _ Rf If) as (t0 & If0 & _).
    apply In_nth_error in Ir. destruct Ir as [i Hi]. destruct (Forall2_nth _ _ _ _ _ Rr Hi) as (row0 & Hr0 & Er0).
    exists n, fs0, rows0, row0, f, t0, a, b. split; [exact I0|]. split; [eapply nth_error_In; exact Hr0|]. split; [exact If0|]. split; [rewrite Er0; exact Ev|exact H].
Qed.
Definition part_of (i : jdoc) (ku : pystr * list N) (kp : pystr * list pystr) : Prop := fst kp = fst ku /\ exists x cuts, holds_text i (fst ku) x /\ snd kp = cut_text x cuts /\ forall p, In p cuts <-> end_of i (fst ku) x p.
Lemma cut_back i c x cuts : holds_text i c x -> (forall p, In p cuts <-> end_of i c x p) -> map from_units (map utf16 (cut_text x cuts)) = cut_text x cuts.
Proof.
  intros Hh Hc. apply from_units_parts. assert (Fc : Forall (fun o => 0 <= o <= zlen x) cuts). { apply Forall_forall. intros o Ho'. apply Hc in Ho'. destruct Ho' as (?&?&?&?&?&?&a'&b'&?&?&?&?&?&?&[->| ->]); lia. }
  destruct x as [|ch x]; [constructor|]. change (cut_text (ch :: x) cuts) with (text_compile (ch :: x) (sorted_offsets (ch :: x) cuts)). pose proof (proj1 (segmentation (ch :: x) cuts Fc)) as Sg. unfold join_segs in Sg. rewrite Sg. exact (proj2 Hh).
Qed.
Lemma parts_cut i V : Forall2 (cut_exactly i) (jd_texts i) V -> Forall2 (part_of i) (jd_texts i) (parts_of V).
Proof.
  unfold parts_of. intros F. apply (proj1 (Forall2_map_r _ _ _ _)). eapply Forall2_impl'; [exact F|]. intros [c u] [c' [t parts]] _ (E & x & cuts & Hh & Eu & Epp & Hc). cbn [fst snd] in *. subst c' u parts. split; [reflexivity|]. exists x, cuts. cbn [fst snd].
  split; [exact Hh|]. split; [eapply cut_back; eassumption|exact Hc].
Qed.
Lemma part_one c x cuts : holds_text j c x -> (forall p, In p cuts <-> end_of j c x p) -> In c (dkeys (jd_texts j)) -> dget (parts_of T) c = Some (cut_text x cuts) /\ dget (parts_of U) c = Some (cut_text x cuts).
Proof.
  intros Hh Hc _. split.
  - destruct (dget_Forall2 (fun c u p => part_of j (c, u) (c, p)) (jd_texts j) (parts_of T)) with (k := c) (v := utf16 x) as (p & Et & _ & x' & cuts' & Hh' & Epp & Hc'); [|exact (proj1 Hh)|].
    { eapply Forall2_impl'; [exact (parts_cut j T FT)|]. intros [c1 u] [c2 tp] _ [E1 E2]. cbn [fst snd] in *. subst c2. split; [reflexivity|split; [reflexivity|exact E2]]. }
    cbn [fst snd] in *. pose proof (holds_same _ _ _ _ Hh Hh') as <-. rewrite Et, Epp. f_equal. apply cut_ext. intros q. rewrite Hc, Hc'. reflexivity.
  - destruct (dget_Forall2 (fun c u p => part_of k (c, u) (c, p)) (jd_texts k) (parts_of U)) with (k := c) (v := utf16 x) as (p & Et & _ & x' & cuts' & Hh' & Epp & Hc'); [|rewrite texts_moved; exact (proj1 Hh)|].
    { eapply Forall2_impl'; [exact (parts_cut k U FU)|]. intros [c1 u] [c2 tp] _ [E1 E2]. cbn [fst snd] in *. subst c2. split; [reflexivity|split; [reflexivity|exact E2]]. }
    cbn [fst snd] in *. apply holds_moved in Hh'. pose proof (holds_same _ _ _ _ Hh Hh') as <-. rewrite Et, Epp. f_equal. apply cut_ext. intros q. rewrite Hc, Hc', ends_moved. reflexivity.
Qed.
Lemma parts_moved : Permutation (parts_of T) (parts_of U).
Proof.
  destruct (Permutation_Forall2 (dr_texts j k O) (parts_cut j T FT)) as (l2 & P2 & F2). replace (parts_of U) with l2; [exact P2|]. pose proof (parts_cut k U FU) as F3. clear - F2 F3 Jok O. revert F3. generalize (parts_of U). 
  induction F2 as [|[c u] [c' p] ts l2 (E & x & cuts & Hh & Epp & Hc) F2 IH]; intros q F3; inversion F3 as [|? [c2 p2] ? q' (E' & x' & cuts' & Hh' & Epp' & Hc') F3']; subst; [reflexivity|]. cbn [fst snd] in *. subst. f_equal; [|apply IH; exact F3']. f_equal.
  apply holds_moved in Hh'. pose proof (holds_same _ _ _ _ Hh Hh') as <-. apply cut_ext. intros q. rewrite Hc, Hc', ends_moved. reflexivity.
Qed.
Lemma number_moved c x p : holds_text j c x -> end_of j c x p -> as_long (pack (MInt (number_of T c (upos x p)))) (pack (MInt (number_of U c (upos x p)))).
Proof.
  intros Hh He. assert (Hk : holds_text k c x) by (apply holds_moved; exact Hh).
  assert (Ic : In c (dkeys (jd_texts j))) by (destruct Hh as [Ex _]; apply dget_In in Ex; apply (in_map fst) in Ex; exact Ex).
  assert (HC : exists cuts, forall q, In q cuts <-> end_of j c x q).
  { destruct (dget_Forall2 (fun c u p => part_of j (c, u) (c, p)) (jd_texts j) (parts_of T)) with (k := c) (v := utf16 x) as (p0 & Et & _ & x' & cuts' & Hh' & Epp & Hc'); [|exact (proj1 Hh)|].
    { eapply Forall2_impl'; [exact (parts_cut j T FT)|]. intros [c1 u] [c2 tp] _ [E1 E2]. cbn [fst snd] in *. subst c2. split; [reflexivity|split; [reflexivity|exact E2]]. }
    cbn [fst snd] in *. pose proof (holds_same _ _ _ _ Hh Hh') as <-. exists cuts'. exact Hc'. }
  destruct HC as (cuts & Hc). destruct (part_one c x cuts Hh Hc Ic) as [PT PU].
  assert (Hc' : forall q, In q cuts <-> end_of k c x q) by (intros q; rewrite Hc, ends_moved; reflexivity). assert (He' : end_of k c x p) by (apply ends_moved; exact He).
  destruct x as [|ch x].
  - assert (B : forall i V, jdoc_ok i -> jcompile i = Ok V -> holds_text i c [] -> end_of i c [] p -> dget (parts_of V) c = Some (cut_text [] cuts) -> number_of V c (upos [] p) = 0 \/ number_of V c (upos [] p) = 1).
    { intros i V Di EV Hi (n & fs & rows & row & f & ty & a & b & In_ & Ir & If & Ev & Ha & Hb & Hp) PV. destruct (parts_known i V c [] Di EV Hi) as (t & xs & _ & Exs & _ & Hn). rewrite PV in Exs. injection Exs as <-. assert (Z0 : zlen (@nil N) = 0) by reflexivity. unfold pystr in *. rewrite Z0 in Hb. assert (La : 0 <= a <= zlen (@nil N)) by (rewrite Z0; lia). assert (Lb : 0 <= b <= zlen (@nil N)) by (rewrite Z0; lia).
      destruct (Hn _ _ _ _ _ _ _ _ In_ Ir If Ev La Lb p Hp) as [Bd _]. unfold zlen in Bd; cbn [length cut_text] in Bd; lia. }
    pose proof (B j T Jok ET Hh He PT) as B1. pose proof (B k U Kok EU Hk He' PU) as B2. intros b E. exists (match number_of U c (upos [] p) with 0 => [0]%N | _ => [1]%N end).
    destruct B1 as [B1|B1], B2 as [B2|B2]; rewrite B1 in E; rewrite B2; vm_compute in E; apply Ok_inj in E; subst b; split; reflexivity.
  - assert (NE : ch :: x <> []) by discriminate. pose proof (number_at j T c (ch :: x) cuts p Jok ET Hh Hc He NE PT) as N1. pose proof (number_at k U c (ch :: x) cuts p Kok EU Hk Hc' He' NE PU) as N2. replace (number_of U c (upos (ch :: x) p)) with (number_of T c (upos (ch :: x) p)) by congruence. apply as_long_refl.
Qed.
Lemma cell_moved n fs rows row f t sp : In (n, (fs, rows)) (jd_layers j) -> In row rows -> In (f, t) fs ->
  as_long (pack_all (ocell T sp (dget row f))) (pack_all (ocell U sp (dget row f))) /\ zlen (ocell U sp (dget row f)) = zlen (ocell T sp (dget row f)).
Proof.
  intros Ik Ir If. destruct (dget row f) as [v|] eqn:Ev; [|split; [apply as_long_refl|reflexivity]]. pose proof (jk_values j Jok _ _ _ _ _ _ _ Ik Ir If Ev) as V.
  inversion V as [| | | | | | |c x p q Ht Ha Hh Hp Hq| | |]; subst; cbn [ocell vcell]; try (split; [apply as_long_refl|reflexivity]).
  split; [|reflexivity]. assert (En : forall z, z = p \/ z = q -> end_of j c x z) by (intros z Hz; exists n, fs, rows, row, f, t, p, q; split; [exact Ik|]; split; [exact Ir|]; split; [exact If|]; split; [exact Ev|]; split; [lia|]; split; [lia|exact Hz]).
  apply as_long_cons; [apply number_moved; [exact Hh|apply En; left; reflexivity]|]. apply as_long_cons; [apply number_moved; [exact Hh|apply En; right; reflexivity]|apply as_long_refl].
Qed.
Lemma field_moves n fs rows rows' f t t' : In (n, (fs, rows)) (jd_layers j) -> In (f, t) fs -> Forall2 (fun r q : dict jv => forall f, dget q f = dget r f) rows rows' -> type_reordered t t' ->
  field_moved (efield_of T rows (f, t)) (efield_of U rows' (f, t')).
Proof.
  intros Ik If F [En Pa]. assert (Es : is_span_field t' = is_span_field t) by (unfold is_span_field; rewrite En; reflexivity).
  split; cbn [efield_of ef_name ef_type ef_args ef_col fst snd].
  - reflexivity.
  - unfold type_name. rewrite En. reflexivity.
  - destruct (ty_args t) as [|a l].
    + apply Permutation_nil in Pa. rewrite Pa. exact Logic.I.
    + destruct (ty_args t') as [|a' l']; [apply Permutation_sym, Permutation_nil in Pa; discriminate|]. unfold sobjs. apply Permutation_map. exact Pa.
  - rewrite Es. assert (G : forall all, (forall r, In r all -> In r rows) -> forall qs, Forall2 (fun r q : dict jv => forall f, dget q f = dget r f) all qs -> zlen (flat_map (fun r => ocell U (is_span_field t) (dget r f)) qs) = zlen (flat_map (fun r => ocell T (is_span_field t) (dget r f)) all)).
    { intros all I qs G. induction G as [|r q rs qs E G IH]; [reflexivity|]. cbn [flat_map]. rewrite !zlen_app'. rewrite E. f_equal; [apply (cell_moved n fs rows r f t _ Ik (I r (or_introl eq_refl)) If)|apply IH; intros y Hy; apply I; right; exact Hy]. }
    apply G; [auto|exact F].
  - rewrite Es. apply as_long_flat with (l' := rows); [apply Permutation_refl|]. eapply Forall2_impl'; [exact F|]. intros r q Hr E. rewrite E. apply (cell_moved n fs rows r f t _ Ik); [|exact If]. exact Hr.
Qed.
Lemma layer_moves n lr lr' : In (n, lr) (jd_layers j) -> layer_reordered lr lr' -> layer_moved (elayer_of T (n, lr)) (elayer_of U (n, lr')).
Proof.
  destruct lr as [fs rows], lr' as [fs' rows']. intros Ik [(fs1 & P & F) R]. cbn [fst snd] in *. split; cbn [elayer_of el_name el_num el_fields fst snd].
  - reflexivity.
  - symmetry. clear - R. unfold zlen. induction R; cbn [length]; lia.
  - exists (map (efield_of T rows) fs1). split; [apply Permutation_map; exact P|]. apply Forall2_map_both. eapply Forall2_impl'; [exact F|]. intros [f t] [f' t'] If [E1 E2]. cbn [fst snd] in *. subst f'.
    eapply field_moves; [exact Ik| |exact R|exact E2]. apply (Permutation_in _ (Permutation_sym P)). exact If.
Qed.
Lemma layout_moves : as_long (layout (edoc_of T j)) (layout (edoc_of U k)).
Proof.
  destruct (dr_layers j k O) as (ls & P & F). unfold edoc_of. eapply moved_layout.
  - unfold sobjs. apply Permutation_map. exact (dr_props j k O).
  - exact parts_moved.
  - apply Permutation_map. exact P.
  - apply Forall2_map_both. eapply Forall2_impl'; [exact F|]. intros [n lr] [n' lr'] Il [E1 E2]. cbn [fst snd] in *. subst n'. apply layer_moves; [|exact E2]. apply (Permutation_in _ (Permutation_sym P)). exact Il.
Qed.
End Moved.

Theorem reorder_writes j k bytes : jdoc_ok j -> doc_reordered j k -> java_encode j = Ok bytes -> exists bytes', java_encode k = Ok bytes' /\ zlen bytes' = zlen bytes.
Proof.
  intros Jok O E. pose proof (reordered_ok j k Jok O) as Kok. apply (java_writes j bytes Jok) in E. destruct E as (T & ET & EL & Sh).
  destruct (compiles j Jok) as (T' & ET' & FT). rewrite ET in ET'. apply Ok_inj in ET'. subst T'. destruct (compiles k Kok) as (U & EU & FU).
  destruct (layout_moves j k T U Jok O ET FT EU FU bytes EL) as (b' & EL' & L). exists b'. split; [|exact L]. apply (java_writes k b' Kok). exists U. split; [exact EU|]. split; [exact EL'|lia].
Qed.

Theorem always_written h d ex tv h1 bytes rest : doc_ok h d -> msgpack_encode h d ex tv = (h1, Ok bytes) -> java_readable h d -> zlen bytes < 2147483648 -> (forall c x, In (c, x) (d_texts d) -> x <> []) ->
  exists j, java_decode (bytes ++ rest) = Ok j /\ java_encode j = Ok bytes /\ forall k, doc_reordered j k -> exists bytes', java_encode k = Ok bytes' /\ zlen bytes' = zlen bytes.
Proof.
  intros D H R S0 NE. destruct (same_bytes h d ex tv h1 bytes rest D H R S0 NE) as (j & Ej & Ew). exists j. split; [exact Ej|]. split; [exact Ew|]. intros k O.
  destruct (java_reads h d ex tv h1 bytes rest D H R S0) as (j' & Ej' & J). rewrite Ej in Ej'. apply Ok_inj in Ej'. subst j'. eapply reorder_writes; [eapply read_holds; eassumption|exact O|exact Ew].
Qed.
