(** Which documents of the Java port are written. *)
From Verif Require Import PyBase PyBaseFacts Model_Text Model_Heap Model_Layer Model_Types Model_Msgpack Model_Document Model_Codec Model_JUnits Model_JLayer Model_JStream Model_JText Model_JCodec Model_JEncode
  Spec_Layer Spec_Types Spec_Msgpack Spec_Document Spec_Codec Spec_JText Spec_JUnits Spec_JCodec Spec_JEncode Spec_JWrite
  Proof_Text Proof_Document Proof_Msgpack Proof_Layout Proof_Codec Proof_Codec2 Proof_Codec5 Proof_JText Proof_JText2 Proof_JText3 Proof_JUnits Proof_JCodec Proof_JCodec2 Proof_JEncode Proof_JEncode2 Proof_Through Proof_Through3 Proof_Through4 Proof_Through6 Proof_JStream2.
Local Open Scope Z_scope.
Local Arguments s : simpl never.

(** ** sums *)
Lemma sum_plus {A} (f g : A -> Z) l : sum (fun x => f x + g x) l = sum f l + sum g l.
Proof. unfold sum. induction l as [|x l IH]; [reflexivity|]. cbn [fold_right]. rewrite IH. lia. Qed.
Lemma sum_const {A} c (l : list A) : sum (fun _ => c) l = c * zlen l.
Proof. unfold sum, zlen. induction l as [|x l IH]; [cbn; lia|]. cbn [fold_right length]. rewrite IH. lia. Qed.
Lemma sum_swap {A B} (f : A -> B -> Z) l m : sum (fun x => sum (f x) m) l = sum (fun y => sum (fun x => f x y) l) m.
Proof.
  induction l as [|x l IH].
  - cbn. rewrite sum_const. reflexivity.
  - change (sum (fun x0 => sum (f x0) m) (x :: l)) with (sum (f x) m + sum (fun x0 => sum (f x0) m) l). rewrite IH, <- sum_plus. reflexivity.
Qed.
Lemma sum_ext {A} (f g : A -> Z) l : (forall x, f x = g x) -> sum f l = sum g l.
Proof. intros E. unfold sum. induction l as [|x l IH]; [reflexivity|]. cbn [fold_right]. rewrite IH, E. reflexivity. Qed.
Lemma sum_len {A} (f : A -> Z) l : (forall x, 1 <= f x) -> zlen l <= sum f l.
Proof. intros P. unfold sum, zlen. induction l as [|x l IH]; [cbn; lia|]. cbn [fold_right length]. specialize (P x). lia. Qed.

(** ** how much is needed *)
Definition fits_in (r : res (list N)) (n : Z) : Prop := 0 <= n /\ (n < 2147483648 -> exists b, r = Ok b /\ zlen b <= n).
Lemma fits_more r n m : fits_in r n -> n <= m -> fits_in r m.
Proof. intros [P H] L. split; [lia|]. intros M. destruct H as (b & E & Lb); [lia|]. exists b. split; [exact E|lia]. Qed.
Lemma fits_nil : fits_in (pack_all []) 0.
Proof. split; [lia|]. intros _. exists []. split; [reflexivity|cbn; lia]. Qed.
Lemma fits_cons x l n m : fits_in (pack x) n -> fits_in (pack_all l) m -> fits_in (pack_all (x :: l)) (n + m).
Proof.
  intros [P1 H1] [P2 H2]. split; [lia|]. intros L. destruct H1 as (a & E1 & L1); [lia|]. destruct H2 as (b & E2 & L2); [lia|]. exists (a ++ b). split; [apply cons_ok; assumption|]. rewrite zlen_app'. lia.
Qed.
Lemma fits_one x n : fits_in (pack x) n -> fits_in (pack_all [x]) n.
Proof. intros H. replace n with (n + 0) by lia. apply fits_cons; [exact H|apply fits_nil]. Qed.
Lemma fits_concat {A} (f : A -> res (list N)) w l : (forall x, In x l -> fits_in (f x) (w x)) -> fits_in (concatM f l) (sum w l).
Proof.
  induction l as [|x l IH]; intros H.
  - split; [cbn; lia|]. intros _. exists []. split; [reflexivity|cbn; lia].
  - destruct (H x (or_introl eq_refl)) as [P1 H1]. destruct IH as [P2 H2]; [intros y Hy; apply H; right; exact Hy|]. change (sum w (x :: l)) with (w x + sum w l). split; [lia|]. intros L. destruct H1 as (a & E1 & L1); [lia|]. destruct H2 as (b & E2 & L2); [lia|].
    exists (a ++ b). cbn [concatM]. rewrite E1. cbn [rbind]. rewrite E2. split; [reflexivity|]. rewrite zlen_app'. lia.
Qed.
Lemma fits_flat {A} (f : A -> list mobj) w l : (forall x, In x l -> fits_in (pack_all (f x)) (w x)) -> fits_in (pack_all (flat_map f l)) (sum w l).
Proof. intros H. destruct (fits_concat (fun x => pack_all (f x)) w l H) as [P G]. split; [exact P|]. intros L. destruct (G L) as (b & E & Lb). exists b. split; [apply concatM_flat; exact E|exact Lb]. Qed.
Lemma head_len (f : Z -> res (list N)) n : (f = arr_head \/ f = map_head \/ f = str_head \/ f = bin_head) -> 0 <= n < 4294967296 -> exists hd, f n = Ok hd /\ zlen hd <= 5.
Proof.
  intros F B. destruct F as [->|[->|[->| ->]]]; unfold arr_head, map_head, str_head, bin_head; repeat match goal with |- context [?a <? ?b] => destruct (Z.ltb_spec a b) end; try lia; (eexists; split; [reflexivity|]); unfold zlen; cbn [length]; rewrite ?be_length; lia.
Qed.
Lemma fits_arr l n : fits_in (pack_all l) n -> zlen l <= n -> fits_in (pack (MArr l)) (5 + n).
Proof.
  intros [P H] Ll. split; [lia|]. intros L. pose proof (zlen_nonneg l). destruct H as (b & E & Lb); [lia|]. destruct (head_len arr_head (zlen l)) as (hd & Eh & Lh); [auto|lia|]. exists (hd ++ b). split; [apply arr_ok; assumption|]. rewrite zlen_app'. lia.
Qed.
Lemma fits_str x : Forall scalar x -> fits_in (pack (MStr x)) (str_weight x).
Proof.
  intros F. unfold str_weight. pose proof (zlen_nonneg x). split; [lia|]. intros L. destruct (utf8_encode_len x F) as (b & E & _). pose proof (Proof_JStream2.utf8_len x b E) as Lb. assert (Lz : zlen b <= 4 * zlen x) by (unfold zlen; lia). pose proof (zlen_nonneg b).
  destruct (head_len str_head (zlen b)) as (hd & Eh & Lh); [auto|lia|]. exists (hd ++ b). cbn [pack]. unfold pack_str. rewrite E. cbn [rbind]. rewrite Eh. split; [reflexivity|]. rewrite zlen_app'. lia.
Qed.
Lemma fits_bin x : fits_in (pack (MBin x)) (5 + zlen x).
Proof. pose proof (zlen_nonneg x). split; [lia|]. intros L. destruct (head_len bin_head (zlen x)) as (hd & Eh & Lh); [auto|lia|]. exists (hd ++ x). cbn [pack]. rewrite Eh. split; [reflexivity|]. rewrite zlen_app'. lia. Qed.
Lemma fits_map d w : (forall k o, In (k, o) d -> Forall scalar k /\ fits_in (pack o) (w (k, o))) -> fits_in (pack (MMap d)) (5 + sum (fun ko => str_weight (fst ko) + w ko) d).
Proof.
  intros H. assert (G : fits_in (concatM (fun kv => let* k := pack_str (fst kv) in let* v := pack (snd kv) in Ok (k ++ v)) d) (sum (fun ko => str_weight (fst ko) + w ko) d)).
  { apply fits_concat. intros [k o] I. destruct (H k o I) as [Fk [P Ho]]. cbn beta; cbn [fst snd]. destruct (fits_str k Fk) as [P1 H1]. unfold pystr in *; split; [lia|]. intros L. destruct H1 as (a & E1 & L1); [lia|]. destruct Ho as (b & E2 & L2); [lia|]. exists (a ++ b). cbn [pack] in E1. rewrite E1. cbn [rbind]. rewrite E2. split; [reflexivity|]. rewrite zlen_app'. lia. }
  destruct G as [P G]. split; [lia|]. intros L. destruct G as (b & E & Lb); [lia|].
  assert (Ld : zlen d <= sum (fun ko => str_weight (fst ko) + w ko) d).
  { clear - H. unfold zlen, sum. induction d as [|[k o] d IH]; [cbn; lia|]. cbn [fold_right length]. destruct (H k o (or_introl eq_refl)) as [_ [P _]]. specialize (IH (fun k o I => H k o (or_intror I))). unfold str_weight in *. pose proof (zlen_nonneg k). cbn [fst snd]. unfold pystr in *. lia. }
  pose proof (zlen_nonneg d). destruct (head_len map_head (zlen d)) as (hd & Eh & Lh); [auto|lia|]. exists (hd ++ b). split; [apply map_ok; assumption|]. rewrite zlen_app'. lia.
Qed.
Lemma fits_int i : - 9223372036854775808 <= i < 18446744073709551616 -> fits_in (pack (MInt i)) 9.
Proof.
  intros B. split; [lia|]. intros _. cbn [pack]. unfold pack_int. repeat match goal with |- context [?a <? ?b] => destruct (Z.ltb_spec a b) end; try lia; (eexists; split; [reflexivity|]); unfold zlen; cbn [length]; rewrite ?be_length; lia.
Qed.
Lemma fits_section l n : fits_in (pack_all l) n -> fits_in (section l) (9 + n).
Proof.
  intros [P H]. split; [lia|]. intros L. destruct H as (b & E & Lb); [lia|]. pose proof (zlen_nonneg b). destruct (fits_int (zlen b)) as [_ G]; [lia|]. destruct G as (m & Em & Lm); [lia|]. exists (m ++ b). unfold section. rewrite E. cbn [rbind]. rewrite Em. split; [reflexivity|]. rewrite zlen_app'. lia.
Qed.
Lemma fits_bool b : fits_in (pack (MBool b)) 1.
Proof. split; [lia|]. intros _. destruct b; eexists; (split; [reflexivity|cbn; lia]). Qed.
Lemma fits_nil_obj : fits_in (pack MNil) 1.
Proof. split; [lia|]. intros _. eexists. split; [reflexivity|cbn; lia]. Qed.
Lemma fits_float b : fits_in (pack (MFloat b)) 9.
Proof. split; [lia|]. intros _. eexists. split; [reflexivity|]. unfold zlen. cbn [length]. rewrite be_length. lia. Qed.
Lemma fits_scalar v : jscalar v -> chars v -> fits_in (pack (sobj v)) (value_weight v).
Proof.
  intros [b|i R|i R|b R|x|x R] C; cbn [sobj value_weight chars] in *.
  - eapply fits_more; [apply fits_bool|lia].
  - apply fits_int. unfold int_range in R. lia.
  - apply fits_int. unfold long_range in R. lia.
  - apply fits_float.
  - apply fits_str. exact C.
  - apply fits_bin.
Qed.
Lemma fits_pairs d : (forall k v, In (k, v) d -> jscalar v) -> Forall pair_chars d -> fits_in (pack (MMap (sobjs d))) (5 + sum pair_weight d).
Proof.
  intros S F. rewrite Forall_forall in F. assert (E : sum pair_weight d = sum (fun ko => str_weight (fst ko) + match ko with (_, MStr x) => str_weight x | (_, MBin x) => 5 + zlen x | _ => 9 end) (sobjs d)).
  { clear F. unfold sum, sobjs. induction d as [|[k v] d IH]; [reflexivity|]. cbn [map fold_right fst snd]. rewrite IH by (intros k' v' I; eapply S; right; exact I). f_equal. unfold pair_weight. cbn [fst snd]. f_equal. destruct (S k v (or_introl eq_refl)); reflexivity. }
  rewrite E. apply fits_map. intros k o I. apply in_map_iff in I. destruct I as ([k' v] & E' & I). injection E' as -> <-. cbn [fst snd]. destruct (F _ I) as [Fk Fv]. cbn [fst snd] in *. split; [exact Fk|]. specialize (S _ _ I). pose proof (fits_scalar v S Fv) as H. destruct S; exact H.
Qed.

Section Weigh.
Variables (j : jdoc) (T : dict (jtext * list (list N))).
Hypothesis Jok : jdoc_ok j.
Hypothesis Ch : doc_chars j.
Hypothesis ET : jcompile j = Ok T.
Hypothesis FT : Forall2 (cut_exactly j) (jd_texts j) T.
Hypothesis Small : doc_weight j < 2147483648.

Lemma sum_pos {A} (f : A -> Z) l : (forall x, 0 <= f x) -> 0 <= sum f l.
Proof. intros H. unfold sum. induction l as [|x l IH]; [cbn; lia|]. cbn [fold_right]. specialize (H x). lia. Qed.
Lemma sum_In {A} (f : A -> Z) l x : (forall x, 0 <= f x) -> In x l -> f x <= sum f l.
Proof. intros H. unfold sum. induction l as [|y l IH]; [intros []|]. cbn [fold_right]. intros [->|I]; [pose proof (sum_pos f l H); unfold sum in *; lia|]. specialize (IH I). specialize (H y). lia. Qed.
Lemma weight_pos : (forall v, 1 <= value_weight v) /\ (forall kv, 0 <= pair_weight kv) /\ (forall cu, 0 <= text_weight cu) /\ (forall ft, 0 <= field_weight ft) /\ (forall fs r, 0 <= row_weight fs r) /\ (forall kl, 0 <= layer_weight kl).
Proof.
  assert (V : forall v, 1 <= value_weight v) by (intros []; cbn [value_weight]; unfold str_weight; repeat match goal with |- context [zlen ?l] => pose proof (zlen_nonneg l); generalize dependent (zlen l); intros end; lia).
  assert (P : forall kv, 0 <= pair_weight kv) by (intros kv; unfold pair_weight, str_weight; pose proof (zlen_nonneg (fst kv)); specialize (V (snd kv)); lia).
  assert (X : forall cu, 0 <= text_weight cu) by (intros cu; unfold text_weight, str_weight; pose proof (zlen_nonneg (fst cu)); pose proof (zlen_nonneg (snd cu)); lia).
  assert (F : forall ft, 0 <= field_weight ft) by (intros ft; unfold field_weight, str_weight; pose proof (zlen_nonneg (fst ft)); pose proof (sum_pos pair_weight (ty_args (snd ft)) P); lia).
  assert (R : forall fs r, 0 <= row_weight fs r) by (intros fs r; unfold row_weight; apply sum_pos; intros ft; destruct (dget r (fst ft)) as [v|]; [specialize (V v)|]; lia).
  repeat split; try assumption. intros kl. unfold layer_weight, str_weight. pose proof (zlen_nonneg (fst kl)). pose proof (sum_pos field_weight (fst (snd kl)) F). pose proof (sum_pos (row_weight (fst (snd kl))) (snd (snd kl)) (R _)). lia.
Qed.
Lemma utf16_longer x : zlen x <= zlen (utf16 x).
Proof. unfold utf16, zlen. induction x as [|c x IH]; [cbn; lia|]. cbn [flat_map length]. rewrite app_length. pose proof (utf16_char_len c) as L. unfold zlen in L. lia. Qed.
Lemma cut_length x cuts : Forall (fun o => 0 <= o <= zlen x) cuts -> List.concat (cut_text x cuts) = x /\ zlen (cut_text x cuts) <= zlen x + 1.
Proof.
  intros Fc. destruct x as [|ch x]; [split; [reflexivity|cbn; lia]|]. change (cut_text (ch :: x) cuts) with (text_compile (ch :: x) (sorted_offsets (ch :: x) cuts)). set (y := ch :: x) in *. destruct (segmentation y cuts Fc) as [S1 S2]. split; [exact S1|].
  assert (Ls : zlen (sorted_offsets y cuts) <= Z.max 0 (zlen y - 0 + 1)).
  { apply sorted_length; [apply sorted_offsets_sorted|]. pose proof (zlen_nonneg y). apply Forall_forall. intros o Ho. apply sorted_offsets_In in Ho. destruct Ho as [->|[->|Ho]]; [lia|lia|]. rewrite Forall_forall in Fc. apply Fc. exact Ho. }
  rewrite <- S2 in Ls. unfold zlen at 1 in Ls. rewrite seg_offsets_length in Ls. pose proof (zlen_nonneg y). unfold zlen, pystr in *. lia.
Qed.
Lemma ends_in c x cuts : (forall p, In p cuts <-> end_of j c x p) -> Forall (fun o => 0 <= o <= zlen x) cuts.
Proof. intros Hc. apply Forall_forall. intros o Ho. apply Hc in Ho. destruct Ho as (?&?&?&?&?&?&a'&b'&?&?&?&?&?&?&[->| ->]); lia. Qed.
Lemma text_length c u : In (c, u) (jd_texts j) -> zlen u < 2147483648.
Proof.
  intros I. destruct weight_pos as (V & P & X & F & R & L). pose proof (sum_In text_weight _ _ X I) as H. pose proof (sum_pos pair_weight (jd_props j) P). pose proof (sum_pos layer_weight (jd_layers j) L). unfold doc_weight in Small. set (st := sum text_weight (jd_texts j)) in *. unfold text_weight, str_weight in H. cbn [fst snd] in H. pose proof (zlen_nonneg c). pose proof (zlen_nonneg u). lia.
Qed.
Lemma number_small c x p : holds_text j c x -> end_of j c x p -> fits_in (pack (MInt (number_of T c (upos x p)))) 9.
Proof.
  intros Hh (n & fs & rows & row & f & ty & a & b & In_ & Ir & If & Ev & Ha & Hb & Hp). destruct (parts_known j T c x Jok ET Hh) as (t & xs & _ & Exs & _ & Hn). destruct (Hn _ _ _ _ _ _ _ _ In_ Ir If Ev ltac:(lia) ltac:(lia) p Hp) as [Bd _].
  pose proof (dget_In _ _ (proj1 Hh)) as It. pose proof (text_length _ _ It) as Lu. pose proof (utf16_longer x) as Lx.
  assert (Lxs : zlen xs <= zlen x + 1).
  { destruct (dget_Forall2 (fun c u p => part_of j (c, u) (c, p)) (jd_texts j) (parts_of T)) with (k := c) (v := utf16 x) as (p0 & Et & _ & x' & cuts' & Hh' & Epp & Hc'); [|exact (proj1 Hh)|].
    { eapply Forall2_impl'; [exact (parts_cut j T FT)|]. intros [c1 u] [c2 tp] _ [E1 E2]. cbn [fst snd] in *. subst c2. split; [reflexivity|split; [reflexivity|exact E2]]. }
    cbn [fst snd] in *. pose proof (holds_same _ _ _ _ Hh Hh') as <-. rewrite Et in Exs. injection Exs as <-. subst p0. apply cut_length. eapply ends_in. exact Hc'. }
  apply fits_int. lia.
Qed.
Lemma cell_fits_in n fs rows row f t : In (n, (fs, rows)) (jd_layers j) -> In row rows -> In (f, t) fs ->
  let w := match dget row f with Some v => value_weight v | None => 2 end in
  fits_in (pack_all (ocell T (is_span_field t) (dget row f))) w /\ zlen (ocell T (is_span_field t) (dget row f)) <= w.
Proof.
  intros Ik Ir If. cbn zeta. destruct (dget row f) as [v|] eqn:Ev.
  2:{ cbn [ocell]. destruct (is_span_field t); (split; [|cbn; lia]); [|eapply fits_more; [apply fits_one, fits_nil_obj|lia]]. replace 2 with (1 + 1) by lia. apply fits_cons; [apply fits_nil_obj|apply fits_one, fits_nil_obj]. }
  pose proof (jk_values j Jok _ _ _ _ _ _ _ Ik Ir If Ev) as V. pose proof (proj2 (proj2 (dc_layers j Ch _ _ _ Ik)) _ _ _ _ Ir If Ev) as C.
  pose proof (jk_fields j Jok _ _ _ Ik) as (_ & Lr & _). destruct weight_pos as (WP & PP & XP & FP & RP & LP).
  assert (Nodes : forall x p, has_node j x p -> Z.of_nat p < 2147483648).
  { intros x p (fs0 & rows0 & E & L). pose proof (jk_fields j Jok _ _ _ (dget_In _ _ E)) as (_ & L0 & _). unfold zlen in L0. lia. }
  inversion V as [i T1 R|i T1 R|b T1 R|b T1|x T1|x T1 R|y x T1 A R|c x p q T1 A Hh Hp Hq|x p T1 A Hn|x ps T1 A Hn|x p q T1 A Hp Hn]; subst; cbn [ocell vcell value_weight chars] in *.
  - split; [|cbn; lia]. apply fits_one, fits_int. unfold int_range in R. lia.
  - split; [|cbn; lia]. apply fits_one, fits_int. unfold long_range in R. lia.
  - split; [|cbn; lia]. apply fits_one, fits_float.
  - split; [|cbn; lia]. eapply fits_more; [apply fits_one, fits_bool|lia].
  - split; [apply fits_one, fits_str; exact C|]. unfold str_weight. pose proof (zlen_nonneg x). change (zlen [sobj (JStr x)]) with 1. lia.
  - split; [apply fits_one, fits_bin|]. pose proof (zlen_nonneg x). change (zlen [sobj (JBin x)]) with 1. lia.
  - split; [apply fits_one, fits_bin|]. pose proof (zlen_nonneg x). change (zlen [MBin x]) with 1. lia.
  - split; [|cbn; lia]. assert (En : forall z, z = p \/ z = q -> end_of j c x z) by (intros z Hz; exists n, fs, rows, row, f, t, p, q; split; [exact Ik|]; split; [exact Ir|]; split; [exact If|]; split; [exact Ev|]; split; [lia|]; split; [lia|exact Hz]).
    replace 18 with (9 + 9) by lia. apply fits_cons; [apply number_small; [exact Hh|apply En; left; reflexivity]|apply fits_one, number_small; [exact Hh|apply En; right; reflexivity]].
  - split; [|cbn; lia]. apply fits_one, fits_int. specialize (Nodes _ _ Hn). lia.
  - change (zlen [MArr (map MInt (map Z.of_nat ps))]) with 1. pose proof (zlen_nonneg ps). split; [|lia]. apply fits_one, fits_arr; [|rewrite !zlen_map; lia]. rewrite <- sum_const. unfold pack_all. rewrite map_map.
    assert (G : fits_in (concatM (fun p => pack (MInt (Z.of_nat p))) ps) (sum (fun _ => 9) ps)). { apply fits_concat. intros p Hp. apply fits_int. rewrite Forall_forall in Hn. specialize (Nodes _ _ (Hn _ Hp)). lia. }
    destruct G as [G1 G2]. split; [exact G1|]. intros L. rewrite concatM_map. apply G2. exact L.
  - split; [|cbn; lia]. apply fits_one. replace 23 with (5 + (9 + 9)) by lia. specialize (Nodes _ _ Hn). apply fits_arr; [|cbn; lia]. apply fits_cons; [apply fits_int; lia|apply fits_one, fits_int; lia].
Qed.
Lemma type_name_fits t : jtype_ok j t -> fits_in (pack (MStr (type_name t))) 57.
Proof.
  intros Ty. destruct (jt_known j t Ty) as (tn & En & Nu). unfold type_name. rewrite En. cbn [jname_string]. assert (G : forall x, type_string tn = Ok x -> Forall scalar x /\ str_weight x <= 57).
  { intros x Ex. destruct tn; cbn in Ex; try congruence; apply Ok_inj in Ex; subst x; (split; [repeat constructor; unfold scalar; vm_compute; left; reflexivity|vm_compute; discriminate]). }
  destruct (type_string tn) as [x|] eqn:Ex; [|destruct tn; cbn in Ex; congruence]. destruct (G x eq_refl) as [G1 G2]. eapply fits_more; [apply fits_str; exact G1|exact G2].
Qed.
Lemma layer_fits n fs rows : In (n, (fs, rows)) (jd_layers j) ->
  let l := elayer_of T (n, (fs, rows)) in
  fits_in (pack (MStr (el_name l))) (str_weight n) /\
  fits_in (pack_all (MInt (zlen (el_fields l)) :: flat_map field_objs (el_fields l))) (9 + sum (fun ft => str_weight (fst ft) + 63 + sum pair_weight (ty_args (snd ft))) fs) /\
  fits_in (section (layer_objs l)) (18 + (6 * zlen fs + sum (row_weight fs) rows)).
Proof.
  intros Ik. cbn zeta. pose proof (jk_fields j Jok _ _ _ Ik) as (_ & Lr & Ty). destruct (dc_layers j Ch _ _ _ Ik) as (Cn & Cf & Cv). split; [apply fits_str; exact Cn|]. pose proof (zlen_nonneg rows) as Zr. pose proof (zlen_nonneg fs) as Zf.
  assert (Lf : zlen fs < 2147483648).
  { destruct weight_pos as (V & P & X & F & R & L). pose proof (sum_In layer_weight _ _ L Ik) as H. pose proof (sum_pos pair_weight (jd_props j) P). pose proof (sum_pos text_weight (jd_texts j) X). unfold doc_weight in Small. set (sl := sum layer_weight (jd_layers j)) in *. unfold layer_weight, str_weight in H. cbn [fst snd] in H. pose proof (zlen_nonneg n).
    pose proof (sum_pos (row_weight fs) rows (R fs)). assert (Hf : zlen fs <= sum field_weight fs). { apply sum_len. intros ft. unfold field_weight, str_weight. pose proof (zlen_nonneg (fst ft)). pose proof (sum_pos pair_weight (ty_args (snd ft)) P). lia. } lia. }
  split.
  - cbn [elayer_of el_fields fst snd]. apply fits_cons; [apply fits_int; rewrite zlen_map; lia|]. rewrite flat_map_concat_map, map_map, <- flat_map_concat_map. apply fits_flat. intros [f t] If. destruct (Cf f t If) as [Hf Ha]. pose proof (Ty f t If) as To. unfold field_objs. cbn [efield_of ef_name ef_type ef_args fst snd].
    pose proof (fits_pairs (ty_args t) (proj2 (jt_args j t To)) Ha) as Hp. destruct (ty_args t) as [|a l].
    + cbn [sum fold_right]. eapply fits_more; [apply fits_cons; [apply fits_str; exact Hf|apply fits_cons; [apply fits_bool|apply fits_one, type_name_fits; exact To]]|lia].
    + eapply fits_more; [apply fits_cons; [apply fits_str; exact Hf|apply fits_cons; [apply fits_bool|apply fits_cons; [apply type_name_fits; exact To|apply fits_one; exact Hp]]]|]. lia.
  - unfold layer_objs. cbn [elayer_of el_fields el_num fst snd]. replace (18 + (6 * zlen fs + sum (row_weight fs) rows)) with (9 + (9 + sum (fun ft => 1 + (5 + sum (fun row => match dget row (fst ft) with Some v => value_weight v | None => 2 end) rows)) fs)).
    2:{ rewrite (sum_ext _ (fun ft => 6 + sum (fun row => match dget row (fst ft) with Some v => value_weight v | None => 2 end) rows)) by (intros; lia). rewrite sum_plus, sum_const. unfold row_weight. rewrite (sum_swap (fun row ft => match dget row (fst ft) with Some v => value_weight v | None => 2 end) rows fs). lia. }
    apply fits_section. apply fits_cons; [apply fits_int; lia|]. rewrite flat_map_concat_map, map_map, <- flat_map_concat_map. apply fits_flat. intros [f t] If. cbn [efield_of ef_col fst snd]. apply fits_cons; [apply fits_bool|]. apply fits_one, fits_arr.
    + apply fits_flat. intros row Ir. apply (cell_fits_in n fs rows row f t Ik Ir If).
    + assert (G : forall all, (forall r, In r all -> In r rows) -> zlen (flat_map (fun row => ocell T (is_span_field t) (dget row f)) all) <= sum (fun row => match dget row f with Some v => value_weight v | None => 2 end) all).
      { induction all as [|r all IH]; intros I; [cbn; lia|]. cbn [flat_map]. rewrite zlen_app'. unfold sum in *. cbn [fold_right]. pose proof (proj2 (cell_fits_in n fs rows r f t Ik (I r (or_introl eq_refl)) If)) as H. specialize (IH (fun y Hy => I y (or_intror Hy))). cbn beta in H. lia. }
      apply G. auto.
Qed.
Lemma texts_fit_in : fits_in (pack (texts_obj (parts_of T))) (5 + sum text_weight (jd_texts j)).
Proof.
  pose proof (parts_cut j T FT) as P. pose proof (dc_texts j Ch) as C.
  assert (G : exists w, (forall k o, In (k, o) (map (fun kt => (fst kt, MArr (map MStr (snd kt)))) (parts_of T)) -> Forall scalar k /\ fits_in (pack o) (w (k, o))) /\ sum (fun ko => str_weight (fst ko) + w ko) (map (fun kt => (fst kt, MArr (map MStr (snd kt)))) (parts_of T)) <= sum text_weight (jd_texts j)).
  { exists (fun ko => match snd ko with MArr l => 5 + sum (fun o => match o with MStr y => str_weight y | _ => 0 end) l | _ => 0 end). split.
    - intros k o I. apply in_map_iff in I. destruct I as ([k' xs] & E & I). cbn [fst snd] in E. injection E as -> <-. cbn [snd].
      apply In_nth_error in I. destruct I as [i Hi]. destruct (Forall2_nth _ _ _ _ _ (Forall2_flip (fun a b => part_of j b a) _ _ P) Hi) as ([c u] & Hu & E1 & x & cuts & Hh & Ex & Hc). cbn [fst snd] in *. subst k xs.
      pose proof (nth_error_In _ _ Hu) as Iu. rewrite Forall_forall in C. split; [exact (C _ Iu)|]. destruct (cut_length x cuts (ends_in c x cuts Hc)) as [Cc _]. apply fits_arr.
      + pose proof (proj2 Hh) as Sx. assert (Sp : Forall (Forall scalar) (cut_text x cuts)). { apply Forall_forall. intros y Hy. apply Forall_forall. intros ch Hch. rewrite Forall_forall in Sx. specialize (Sx ch). unfold scalar. apply Sx. rewrite <- Cc. apply in_concat. exists y. auto. }
        clear - Sp. induction Sp as [|y ys H1 H2 IH]; [apply fits_nil|]. cbn [map]. unfold sum in *. cbn [fold_right]. apply fits_cons; [apply fits_str; exact H1|exact IH].
      + clear. rewrite zlen_map. unfold zlen, sum. induction (cut_text x cuts) as [|y ys IH]; [cbn; lia|]. cbn [map fold_right length]. unfold str_weight in *. pose proof (zlen_nonneg y). lia.
    - clear C Small. assert (Sub : forall cu, In cu (jd_texts j) -> dget (jd_texts j) (fst cu) = Some (snd cu)) by (intros [c u] I; apply dget_nodup; [exact (proj1 (jk_texts j Jok))|exact I]). revert P Sub. generalize (parts_of T). generalize (jd_texts j) at 1 2 4. intros ts ps P Sub. unfold sum. induction P as [|[c u] [c' xs] ts ps (E1 & x & cuts & Hh & Ex & Hc) P IH]; [cbn; lia|]. cbn [map fold_right fst snd] in *. subst c' xs. destruct (cut_length x cuts (ends_in c x cuts Hc)) as [Cc Lc].
      assert (Eu : zlen x <= zlen u). { pose proof (utf16_longer x) as Q. pose proof (Sub _ (or_introl eq_refl)) as Q2. cbn [fst snd] in Q2. rewrite (proj1 Hh) in Q2. injection Q2 as <-. exact Q. }
      specialize (IH (fun cu I => Sub cu (or_intror I))).
      assert (Es : fold_right (fun o n => match o with MStr y => str_weight y | _ => 0 end + n) 0 (map MStr (cut_text x cuts)) = 5 * zlen (cut_text x cuts) + 4 * zlen x).
      { replace (4 * zlen x) with (4 * zlen (List.concat (cut_text x cuts))) by (rewrite Cc; reflexivity). clear. induction (cut_text x cuts) as [|y ys IH]; [reflexivity|]. cbn [map fold_right List.concat]. rewrite IH, zlen_app'. unfold str_weight, zlen. cbn [length]. lia. }
      unfold text_weight at 1. cbn [fst snd]. unfold sum. rewrite Es. lia. }
  destruct G as (w & G1 & G2). eapply fits_more; [apply fits_map; exact G1|]. lia.
Qed.
Theorem layout_fits : fits_in (layout (edoc_of T j)) (doc_weight j).
Proof.
  destruct (fits_section [MMap (sobjs (jd_props j))] (5 + sum pair_weight (jd_props j))) as [P1 H1]; [apply fits_one, fits_pairs; [exact (proj2 (jk_props j Jok))|exact (dc_props j Ch)]|].
  assert (H2 : fits_in (pack_all (MArr (map (fun l => MStr (el_name l)) (map (elayer_of T) (jd_layers j))) :: schema_objs (map (elayer_of T) (jd_layers j)))) (5 + sum (fun kl => str_weight (fst kl)) (jd_layers j) + sum (fun kl : pystr * (dict jdtype * list (dict jv)) => 9 + sum (fun ft => str_weight (fst ft) + 63 + sum pair_weight (ty_args (snd ft))) (fst (snd kl))) (jd_layers j))).
  { apply fits_cons.
    - apply fits_arr.
      + unfold pack_all. rewrite !map_map. destruct (fits_concat (fun kl => pack (MStr (el_name (elayer_of T kl)))) (fun kl => str_weight (fst kl)) (jd_layers j)) as [A B]; [intros [n [fs rows]] Ik; apply (layer_fits n fs rows Ik)|]. split; [exact A|]. intros L. rewrite concatM_map. exact (B L).
      + rewrite !zlen_map. apply sum_len. intros kl. unfold str_weight. pose proof (zlen_nonneg (fst kl)). lia.
    - unfold schema_objs. rewrite flat_map_concat_map, map_map, <- flat_map_concat_map. apply fits_flat. intros [n [fs rows]] Ik. apply (layer_fits n fs rows Ik). }
  destruct H2 as [P2 H2]. destruct (fits_section [texts_obj (parts_of T)] (5 + sum text_weight (jd_texts j))) as [P3 H3]; [apply fits_one, texts_fit_in|].
  destruct (fits_concat (fun l => section (layer_objs (elayer_of T l))) (fun kl : pystr * (dict jdtype * list (dict jv)) => 18 + (6 * zlen (fst (snd kl)) + sum (row_weight (fst (snd kl))) (snd (snd kl)))) (jd_layers j)) as [P4 H4]; [intros [n [fs rows]] Ik; apply (layer_fits n fs rows Ik)|].
  assert (E : sum layer_weight (jd_layers j) = sum (fun kl => str_weight (fst kl)) (jd_layers j) + sum (fun kl : pystr * (dict jdtype * list (dict jv)) => 9 + sum (fun ft => str_weight (fst ft) + 63 + sum pair_weight (ty_args (snd ft))) (fst (snd kl))) (jd_layers j) + sum (fun kl : pystr * (dict jdtype * list (dict jv)) => 18 + (6 * zlen (fst (snd kl)) + sum (row_weight (fst (snd kl))) (snd (snd kl)))) (jd_layers j)).
  { rewrite <- !sum_plus. apply sum_ext. intros [n [fs rows]]. unfold layer_weight. cbn [fst snd]. assert (Q : sum field_weight fs = sum (fun ft => str_weight (fst ft) + 63 + sum pair_weight (ty_args (snd ft))) fs + 6 * zlen fs) by (rewrite <- sum_const, <- sum_plus; apply sum_ext; intros ft; unfold field_weight; lia). lia. }
  split; [unfold doc_weight; lia|]. unfold doc_weight. rewrite E. intros L. destruct H1 as (p & E1 & L1); [lia|]. destruct H2 as (sc & E2 & L2); [lia|]. destruct H3 as (tx & E3 & L3); [lia|]. destruct H4 as (l & E4 & L4); [lia|].
  exists (magic ++ p ++ sc ++ tx ++ l). unfold layout, edoc_of. cbn [ed_props ed_texts ed_layers]. rewrite E1. cbn [rbind]. rewrite E2. cbn [rbind]. rewrite E3. cbn [rbind]. rewrite concatM_map, E4. cbn [rbind]. split; [reflexivity|]. rewrite !zlen_app'. change (zlen magic) with 4. lia.
Qed.
End Weigh.

Theorem small_written j : jdoc_ok j -> doc_chars j -> doc_weight j < 2147483648 -> exists bytes, java_encode j = Ok bytes /\ zlen bytes <= doc_weight j.
Proof.
  intros Jok Ch W. destruct (compiles j Jok) as (T & ET & FT). destruct (layout_fits j T Jok Ch ET FT W) as [_ H]. destruct (H W) as (b & E & L). exists b. split; [|exact L]. apply (java_writes j b Jok). exists T. split; [exact ET|]. split; [exact E|lia].
Qed.

(** ** what is refused *)
Lemma mapM_flat {A B C} (f : B -> res C) (g : A -> list B) l : (let* _ := mapM (fun x => mapM f (g x)) l in Ok tt) = (let* _ := mapM f (flat_map g l) in Ok tt).
Proof.
  assert (App : forall l1 l2, mapM f (l1 ++ l2) = (let* a := mapM f l1 in let* b := mapM f l2 in Ok (a ++ b))).
  { induction l1 as [|x l1 IH]; intros l2; cbn [app mapM]; [cbn [rbind]; destruct (mapM f l2); reflexivity|]. destruct (f x); [cbn [rbind]|reflexivity]. rewrite IH. destruct (mapM f l1); [cbn [rbind]|reflexivity]. destruct (mapM f l2); reflexivity. }
  induction l as [|x l IH]; [reflexivity|]. cbn [mapM flat_map]. rewrite App. destruct (mapM f (g x)) as [a|e]; cbn [rbind]; [|reflexivity]. destruct (mapM (fun y => mapM f (g y)) l) as [r|e]; cbn [rbind] in *; destruct (mapM f (flat_map g l)); cbn [rbind] in *; congruence.
Qed.
Lemma validate_types j : jvalidate j = (let* _ := mapM (jvalid_field j) (field_types j) in Ok tt).
Proof.
  unfold jvalidate, field_types. rewrite <- (mapM_flat (jvalid_field j) (fun kl : pystr * (dict jdtype * list (dict jv)) => map snd (fst (snd kl)))).
  assert (E : forall l : list (pystr * (dict jdtype * list (dict jv))), mapM (fun kl => mapM (fun ft => jvalid_field j (snd ft)) (fst (snd kl))) l = mapM (fun kl => mapM (jvalid_field j) (map snd (fst (snd kl)))) l).
  { assert (E0 : forall fs : dict jdtype, mapM (fun ft => jvalid_field j (snd ft)) fs = mapM (jvalid_field j) (map snd fs)) by (induction fs as [|ft fs IH]; [reflexivity|]; cbn [mapM map]; rewrite IH; reflexivity).
    induction l as [|kl l IH]; [reflexivity|]. cbn [mapM]. rewrite IH, E0. reflexivity. }
  rewrite E. reflexivity.
Qed.
Lemma mem_false {A} (d : dict A) k : ~ In k (dkeys d) -> dmem d k = false.
Proof. intros H. destruct (dmem d k) eqn:E; [|reflexivity]. apply dmem_In in E. contradiction. Qed.
Lemma fine_valid j t : fine j t -> jvalid_field j t = Ok tt.
Proof.
  intros F. unfold jvalid_field, fine, naming, there in *. destruct (ty_name t) as [|tn|] eqn:E; try reflexivity. destruct tn; try reflexivity.
  all: match goal with |- context [arg_name _ ?k] => destruct (F k) as (x & A & I); [first [left; split; reflexivity|right; split; [first [left; reflexivity|right; reflexivity]|reflexivity]]|] end.
  all: rewrite (argument_name _ _ _ A); cbn [rbind]; rewrite (proj2 (dmem_In _ _) I); reflexivity.
Qed.
Lemma absent_invalid j t : absent j t -> jvalid_field j t = Err DataError.
Proof.
  intros (key & x & Nm & A & I). unfold jvalid_field, naming, there in *. destruct Nm as [[E ->]|[[E|E] ->]]; rewrite E in *; rewrite (argument_name _ _ _ A); cbn [rbind]; rewrite (mem_false _ _ I); reflexivity.
Qed.
Lemma nameless_invalid j t : nameless t -> jvalid_field j t = Err AttributeError.
Proof. intros (key & Nm & A). unfold jvalid_field, naming, arg_name in *. destruct Nm as [[E ->]|[[E|E] ->]]; rewrite E, A; reflexivity. Qed.
Theorem first_refused j a t b : field_types j = a ++ t :: b -> Forall (fine j) a ->
  (absent j t -> java_encode j = Err DataError) /\ (nameless t -> java_encode j = Err AttributeError).
Proof.
  intros E F. assert (G : forall e, jvalid_field j t = Err e -> java_encode j = Err e).
  { intros e He. unfold java_encode. rewrite validate_types, E. replace (mapM (jvalid_field j) (a ++ t :: b)) with (@Err (list unit) e); [reflexivity|]. clear E. induction F as [|y a Hy F IH]; cbn [app mapM]; [rewrite He; reflexivity|]. rewrite (fine_valid _ _ Hy). cbn [rbind]. rewrite <- IH. reflexivity. }
  split; intros H; apply G; [apply absent_invalid|apply nameless_invalid]; exact H.
Qed.
Lemma all_fine j : Forall (fine j) (field_types j) -> jvalidate j = Ok tt.
Proof.
  intros F. rewrite validate_types. destruct (mapM (jvalid_field j) (field_types j)) as [r|e] eqn:E; [reflexivity|]. exfalso. revert e E. induction F as [|y a Hy F IH]; intros e E; cbn [mapM] in E; [discriminate|]. rewrite (fine_valid _ _ Hy) in E. cbn [rbind] in E. destruct (mapM (jvalid_field j) a) as [r|e']; [discriminate|]. exact (IH e' eq_refl).
Qed.
Lemma mapM_err {A B} (f : A -> res B) e l : (forall x e', In x l -> f x = Err e' -> e' = e) -> (exists x e', In x l /\ f x = Err e') -> mapM f l = Err e.
Proof.
  induction l as [|y l IH]; intros O (x & e' & I & E); [destruct I|]. cbn [mapM]. destruct (f y) as [b|e2] eqn:Ey; [|rewrite (O y e2 (or_introl eq_refl) Ey); reflexivity]. cbn [rbind]. rewrite IH; [reflexivity|intros z e3 Iz; apply O; right; exact Iz|]. destruct I as [->|I]; [congruence|eauto].
Qed.
Lemma row_error fs row e : row_spans fs row = Err e -> e = NotImplementedError.
Proof.
  induction fs as [|[f t] fs IH]; cbn [row_spans]; [discriminate|]. destruct (is_span_field t); [destruct (dget row f) as [[]|]|]; cbn [rbind]; try (intros H; injection H as <-; reflexivity); (destruct (row_spans fs row); cbn [rbind]; [discriminate|intros H; injection H as <-; apply IH; reflexivity]).
Qed.
Lemma row_spanless fs row f t v : In (f, t) fs -> ty_name t = JT TSpan -> dget row f = Some v -> no_span v -> row_spans fs row = Err NotImplementedError.
Proof.
  intros I Et Ev Nv. destruct (row_spans fs row) as [l|e] eqn:E; [|rewrite (row_error _ _ _ E); reflexivity]. exfalso. revert l E. induction fs as [|[f' t'] fs IH]; [destruct I|]; intros l E. cbn [row_spans] in E. destruct I as [I|I].
  - injection I as -> ->. unfold is_span_field in E. rewrite Et, Ev in E. destruct v; cbn [rbind] in E; try discriminate. exact (Nv _ _ _ eq_refl).
  - destruct (if is_span_field t' then _ else _) as [here|]; [|discriminate]. cbn [rbind] in E. destruct (row_spans fs row) as [q|]; [|discriminate]. exact (IH I q eq_refl).
Qed.
Theorem spans_refused j : Forall (fine j) (field_types j) -> spanless j -> java_encode j = Err NotImplementedError.
Proof.
  intros F (k & fs & rows & row & f & t & v & Ik & Ir & If & Et & Ev & Nv). unfold java_encode. rewrite (all_fine j F). cbn [rbind]. unfold jcompile, all_spans.
  assert (Rows : forall fs rows e, (let* r := mapM (row_spans fs) rows in Ok (List.concat r)) = Err e -> e = NotImplementedError).
  { intros fs0 rows0 e E. assert (G : forall e, mapM (row_spans fs0) rows0 = Err e -> e = NotImplementedError).
    { clear. induction rows0 as [|r rows IH]; intros e; cbn [mapM]; [discriminate|]. destruct (row_spans fs0 r) eqn:Er; cbn [rbind]; [|intros H; injection H as <-; exact (row_error _ _ _ Er)]. destruct (mapM (row_spans fs0) rows); cbn [rbind]; [discriminate|intros H; injection H as <-; apply IH; reflexivity]. }
    destruct (mapM (row_spans fs0) rows0); cbn [rbind] in E; [discriminate|]. injection E as <-. apply G. reflexivity. }
  rewrite (mapM_err _ NotImplementedError); [reflexivity|intros [k0 [fs0 rows0]] e _; cbn [fst snd]; apply Rows|]. exists (k, (fs, rows)), NotImplementedError. split; [exact Ik|]. cbn [fst snd].
  rewrite (mapM_err _ NotImplementedError); [reflexivity|intros r e _; apply row_error|]. exists row, NotImplementedError. split; [exact Ir|]. eapply row_spanless; eassumption.
Qed.
