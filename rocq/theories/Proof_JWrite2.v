(** Documents of the Java port that are too large. *)
From Verif Require Import PyBase PyBaseFacts Model_Text Model_Heap Model_Layer Model_Types Model_Msgpack Model_Document Model_Codec Model_JUnits Model_JLayer Model_JStream Model_JText Model_JCodec Model_JEncode
  Spec_Layer Spec_Types Spec_Msgpack Spec_Document Spec_Codec Spec_JText Spec_JUnits Spec_JCodec Spec_JEncode Spec_JWrite Spec_Refused
  Proof_Text Proof_Document Proof_Msgpack Proof_Layout Proof_Codec Proof_Codec2 Proof_Codec5 Proof_JText Proof_JText2 Proof_JText3 Proof_JUnits Proof_JCodec Proof_JCodec2 Proof_JEncode Proof_JEncode2 Proof_Through Proof_Through3 Proof_Through4 Proof_Through6 Proof_JStream2 Proof_JWrite Proof_Refused.
Local Open Scope Z_scope.
Local Arguments s : simpl never.

(** ** results that are there or are refused for their length *)
Definition mild {A} (r : res A) : Prop := match r with Ok _ => True | Err e => e = ValueError end.
Lemma mild_then a b : mild a -> mild b -> mild (then_ a b).
Proof. unfold then_. destruct a as [x|e]; cbn; [|auto]. intros _. destruct b as [y|e]; cbn; auto. Qed.
Lemma mild_concat {A} (f : A -> res (list N)) l : (forall x, In x l -> mild (f x)) -> mild (concatM f l).
Proof.
  induction l as [|x l IH]; intros H; [exact I|]. cbn [concatM]. pose proof (H x (or_introl eq_refl)) as Hx. destruct (f x) as [b|e]; [|exact Hx]. cbn [rbind].
  specialize (IH (fun y Hy => H y (or_intror Hy))). destruct (concatM f l) as [c|e]; [exact I|exact IH].
Qed.
Lemma mild_int i : - 9223372036854775808 <= i < 18446744073709551616 -> mild (pack (MInt i)).
Proof. intros R. destruct (pack (MInt i)) as [b|e] eqn:E; [exact I|]. apply pack_err in E. inversion E; subst. contradiction. Qed.
Lemma mild_bool b : mild (pack (MBool b)).
Proof. destruct b; exact I. Qed.
Lemma mild_nil : mild (pack MNil).
Proof. exact I. Qed.
Lemma mild_float b : mild (pack (MFloat b)).
Proof. exact I. Qed.
Lemma mild_str x : Forall scalar x -> mild (pack (MStr x)).
Proof. intros F. destruct (pack (MStr x)) as [b|e] eqn:E; [exact I|]. apply pack_err in E. inversion E as [|? ? H| | | | | |]; subst. inversion H; subst; [contradiction|reflexivity]. Qed.
Lemma mild_bin x : mild (pack (MBin x)).
Proof. destruct (pack (MBin x)) as [b|e] eqn:E; [exact I|]. apply pack_err in E. inversion E; subst. reflexivity. Qed.
Lemma mild_arr n : mild (pack_arr n).
Proof. unfold pack_arr. destruct (2147483647 <? n); [reflexivity|]. destruct (arr_head n) eqn:E; [exact I|]. apply arr_head_err in E. exact (proj2 E). Qed.
Lemma mild_map n : mild (pack_map n).
Proof. unfold pack_map. destruct (2147483647 <? n); [reflexivity|]. destruct (map_head n) eqn:E; [exact I|]. apply map_head_err in E. exact (proj2 E). Qed.
Lemma mild_sized r : mild r -> mild (sized r).
Proof.
  unfold sized. destruct r as [b|e]; cbn [rbind]; [|auto]. intros _. destruct (Z.ltb_spec 2147483647 (zlen b)); [reflexivity|]. pose proof (zlen_nonneg b).
  pose proof (mild_int (zlen b) ltac:(lia)) as M. destruct (pack (MInt (zlen b))); [exact I|exact M].
Qed.
Lemma mild_scalar_any v (f : jv -> res (list N)) : (forall v, jscalar v -> f v = pack (sobj v)) -> jscalar v -> chars v -> mild (f v).
Proof.
  intros E S C. rewrite (E _ S). destruct S as [b|i R|i R|b R|x|x R]; cbn [sobj chars] in *.
  - apply mild_bool.
  - apply mild_int. unfold int_range in R. lia.
  - apply mild_int. unfold long_range in R. lia.
  - apply mild_float.
  - apply mild_str. exact C.
  - apply mild_bin.
Qed.

Section Mild.
Variables (j : jdoc) (T : dict (jtext * list (list N))).
Hypothesis Jok : jdoc_ok j.
Hypothesis Ch : doc_chars j.
Hypothesis Sz : java_sizes j.
Hypothesis ET : jcompile j = Ok T.
Hypothesis FT : Forall2 (cut_exactly j) (jd_texts j) T.
Lemma number_mild c x p : holds_text j c x -> end_of j c x p -> mild (pack (MInt (number_of T c (upos x p)))).
Proof.
  intros Hh (n & fs & rows & row & f & ty & a & b & In_ & Ir & If & Ev & Ha & Hb & Hp). destruct (parts_known j T c x Jok ET Hh) as (t & xs & _ & Exs & _ & Hn). destruct (Hn _ _ _ _ _ _ _ _ In_ Ir If Ev ltac:(lia) ltac:(lia) p Hp) as [Bd _].
  pose proof (dget_In _ _ (proj1 Hh)) as It. pose proof (proj1 Sz _ _ It) as Lu. pose proof (utf16_longer x) as Lx.
  assert (Lxs : zlen xs <= zlen x + 1).
  { destruct (dget_Forall2 (fun c u p => part_of j (c, u) (c, p)) (jd_texts j) (parts_of T)) with (k := c) (v := utf16 x) as (p0 & Et & _ & x' & cuts' & Hh' & Epp & Hc'); [|exact (proj1 Hh)|].
    { eapply Forall2_impl'; [exact (parts_cut j T FT)|]. intros [c1 u] [c2 tp] _ [E1 E2]. cbn [fst snd] in *. subst c2. split; [reflexivity|split; [reflexivity|exact E2]]. }
    cbn [fst snd] in *. pose proof (holds_same _ _ _ _ Hh Hh') as <-. rewrite Et in Exs. injection Exs as <-. subst p0. apply cut_length. eapply ends_in. exact Hc'. }
  apply mild_int. lia.
Qed.
Lemma cell_mild n fs rows row f t v : In (n, (fs, rows)) (jd_layers j) -> In row rows -> In (f, t) fs -> dget row f = Some v ->
  mild (jwrite false T v) /\ (ty_name t = JT TSpan -> mild (jwrite_span T (Some v))).
Proof.
  intros Ik Ir If Ev. pose proof (jk_values j Jok _ _ _ _ _ _ _ Ik Ir If Ev) as V. pose proof (proj2 (proj2 (dc_layers j Ch _ _ _ Ik)) _ _ _ _ Ir If Ev) as C.
  assert (Nodes : forall x p, has_node j x p -> Z.of_nat p < 2147483648).
  { intros x p (fs0 & rows0 & E & L). pose proof (jk_fields j Jok _ _ _ (dget_In _ _ E)) as (_ & L0 & _). unfold zlen in L0. lia. }
  inversion V as [i T1 R|i T1 R|b T1 R|b T1|x T1|x T1 R|y x T1 A R|c x p q T1 A Hh Hp Hq|x p T1 A Hn|x ps T1 A Hn|x p q T1 A Hp Hn]; subst; cbn [jwrite jwrite_span chars] in *;
    try (split; [|rewrite T1; discriminate]).
  - apply mild_int. unfold int_range in R. lia.
  - apply mild_int. unfold long_range in R. lia.
  - apply mild_float.
  - apply mild_bool.
  - apply mild_str. exact C.
  - apply mild_bin.
  - apply mild_bin.
  - assert (En : forall z, z = p \/ z = q -> end_of j c x z) by (intros z Hz; exists n, fs, rows, row, f, t, p, q; split; [exact Ik|]; split; [exact Ir|]; split; [exact If|]; split; [exact Ev|]; split; [lia|]; split; [lia|exact Hz]).
    destruct (numbered j T Jok ET _ _ _ _ _ _ _ _ _ Ik Ir If Ev) as [[i Ei] [k Ek]].
    pose proof (number_mild c x p Hh (En p (or_introl eq_refl))) as M1. pose proof (number_mild c x q Hh (En q (or_intror eq_refl))) as M2. unfold number_of in M1, M2. rewrite Ei in M1. rewrite Ek in M2.
    rewrite Ei, Ek. cbn [rbind]. split; [|intros _]; apply mild_then; assumption.
  - apply mild_int. specialize (Nodes _ _ Hn). lia.
  - apply mild_then; [apply mild_arr|]. apply mild_concat. intros p Hp. apply mild_int. rewrite Forall_forall in Hn. specialize (Nodes _ _ (Hn _ Hp)). lia.
  - specialize (Nodes _ _ Hn). apply mild_then; [apply mild_arr|]. apply mild_then; apply mild_int; lia.
Qed.
Lemma layer_mild kl : In kl (jd_layers j) -> mild (jwrite_layer T kl).
Proof.
  destruct kl as [n [fs rows]]. intros Ik. unfold jwrite_layer. cbn [fst snd]. pose proof (jk_fields j Jok _ _ _ Ik) as (_ & Lr & _). apply mild_sized, mild_then; [pose proof (zlen_nonneg rows); apply mild_int; lia|].
  apply mild_concat. intros [f t] If. unfold jwrite_column. cbn [fst snd]. apply mild_then; [apply mild_bool|]. unfold is_span_field.
  assert (S : ty_name t = JT TSpan \/ match ty_name t with JT TSpan => true | _ => false end = false) by (destruct (ty_name t) as [|[]|]; auto). destruct S as [S|S].
  - rewrite S. apply mild_then; [apply mild_arr|]. apply mild_concat. intros row Ir. destruct (dget row f) as [v|] eqn:Ev; [|exact I]. apply (cell_mild _ _ _ _ _ _ _ Ik Ir If Ev). exact S.
  - rewrite S. apply mild_then; [apply mild_arr|]. apply mild_concat. intros row Ir. destruct (dget row f) as [v|] eqn:Ev; [|exact I]. apply (cell_mild _ _ _ _ _ _ _ Ik Ir If Ev).
Qed.
Lemma pairs_mild (f : jv -> res (list N)) d : (forall v, jscalar v -> f v = pack (sobj v)) -> (forall k v, In (k, v) d -> jscalar v) -> Forall pair_chars d ->
  mild (concatM (fun kv => then_ (pack (MStr (fst kv))) (f (snd kv))) d).
Proof.
  intros E S F. rewrite Forall_forall in F. apply mild_concat. intros [k v] I. destruct (F _ I) as [Fk Fv]. cbn [fst snd] in *. apply mild_then; [apply mild_str; exact Fk|]. eapply mild_scalar_any; [exact E|eapply S; exact I|exact Fv].
Qed.
Lemma props_mild : mild (jwrite_props T (jd_props j)).
Proof.
  unfold jwrite_props. apply mild_sized, mild_then; [apply mild_map|]. apply pairs_mild; [|exact (proj2 (jk_props j Jok))|exact (dc_props j Ch)]. intros v S. destruct S; reflexivity.
Qed.
Lemma schema_mild : mild (jwrite_schema (jd_layers j)).
Proof.
  unfold jwrite_schema. apply mild_then; [apply mild_then; [apply mild_arr|]|]; apply mild_concat; intros [n [fs rows]] Ik; cbn [fst snd]; destruct (dc_layers j Ch _ _ _ Ik) as (Cn & Cf & Cv).
  - apply mild_str. exact Cn.
  - pose proof (proj2 Sz _ _ _ Ik) as Lf. apply mild_then; [pose proof (zlen_nonneg fs); apply mild_int; lia|]. apply mild_concat. intros [f t] If. destruct (Cf f t If) as [Hf Ha].
    pose proof (proj2 (proj2 (jk_fields j Jok _ _ _ Ik)) f t If) as To. unfold jwrite_field. cbn [fst snd].
    destruct (jt_known j t To) as (tn & En & Nu). rewrite En. cbn [jname_string].
    assert (G : exists x, type_string tn = Ok x /\ Forall scalar x). { destruct tn; try congruence; (eexists; split; [reflexivity|]; repeat constructor; unfold scalar; vm_compute; left; reflexivity). }
    destruct G as (x & Ex & Sx). rewrite Ex. cbn [rbind]. pose proof (pairs_mild jwrite_arg (ty_args t)) as P. assert (Ea : forall v, jscalar v -> jwrite_arg v = pack (sobj v)) by (intros v S; destruct S; reflexivity).
    specialize (P Ea (proj2 (jt_args j t To)) Ha). destruct (ty_args t) as [|a l].
    + apply mild_then; [apply mild_str; exact Hf|]. apply mild_then; [apply mild_bool|apply mild_str; exact Sx].
    + apply mild_then; [apply mild_str; exact Hf|]. apply mild_then; [apply mild_bool|]. apply mild_then; [apply mild_str; exact Sx|]. apply mild_then; [apply mild_map|exact P].
Qed.
Lemma units_mild x : Forall scalar x -> mild (pack_units (utf16 x)).
Proof. intros F. unfold pack_units. rewrite java_utf8_same by exact F. apply (mild_str x F). Qed.
Lemma texts_mild : mild (jwrite_texts T).
Proof.
  unfold jwrite_texts. apply mild_sized, mild_then; [apply mild_map|]. apply mild_concat. intros [c [t ps]] I. cbn [fst snd].
  apply In_nth_error in I. destruct I as [i Hi]. destruct (Forall2_nth _ _ _ _ _ (Forall2_flip (fun a b => cut_exactly j b a) _ _ FT) Hi) as ([c' u] & Hu & E1 & x & cuts & Hh & Eu & Ep & Hc). cbn [fst snd] in *. subst c u ps.
  pose proof (dc_texts j Ch) as C. rewrite Forall_forall in C. apply mild_then; [apply mild_str; exact (C _ (nth_error_In _ _ Hu))|]. apply mild_then; [apply mild_arr|].
  destruct (cut_length x cuts (ends_in j c' x cuts Hc)) as [Cc _]. apply mild_concat. intros y Hy. apply in_map_iff in Hy. destruct Hy as (z & <- & Hz). apply units_mild. apply Forall_forall. intros ch Hch. pose proof (proj2 Hh) as Sx. rewrite Forall_forall in Sx. specialize (Sx ch). unfold scalar. apply Sx. rewrite <- Cc. apply in_concat. exists z. auto.
Qed.
Lemma encode_mild : mild (java_encode j).
Proof.
  unfold java_encode. rewrite (validated j Jok). cbn [rbind]. rewrite ET. cbn [rbind].
  assert (M : mild (then_ (Ok magic) (then_ (jwrite_props T (jd_props j)) (then_ (jwrite_schema (jd_layers j)) (then_ (jwrite_texts T) (concatM (jwrite_layer T) (jd_layers j))))))).
  { apply mild_then; [exact I|]. apply mild_then; [apply props_mild|]. apply mild_then; [apply schema_mild|]. apply mild_then; [apply texts_mild|]. apply mild_concat. apply layer_mild. }
  destruct (then_ (Ok magic) _) as [b|e]; [|exact M]. cbn [rbind]. destruct (2147483647 <? zlen b); [reflexivity|exact I].
Qed.
End Mild.

Theorem written_or_long j : jdoc_ok j -> doc_chars j -> java_sizes j ->
  (exists bytes, java_encode j = Ok bytes /\ zlen bytes < 2147483648) \/ java_encode j = Err ValueError /\ 2147483648 <= doc_weight j.
Proof.
  intros Jok Ch Sz. destruct (compiles j Jok) as (T & ET & FT). pose proof (encode_mild j T Jok Ch Sz ET FT) as M. destruct (java_encode j) as [b|e] eqn:E; cbn in M.
  - left. exists b. split; [reflexivity|]. apply (java_writes j b Jok) in E. destruct E as (T' & _ & _ & L). exact L.
  - subst e. right. split; [reflexivity|]. destruct (Z.lt_ge_cases (doc_weight j) 2147483648) as [L|L]; [|exact L]. destruct (small_written j Jok Ch L) as (b & E' & _). congruence.
Qed.

(** ** one property of 2 GiB *)
Lemma concatM_part {A} (f : A -> res (list N)) l x : In x l -> forall b, concatM f l = Ok b -> exists c, f x = Ok c /\ zlen c <= zlen b.
Proof.
  induction l as [|y l IH]; intros Hx b; [destruct Hx|]. cbn [concatM]. destruct (f y) as [p|] eqn:Ey; [|discriminate]. cbn [rbind]. destruct (concatM f l) as [q|] eqn:Eq; [|discriminate]. cbn [rbind]. intros E. apply Ok_inj in E. subst b. rewrite zlen_app'. pose proof (zlen_nonneg p). pose proof (zlen_nonneg q).
  destruct Hx as [->|Hx]; [exists p; split; [exact Ey|lia]|]. destruct (IH Hx q eq_refl) as (c & E & L). exists c. split; [exact E|lia].
Qed.
Lemma utf8_longer x : forall b, utf8_encode x = Ok b -> zlen x <= zlen b.
Proof.
  induction x as [|c x IH]; intros b; [intros E; cbn in E; apply Ok_inj in E; subst b; cbn; lia|]. cbn [utf8_encode]. destruct (utf8_char c) as [p|] eqn:Ec; [|discriminate]. cbn [rbind]. destruct (utf8_encode x) as [q|]; [|discriminate]. cbn [rbind]. intros E. apply Ok_inj in E. subst b. rewrite zlen_app'. specialize (IH q eq_refl).
  assert (1 <= zlen p). { unfold utf8_char in Ec. repeat match type of Ec with (if ?b then _ else _) = _ => destruct b; [try discriminate Ec; apply Ok_inj in Ec; subst p; cbn; lia|] end. discriminate Ec. }
  unfold zlen in *. cbn [length]. unfold pystr in *. lia.
Qed.
Lemma huge_pack v b : huge v -> pack (sobj v) = Ok b -> 2147483648 <= zlen b.
Proof.
  destruct v; cbn [huge]; try tauto; intros H; cbn [sobj pack].
  - unfold pack_str. destruct (utf8_encode x) as [u|] eqn:E; [|discriminate]. cbn [rbind]. destruct (str_head (zlen u)) as [hd|]; [|discriminate]. cbn [rbind]. intros E'. apply Ok_inj in E'. subst b. rewrite zlen_app'. pose proof (zlen_nonneg hd). pose proof (utf8_longer _ _ E). lia.
  - destruct (bin_head (zlen x)) as [hd|]; [|discriminate]. cbn [rbind]. intros E'. apply Ok_inj in E'. subst b. rewrite zlen_app'. pose proof (zlen_nonneg hd). lia.
Qed.
Theorem huge_refused j k v : jdoc_ok j -> doc_chars j -> java_sizes j -> In (k, v) (jd_props j) -> huge v -> java_encode j = Err ValueError.
Proof.
  intros Jok Ch Sz Ip Hv. destruct (written_or_long j Jok Ch Sz) as [(b & E & L)|[E _]]; [|exact E]. exfalso. unfold java_encode in E. destruct (jvalidate j); [|discriminate]. cbn [rbind] in E. destruct (jcompile j) as [T|]; [|discriminate]. cbn [rbind] in E.
  destruct (then_ (Ok magic) _) as [c|] eqn:Ec; [|discriminate]. cbn [rbind] in E. apply then_inv in Ec. destruct Ec as (m & r & _ & Er & ->). apply then_inv in Er. destruct Er as (p & r2 & Ep & _ & ->).
  unfold jwrite_props, sized in Ep. destruct (then_ (pack_map _) _) as [body|] eqn:Eb; [|discriminate]. cbn [rbind] in Ep. destruct (Z.ltb_spec 2147483647 (zlen body)); [discriminate|].
  apply then_inv in Eb. destruct Eb as (hd & q & _ & Eq & ->). destruct (concatM_part _ _ _ Ip _ Eq) as (c & Ec & Lc). cbn [fst snd] in Ec. apply then_inv in Ec. destruct Ec as (kb & vb & _ & Ev & ->).
  pose proof (proj2 (jk_props j Jok) _ _ Ip) as S. assert (Es : jwrite true T v = pack (sobj v)) by (destruct S; reflexivity). rewrite Es in Ev. pose proof (huge_pack v vb Hv Ev). rewrite !zlen_app' in *. pose proof (zlen_nonneg hd). pose proof (zlen_nonneg kb). lia.
Qed.
