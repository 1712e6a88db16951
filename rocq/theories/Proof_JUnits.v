(** Proofs: UTF-16 units and code points. *)
From Verif Require Import PyBase PyBaseFacts Model_Msgpack Spec_Msgpack Proof_Msgpack Model_Text Proof_Text Proof_Xml Proof_Codec4.
From Verif Require Import Model_JText Spec_JText Proof_JText Proof_JText2 Proof_JText3 Model_JUnits Spec_JUnits.
From Coq Require Import Sorted.
Local Open Scope Z_scope.

Lemma utf16_app a b : utf16 (a ++ b) = utf16 a ++ utf16 b.
Proof. unfold utf16. apply flat_map_app. Qed.
Lemma utf16_concat l : utf16 (List.concat l) = List.concat (map utf16 l).
Proof. induction l as [|x l IH]; simpl; [reflexivity|]. rewrite utf16_app, IH. reflexivity. Qed.
Lemma utf16_char_len c : 0 < zlen (utf16_char c).
Proof. unfold utf16_char. destruct (c <? 0x10000)%N; unfold zlen; simpl; lia. Qed.
Lemma utf16_pos x : x <> [] -> 0 < zlen (utf16 x).
Proof. destruct x as [|c x]; [congruence|]. intros _. simpl. rewrite zlen_app. pose proof (utf16_char_len c). pose proof (zlen_nonneg (utf16 x)). lia. Qed.

Lemma is_high_spec u : is_high u = true <-> (0xD800 <= u <= 0xDBFF)%N.
Proof. unfold is_high. rewrite andb_true_iff, !N.leb_le. reflexivity. Qed.
Lemma is_low_spec u : is_low u = true <-> (0xDC00 <= u <= 0xDFFF)%N.
Proof. unfold is_low. rewrite andb_true_iff, !N.leb_le. reflexivity. Qed.
Lemma is_high_no u : is_high u = false <-> ~ (0xD800 <= u <= 0xDBFF)%N.
Proof. rewrite <- is_high_spec, not_true_iff_false. reflexivity. Qed.
Lemma is_low_no u : is_low u = false <-> ~ (0xDC00 <= u <= 0xDFFF)%N.
Proof. rewrite <- is_low_spec, not_true_iff_false. reflexivity. Qed.
Lemma from_units_char c x : scalar c -> from_units (utf16_char c ++ x) = c :: from_units x.
Proof.
  intros H. unfold scalar in H. unfold utf16_char. destruct (N.ltb_spec c 0x10000) as [L|L].
  - simpl. assert (A : is_high c = false) by (apply is_high_no; lia). assert (B : is_low c = false) by (apply is_low_no; lia). rewrite A, B. reflexivity.
  - remember (c - 0x10000)%N as d eqn:Ed. assert (Hd : (d < 1024 * 1024)%N) by lia.
    pose proof (N.div_mod' d 1024) as E. assert (M : (d mod 1024 < 1024)%N) by (apply N.mod_lt; discriminate).
    assert (Hq : (d / 1024 < 1024)%N) by (apply N.div_lt_upper_bound; [discriminate|exact Hd]).
    generalize dependent (d / 1024)%N. generalize dependent (d mod 1024)%N. intros r M q E Hq.
    assert (A : is_high (0xD800 + q) = true) by (apply is_high_spec; lia). assert (B : is_low (0xDC00 + r) = true) by (apply is_low_spec; lia).
    cbn [app from_units]. rewrite A, B. f_equal. lia.
Qed.
Lemma from_units_app x y : Forall scalar x -> from_units (utf16 x ++ y) = x ++ from_units y.
Proof.
  induction 1 as [|c x Hc Hx IH]; [reflexivity|]. change (utf16 (c :: x)) with (utf16_char c ++ utf16 x). rewrite <- app_assoc, from_units_char by assumption.
  rewrite IH. reflexivity.
Qed.
Lemma from_utf16 x : Forall scalar x -> from_units (utf16 x) = x.
Proof. intros H. rewrite <- (app_nil_r (utf16 x)), from_units_app by assumption. apply app_nil_r. Qed.
Lemma java_utf8_same x : Forall scalar x -> java_utf8 (utf16 x) = utf8_encode x.
Proof. intros H. unfold java_utf8. rewrite from_utf16 by assumption. reflexivity. Qed.
Lemma java_read_same x bs : utf8_encode x = Ok bs -> java_unutf8 bs = Ok (utf16 x).
Proof. intros H. unfold java_unutf8. rewrite (utf8_round _ _ H). reflexivity. Qed.

(** what is written is always well formed, and is the string exactly if surrogates are paired *)
Lemma from_units_scalar n : forall u, (length u <= n)%nat -> Forall (fun c => (c < 0x10000)%N) u -> Forall scalar (from_units u).
Proof.
  induction n as [|n IH]; intros u L F; destruct u as [|a r]; [constructor|simpl in L; lia|constructor|]. inversion F as [|? ? Fa Fr]; subst. simpl in L.
  cbn [from_units]. destruct (is_high a) eqn:A.
  - destruct r as [|b r']; [repeat constructor; unfold scalar; lia|]. inversion Fr as [|? ? Fb Fr']; subst. simpl in L.
    apply is_high_spec in A. destruct (is_low b) eqn:B; constructor.
    + apply is_low_spec in B. unfold scalar. lia.
    + apply IH; [lia|assumption].
    + unfold scalar. lia.
    + apply IH; [simpl; lia|assumption].
  - destruct (is_low a) eqn:B; constructor.
    + unfold scalar. lia.
    + apply IH; [lia|assumption].
    + apply is_high_no in A. apply is_low_no in B. unfold scalar. lia.
    + apply IH; [lia|assumption].
Qed.
Lemma written_back u : Forall (fun c => (c < 0x10000)%N) u -> (exists bs, java_utf8 u = Ok bs /\ java_unutf8 bs = Ok (utf16 (from_units u))) /\
  (utf16 (from_units u) = u <-> paired u).
Proof.
  intros F. pose proof (from_units_scalar (length u) u (le_n _) F) as S. split.
  - destruct (utf8_encode_len _ S) as (b & E & _). exists b. split; [exact E|]. apply java_read_same. exact E.
  - split; [intros E; exists (from_units u); split; [|exact E]|].
    + eapply Forall_impl; [|exact S]. unfold scalar. intros c. simpl. tauto.
    + intros (x & Hx & <-). rewrite from_utf16; [reflexivity|]. exact Hx.
Qed.

(** positions *)
Lemma upos_in x p : 0 <= p <= zlen x -> upos x p = zlen (utf16 (firstn (Z.to_nat p) x)).
Proof. intros H. unfold upos. destruct (Z.ltb_spec p 0); [lia|]. destruct (Z.ltb_spec (zlen x) p); [lia|]. reflexivity. Qed.
Lemma upos_len x : upos x (zlen x) = zlen (utf16 x).
Proof. pose proof (zlen_nonneg x). rewrite upos_in by lia. unfold zlen at 2. rewrite Nat2Z.id, firstn_all. reflexivity. Qed.
Lemma upos_0 x : upos x 0 = 0.
Proof. pose proof (zlen_nonneg x). rewrite upos_in by lia. reflexivity. Qed.
Lemma firstn_more {A} (x : list A) a b : 0 <= a <= b -> firstn (Z.to_nat b) x = firstn (Z.to_nat a) x ++ sub x a b.
Proof.
  intros H. unfold sub. rewrite <- (firstn_skipn (Z.to_nat a) (firstn (Z.to_nat b) x)). rewrite firstn_firstn, skipn_firstn_comm. f_equal; [|f_equal]; try lia.
  f_equal. lia.
Qed.
Lemma sub_utf16 x a b : 0 <= a <= b -> b <= zlen x -> sub (utf16 x) (upos x a) (upos x b) = utf16 (sub x a b).
Proof.
  intros H1 H2. rewrite !upos_in by lia. pose proof (firstn_more x a b H1) as E.
  assert (X : utf16 x = utf16 (firstn (Z.to_nat a) x) ++ utf16 (sub x a b) ++ utf16 (skipn (Z.to_nat b) x)).
  { rewrite <- !utf16_app. rewrite app_assoc, <- E, firstn_skipn. reflexivity. }
  rewrite E. rewrite utf16_app, zlen_app. rewrite X. unfold sub at 1.
  replace (zlen (utf16 (firstn (Z.to_nat a) x)) + zlen (utf16 (sub x a b)) - zlen (utf16 (firstn (Z.to_nat a) x))) with (zlen (utf16 (sub x a b))) by lia.
  rewrite (prefix_skipn (utf16 (firstn (Z.to_nat a) x))) by reflexivity. apply prefix_firstn. reflexivity.
Qed.
Lemma upos_lt x a b : a < b -> upos x a < upos x b.
Proof.
  intros H. pose proof (zlen_nonneg (utf16 x)) as Z1. pose proof (zlen_nonneg x) as Z2.
  assert (M : forall p q, 0 <= p < q -> q <= zlen x -> upos x p < upos x q).
  { intros p q H1 H2. rewrite !upos_in by lia. rewrite (firstn_more x p q) by lia. rewrite utf16_app, zlen_app.
    assert (sub x p q <> []). { intros E. assert (L : zlen (sub x p q) = q - p) by (apply sub_length; lia). rewrite E in L. unfold zlen in L. simpl in L. lia. }
    pose proof (utf16_pos _ H0). lia. }
  destruct (Z.ltb_spec a 0) as [A|A].
  - assert (upos x a = a) by (unfold upos; destruct (Z.ltb_spec a 0); lia).
    destruct (Z.ltb_spec b 0) as [B|B]; [unfold upos at 2; destruct (Z.ltb_spec b 0); lia|].
    assert (0 <= upos x b). { unfold upos. destruct (Z.ltb_spec b 0); [lia|]. destruct (Z.ltb_spec (zlen x) b); [lia|]. apply zlen_nonneg. } lia.
  - destruct (Z.leb_spec b (zlen x)) as [B|B]; [apply M; lia|].
    assert (Eb : upos x b = zlen (utf16 x) + (b - zlen x)) by (unfold upos; destruct (Z.ltb_spec b 0); [lia|]; destruct (Z.ltb_spec (zlen x) b); [reflexivity|lia]).
    destruct (Z.leb_spec a (zlen x)) as [C|C].
    + assert (upos x a <= zlen (utf16 x)). { rewrite <- (upos_len x). destruct (Z.eq_dec a (zlen x)) as [->|]; [lia|]. pose proof (M a (zlen x)). lia. } lia.
    + assert (Ea : upos x a = zlen (utf16 x) + (a - zlen x)) by (unfold upos; destruct (Z.ltb_spec a 0); [lia|]; destruct (Z.ltb_spec (zlen x) a); [reflexivity|lia]). lia.
Qed.
Lemma upos_ltb x a b : (upos x a <? upos x b) = (a <? b).
Proof. destruct (Z.ltb_spec a b) as [H|H]; [apply Z.ltb_lt, upos_lt; assumption|]. apply Z.ltb_ge. destruct (Z.eq_dec a b) as [->|]; [lia|]. pose proof (upos_lt x b a). lia. Qed.
Lemma upos_leb x a b : (upos x a <=? upos x b) = (a <=? b).
Proof. pose proof (upos_ltb x b a). destruct (Z.ltb_spec b a), (Z.leb_spec a b), (Z.leb_spec (upos x a) (upos x b)); try lia. Qed.
Lemma upos_eq x a b : upos x a = upos x b -> a = b.
Proof. intros E. destruct (Z.lt_trichotomy a b) as [H|[H|H]]; [|assumption|]; apply (upos_lt x) in H; lia. Qed.

Lemma map_sorted x l : StronglySorted Z.lt l -> StronglySorted Z.lt (map (upos x) l).
Proof.
  induction 1 as [|a l S IH F]; simpl; constructor; [assumption|]. apply Forall_forall. intros y Hy. apply in_map_iff in Hy. destruct Hy as (z & <- & Hz).
  rewrite Forall_forall in F. apply upos_lt. auto.
Qed.
Lemma offsets_units x cuts : sorted_offsets (utf16 x) (map (upos x) cuts) = map (upos x) (sorted_offsets x cuts).
Proof.
  apply sorted_same; [apply sorted_offsets_sorted|apply map_sorted, sorted_offsets_sorted|]. intros y. rewrite sorted_offsets_In. split.
  - intros [->|[->|H]]; apply in_map_iff.
    + exists 0. rewrite upos_0. split; [reflexivity|]. apply sorted_offsets_In. auto.
    + exists (zlen x). rewrite upos_len. split; [reflexivity|]. apply sorted_offsets_In. auto.
    + apply in_map_iff in H. destruct H as (z & <- & Hz). exists z. split; [reflexivity|]. apply sorted_offsets_In. auto.
  - intros H. apply in_map_iff in H. destruct H as (z & <- & Hz). apply sorted_offsets_In in Hz. destruct Hz as [->|[->|Hz]]; [left; apply upos_0|right; left; apply upos_len|right; right; apply in_map; assumption].
Qed.
Lemma compile_units x l : Forall (fun o => 0 <= o <= zlen x) l -> StronglySorted Z.lt l ->
  text_compile (utf16 x) (map (upos x) l) = map utf16 (text_compile x l).
Proof.
  induction l as [|a [|b l] IH]; intros F S; [reflexivity|reflexivity|]. inversion F as [|? ? Fa F']; subst. inversion F' as [|? ? Fb _]; subst.
  inversion S as [|? ? S' L]; subst. inversion L as [|? ? Lab _]; subst.
  change (text_compile (utf16 x) (map (upos x) (a :: b :: l))) with (py_slice (utf16 x) (Some (upos x a)) (Some (upos x b)) :: text_compile (utf16 x) (map (upos x) (b :: l))).
  change (text_compile x (a :: b :: l)) with (py_slice x (Some a) (Some b) :: text_compile x (b :: l)). simpl map at 2. rewrite IH by assumption. f_equal.
  unfold py_slice. simpl.
  assert (U : forall p, 0 <= p <= zlen x -> 0 <= upos x p <= zlen (utf16 x)).
  { intros p Hp. rewrite <- (upos_0 x) at 1. rewrite <- upos_len. pose proof (upos_leb x 0 p). pose proof (upos_leb x p (zlen x)).
    destruct (Z.leb_spec 0 p), (Z.leb_spec p (zlen x)); try lia. }
  rewrite !slice_norm_id by (try apply U; lia). apply sub_utf16; lia.
Qed.
Lemma rank_units x l p : rank (map (upos x) l) (upos x p) = rank l p.
Proof.
  unfold rank. induction l as [|a l IH]; simpl; [reflexivity|]. rewrite upos_ltb. destruct (a <? p); [|assumption]. unfold zlen in *. simpl length. lia.
Qed.
Lemma cut_units x cuts : Forall (fun o => 0 <= o <= zlen x) cuts -> cut_text (utf16 x) (map (upos x) cuts) = map utf16 (cut_text x cuts).
Proof.
  intros F. destruct x as [|c x]; [reflexivity|]. assert (E : utf16 (c :: x) <> []).
  { intros E. assert (0 < zlen (utf16 (c :: x))) by (apply utf16_pos; discriminate). rewrite E in H. unfold zlen in H. simpl in H. lia. }
  assert (X : cut_text (utf16 (c :: x)) (map (upos (c :: x)) cuts) = text_compile (utf16 (c :: x)) (sorted_offsets (utf16 (c :: x)) (map (upos (c :: x)) cuts))).
  { unfold cut_text. destruct (utf16 (c :: x)); [congruence|reflexivity]. }
  rewrite X, offsets_units. apply compile_units; [|apply sorted_offsets_sorted].
  apply Forall_forall. intros o Ho. apply sorted_offsets_In in Ho. rewrite Forall_forall in F. pose proof (zlen_nonneg (c :: x)). destruct Ho as [->|[->|Ho]]; [lia|lia|auto].
Qed.

Definition pair_units (x : pystr) (r : Z * Z) : Z * Z := (upos x (fst r), upos x (snd r)).
Lemma ends_units x held : ends (map (pair_units x) held) = map (upos x) (ends held).
Proof. unfold ends. induction held as [|r held IH]; simpl; [reflexivity|]. rewrite IH. reflexivity. Qed.
Theorem run_units x ops : forall held, Forall (fun r => 0 <= fst r <= zlen x /\ 0 <= snd r <= zlen x) held ->
  range_run (utf16 x) (map (pair_units x) held) (map (op_units x) ops) = map (answer_units x) (range_run x held ops).
Proof.
  induction ops as [|[a b|k|] ops IH]; intros held F; simpl; [reflexivity| | |].
  - assert (E : (0 <=? upos x a) && (upos x a <? zlen (utf16 x)) && (upos x a <=? upos x b) && (upos x b <=? zlen (utf16 x)) =
                (0 <=? a) && (a <? zlen x) && (a <=? b) && (b <=? zlen x)).
    { rewrite <- (upos_len x). rewrite <- (upos_0 x) at 1. rewrite !upos_leb, !upos_ltb. reflexivity. }
    rewrite E. clear E.
    destruct (Z.leb_spec 0 a), (Z.ltb_spec a (zlen x)), (Z.leb_spec a b), (Z.leb_spec b (zlen x)); simpl; f_equal; try (apply IH; assumption).
    rewrite <- IH; [rewrite map_app; reflexivity|]. apply Forall_app. split; [assumption|]. repeat constructor; simpl; lia.
  - f_equal. rewrite <- IH; [rewrite without_map; reflexivity|]. apply Forall_forall. intros r Hr. apply without_In in Hr. rewrite Forall_forall in F. auto.
  - assert (Fe : Forall (fun o => 0 <= o <= zlen x) (ends held)).
    { apply Forall_forall. intros o Ho. unfold ends in Ho. apply in_flat_map in Ho. destruct Ho as (r & Hr & Ho). rewrite Forall_forall in F. apply F in Hr. simpl in Ho.
      destruct Ho as [<-|[<-|[]]]; tauto. }
    rewrite ends_units, cut_units, offsets_units by assumption. f_equal; [|apply IH; assumption]. f_equal. f_equal. f_equal. rewrite map_map.
    apply map_ext. intros r. simpl. rewrite !rank_units. reflexivity.
Qed.
Theorem java_run_units name x ops : jt_run (jt_new name (utf16 x)) [] (map (op_units x) ops) = map (answer_units x) (range_run x [] ops).
Proof. rewrite history_new. apply (run_units x ops []). constructor. Qed.

(** reading parts written by the other port *)
Theorem read_units name (xs : list (list N)) : let (t, os) := jt_read name (map utf16 xs) in
  jt_text t = utf16 (List.concat xs) /\ length os = Datatypes.S (length xs) /\
  (forall i o, nth_error os i = Some o -> o_pos (jt_obj t o) = upos (List.concat xs) (zlen (List.concat (firstn i xs)))) /\
  (forall i j a b, nth_error os i = Some a -> nth_error os j = Some b -> (i <= j)%nat ->
     js_string t (a, b) = Ok (utf16 (List.concat (firstn (j - i) (skipn i xs))))).
Proof.
  destruct (jt_read name (map utf16 xs)) as [t os] eqn:R. destruct (jt_read_spec _ _ _ _ R) as (B1&B2&B3&B4&B5&B6).
  rewrite <- utf16_concat in B3. rewrite map_length in B5. change pystr with (list N) in *.
  assert (P : forall i o, nth_error os i = Some o -> (i <= length xs)%nat /\ o_pos (jt_obj t o) = upos (List.concat xs) (zlen (List.concat (firstn i xs)))).
  { intros i o H. assert (L : (i < length os)%nat) by (apply nth_error_Some; congruence). split; [lia|]. destruct (B6 _ _ H) as (E & _). rewrite E.
    rewrite firstn_map, <- utf16_concat. rewrite upos_in.
    - f_equal. f_equal. eapply prefix_eq; [apply (concat_firstn_skipn xs i)|reflexivity].
    - split; [apply zlen_nonneg|]. rewrite (concat_firstn_skipn xs i), zlen_app. pose proof (zlen_nonneg (List.concat (skipn i xs))). lia. }
  split; [assumption|]. split; [assumption|]. split; [intros i o H; apply P; assumption|].
  intros i j a b Ha Hb L. destruct (P _ _ Ha) as [La Pa]. destruct (P _ _ Hb) as [Lb Pb].
  unfold js_string, js_start, js_stop. simpl fst. simpl snd. rewrite Pa, Pb, B3.
  set (p := zlen (List.concat (firstn i xs))). set (q := zlen (List.concat (firstn j xs))).
  assert (X : firstn j xs = firstn i xs ++ firstn (j - i) (skipn i xs)).
  { rewrite <- (firstn_skipn i (firstn j xs)), firstn_firstn, skipn_firstn_comm. f_equal. f_equal. lia. }
  assert (Q : q = p + zlen (List.concat (firstn (j - i) (skipn i xs)))) by (unfold q; rewrite X, concat_app, zlen_app; reflexivity).
  assert (C : List.concat xs = List.concat (firstn i xs) ++ List.concat (firstn (j - i) (skipn i xs)) ++ List.concat (skipn j xs)).
  { rewrite app_assoc, <- !concat_app, <- X, firstn_skipn. reflexivity. }
  assert (Hp : 0 <= p) by apply zlen_nonneg. pose proof (zlen_nonneg (List.concat (firstn (j - i) (skipn i xs)))) as Hm.
  assert (Hq : q <= zlen (List.concat xs)). { rewrite C, !zlen_app. fold p. pose proof (zlen_nonneg (List.concat (skipn j xs))). lia. }
  unfold java_sub. pose proof (upos_leb (List.concat xs) 0 p) as U1. rewrite upos_0 in U1. pose proof (upos_leb (List.concat xs) p q) as U2.
  pose proof (upos_leb (List.concat xs) q (zlen (List.concat xs))) as U3. rewrite upos_len in U3. rewrite U1, U2, U3.
  destruct (Z.leb_spec 0 p); [|lia]. destruct (Z.leb_spec p q); [|lia]. destruct (Z.leb_spec q (zlen (List.concat xs))); [|lia]. simpl. f_equal.
  rewrite sub_utf16 by lia. f_equal. unfold sub. rewrite C. rewrite (prefix_skipn (List.concat (firstn i xs))) by reflexivity. apply prefix_firstn. lia.
Qed.
Lemma python_same x cuts : x <> [] -> cut_text x cuts = text_compile x (sorted_offsets x cuts) /\
  (forall p, In p cuts -> offset_id (sorted_offsets x cuts) p = Some (rank (sorted_offsets x cuts) p)).
Proof.
  intros NE. split; [destruct x; [congruence|reflexivity]|]. intros p H.
  assert (Hin : In p (sorted_offsets x cuts)) by (apply sorted_offsets_In; auto).
  destruct (offset_id_nth _ _ Hin) as (i & E1 & E2). rewrite E1. f_equal. symmetry. apply rank_nth; [apply sorted_offsets_sorted|assumption].
Qed.
