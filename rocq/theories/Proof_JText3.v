(** Histories of a text of the Java port; reading parts; operations of spans. *)
From Verif Require Import PyBase PyBaseFacts Model_Text Proof_Text Proof_Xml Proof_Codec4 Proof_Codec5 Model_JText Spec_JText Proof_JText Proof_JText2.
From Coq Require Import Sorted.
Local Open Scope Z_scope.

Lemma rank_nth l : forall i p, StronglySorted Z.lt l -> nth_error l i = Some p -> rank l p = Z.of_nat i.
Proof.
  unfold rank. induction l as [|x l IH]; intros [|i] p S H; simpl in H; try discriminate; inversion S as [|? ? S' F]; subst; rewrite Forall_forall in F.
  - injection H as ->. simpl. rewrite Z.ltb_irrefl.
    assert (E : filter (fun q => q <? p) l = []).
    { clear - F. induction l as [|y l IH]; simpl; [reflexivity|]. destruct (Z.ltb_spec y p); [specialize (F y (or_introl eq_refl)); lia|]. apply IH. intros z Hz. apply F. right. assumption. }
    rewrite E. reflexivity.
  - simpl. assert (x < p) by (apply F; eapply nth_error_In; eassumption). destruct (Z.ltb_spec x p); [|lia]. specialize (IH i p S' H). unfold zlen in *. simpl length. lia.
Qed.
Lemma seg_offsets_at segs : forall pos i, (i <= length segs)%nat -> nth_error (seg_offsets pos segs) i = Some (pos + zlen (List.concat (firstn i segs))).
Proof.
  induction segs as [|x r IH]; intros pos [|i] L; simpl in L; try lia; cbn [seg_offsets nth_error firstn List.concat].
  - f_equal. unfold zlen. simpl. lia.
  - f_equal. unfold zlen. simpl. lia.
  - rewrite IH by lia. f_equal. rewrite zlen_app. lia.
Qed.
Lemma names_rank text cuts i p : text <> [] -> Forall (fun o => 0 <= o <= zlen text) cuts -> 0 <= p <= zlen text ->
  names (cut_text text cuts) i p text -> i = rank (sorted_offsets text cuts) p.
Proof.
  intros NE F Hp [Hi E]. assert (X : cut_text text cuts = text_compile text (sorted_offsets text cuts)) by (destruct text; [congruence|reflexivity]).
  rewrite X in *. destruct (segmentation text cuts F) as [_ So].
  assert (L : (Z.to_nat i <= length (text_compile text (sorted_offsets text cuts)))%nat).
  { destruct Hi as [H0 Hi]. unfold zlen in Hi. apply Nat2Z.inj_le. rewrite Z2Nat.id by assumption. exact Hi. }
  pose proof (seg_offsets_at _ 0 _ L) as A. rewrite So in A.
  assert (Y : zlen (List.concat (firstn (Z.to_nat i) (text_compile text (sorted_offsets text cuts)))) = p).
  { etransitivity; [apply f_equal; exact E|]. unfold zlen. rewrite firstn_length. unfold zlen in Hp. lia. }
  assert (A' : nth_error (sorted_offsets text cuts) (Z.to_nat i) = Some p) by (etransitivity; [exact A|]; f_equal; etransitivity; [apply Z.add_0_l|exact Y]).
  apply rank_nth in A'; [|apply sorted_offsets_sorted]. lia.
Qed.

Lemma without_map {A B} (f : A -> B) k l : map f (without k l) = without k (map f l).
Proof. unfold without. rewrite map_app, firstn_map, skipn_map. reflexivity. Qed.
Lemma without_In {A} k (l : list A) x : In x (without k l) -> In x l.
Proof.
  unfold without. rewrite in_app_iff. intros [H|H].
  - rewrite <- (firstn_skipn k l). apply in_or_app. left. assumption.
  - rewrite <- (firstn_skipn (Datatypes.S k) l). apply in_or_app. right. assumption.
Qed.
Definition range_of (t : jtext) (s : jspan) : Z * Z := (js_start t s, js_stop t s).
Lemma ends_cut t l : ends (map (range_of t) l) = cut_at t l.
Proof. unfold ends, cut_at, used. induction l as [|s l IH]; simpl; [reflexivity|]. rewrite IH. reflexivity. Qed.

Theorem history ops : forall t held, jt_ok t -> jt_valid t = true -> Forall (current t) held ->
  (jt_text t = [] -> held = []) ->
  jt_run t held ops = range_run (jt_text t) (map (range_of t) held) ops.
Proof.
  induction ops as [|[a b|k|] ops IH]; intros t held O V C EM; simpl; [reflexivity| | |].
  - destruct (span_spec t a b (proj1 O)) as [SB SG].
    assert (Dc : (0 <= a < zlen (jt_text t) /\ a <= b <= zlen (jt_text t)) \/ ~ (0 <= a < zlen (jt_text t) /\ a <= b <= zlen (jt_text t))) by lia.
    destruct Dc as [Dc|Dc].
    + destruct (SG (or_intror Dc)) as (t' & x & E & W'&Nm&Tx&Vd&Sa&So&Cu&Nx&Ob&En&Rg). rewrite E, Sa, So.
      destruct (Z.leb_spec 0 a); [|lia]. destruct (Z.ltb_spec a (zlen (jt_text t))); [|lia]. destruct (Z.leb_spec a b); [|lia]. destruct (Z.leb_spec b (zlen (jt_text t))); [|lia]. simpl. f_equal.
      rewrite IH.
      * rewrite Tx. f_equal. rewrite map_app. simpl. f_equal.
        -- apply map_ext_in. intros y Hy. rewrite Forall_forall in C. destruct (C _ Hy) as [C1 C2]. unfold range_of, js_start, js_stop.
           rewrite !Ob by (apply entered_lt; [apply O|assumption]). reflexivity.
        -- unfold range_of. rewrite Sa, So. reflexivity.
      * split; [assumption|]. apply Rg; [apply O|lia|lia].
      * congruence.
      * apply Forall_app. split; [|repeat constructor; apply Cu]. eapply Forall_impl; [|exact C]. intros y [C1 C2]. split; auto.
      * rewrite Tx. intros T. exfalso. rewrite T in Dc. unfold zlen in Dc. simpl in Dc. lia.
    + rewrite (SB V Dc).
      assert (G : (0 <=? a) && (a <? zlen (jt_text t)) && (a <=? b) && (b <=? zlen (jt_text t)) = false) by lia.
      rewrite G. f_equal. apply IH; assumption.
  - f_equal. rewrite <- without_map. apply IH; try assumption.
    + apply Forall_forall. intros y Hy. apply without_In in Hy. rewrite Forall_forall in C. auto.
    + intros T. rewrite (EM T). destruct k; reflexivity.
  - destruct (prepare_spec t held O) as (t' & parts & E & P1&P2&P3&P4&P5&P6&P7&P8&P9&P10&P11&P12). rewrite E.
    rewrite (known_cuts_current t held C) in P1. rewrite ends_cut. rewrite <- P1.
    assert (Lt : forall y, In y held -> (fst y < jt_next t)%nat /\ (snd y < jt_next t)%nat).
    { intros y Hy. rewrite Forall_forall in C. destruct (C _ Hy) as [C1 C2]. split; apply entered_lt; try assumption; apply O. }
    assert (Us : forall y, In y held -> In (fst y) (used held) /\ In (snd y) (used held)).
    { intros y Hy. unfold used. split; apply in_flat_map; exists y; simpl; auto. }
    f_equal.
    + f_equal. f_equal. f_equal. rewrite map_map. apply map_ext_in. intros y Hy. destruct (Us y Hy) as [U1 U2].
      assert (NE : jt_text t <> []) by (intros T; rewrite (EM T) in Hy; destruct Hy).
      assert (F : Forall (fun o => 0 <= o <= zlen (jt_text t)) (cut_at t held)).
      { apply Forall_forall. intros p Hp. unfold cut_at in Hp. apply in_map_iff in Hp. destruct Hp as (o & <- & Ho). apply (used_current _ _ _ C) in Ho. apply (proj2 O _ _ Ho). }
      assert (Q : forall o, In o (used held) -> o_num (jt_obj t' o) = rank (sorted_offsets (jt_text t) (cut_at t held)) (o_pos (jt_obj t o))).
      { intros o Ho. pose proof (used_current _ _ _ C Ho) as He. apply names_rank; [assumption|assumption|apply (proj2 O _ _ He)|]. rewrite <- P1. apply P5; assumption. }
      unfold js_ids, range_of, js_start, js_stop. simpl. rewrite !Q by assumption. reflexivity.
    + rewrite IH; [|assumption|congruence| |rewrite P9; assumption].
      * rewrite P9. f_equal. apply map_ext_in. intros y Hy. destruct (Lt y Hy) as [L1 L2]. unfold range_of, js_start, js_stop. rewrite !P4 by assumption. reflexivity.
      * apply Forall_forall. intros y Hy. destruct (Lt y Hy) as [L1 L2]. destruct (Us y Hy) as [U1 U2]. rewrite Forall_forall in C. destruct (C _ Hy) as [C1 C2].
        split; apply P12; auto.
Qed.

(** reading *)
Definition after (pos : Z) (i : nat) (parts : list (list N)) : Z := pos + zlen (List.concat (firstn i parts)).
Lemma after_cons pos i x r : after pos (Datatypes.S i) (x :: r) = after (pos + zlen x) i r.
Proof. unfold after. simpl. rewrite zlen_app. lia. Qed.
Lemma after_mono pos i r : pos <= after pos i r.
Proof. unfold after. pose proof (zlen_nonneg (List.concat (firstn i r))). lia. Qed.
Lemma read_spec parts : forall t pos t' os, read_parts t pos parts = (t', os) -> NoDup (map fst (jt_map t)) ->
  os = seq (jt_next t) (length parts) /\ jt_next t' = (jt_next t + length parts)%nat /\
  jt_text t' = jt_text t /\ jt_name t' = jt_name t /\ jt_valid t' = jt_valid t /\
  (forall i, (i < jt_next t)%nat -> jt_obj t' i = jt_obj t i) /\
  (forall i, (i < length parts)%nat -> jt_obj t' (jt_next t + i) = mkOff 0 (after pos (i + 1) parts) 0) /\
  (forall i, (jt_next t' <= i)%nat -> jt_obj t' i = jt_obj t i) /\
  NoDup (map fst (jt_map t')) /\
  (forall q x, In (q, x) (jt_map t') <->
     (exists i, (i < length parts)%nat /\ x = (jt_next t + i)%nat /\ q = after pos (i + 1) parts /\ nth_error parts (i + 1) <> Some []) \/
     (In (q, x) (jt_map t) /\ forall i, (i < length parts)%nat -> q <> after pos (i + 1) parts)).
Proof.
  induction parts as [|x r IH]; intros t pos t' os E D.
  - injection E as <- <-. split; [reflexivity|]. split; [simpl; lia|]. do 3 (split; [reflexivity|]). split; [reflexivity|]. split; [simpl; intros; lia|]. split; [reflexivity|]. split; [assumption|].
    intros q y. split; [intros H; right; split; [assumption|simpl; intros; lia]|]. intros [(i & L & _)|[H _]]; [simpl in L; lia|assumption].
  - simpl in E. set (p := pos + zlen x) in *. set (t1 := jt_with_map _ _) in E. destruct (read_parts t1 p r) as [t2 os2] eqn:E2. injection E as <- <-.
    assert (D1 : NoDup (map fst (jt_map t1))) by (apply zput_nodup; assumption).
    destruct (IH t1 p t2 os2 E2 D1) as (A1&A2&A3&A4&A5&A6&A7&A8&A9&A10). change (jt_next t1) with (Datatypes.S (jt_next t)) in *.
    assert (M1 : forall q y, In (q, y) (jt_map t1) <-> (q = p /\ y = jt_next t) \/ (q <> p /\ In (q, y) (jt_map t))) by (intros q y; apply zput_In; assumption).
    assert (AF : forall i, after pos (Datatypes.S i) (x :: r) = after p i r) by (intros; apply after_cons).
    assert (P0 : after p 0 r = p) by (unfold after; simpl; unfold zlen; simpl; lia).
    split; [simpl; f_equal; exact A1|]. split; [simpl; lia|]. split; [exact A3|]. split; [exact A4|]. split; [exact A5|]. split; [|split; [|split; [|split]]].
    + intros i L. rewrite A6 by lia. simpl. destruct (Nat.eqb_spec i (jt_next t)); [lia|reflexivity].
    + intros [|i] L.
      * rewrite Nat.add_0_r. rewrite A6 by lia. simpl. rewrite Nat.eqb_refl. simpl. rewrite AF, P0. reflexivity.
      * simpl in L. replace (jt_next t + Datatypes.S i)%nat with (Datatypes.S (jt_next t) + i)%nat by lia. rewrite A7 by lia. rewrite Nat.add_succ_l, AF. reflexivity.
    + intros i L. rewrite A8 by assumption. simpl. destruct (Nat.eqb_spec i (jt_next t)); [lia|reflexivity].
    + exact A9.
    + intros q y. rewrite A10, M1. split.
      * intros [(i & L & -> & -> & Hn)|[[[-> ->]|[Hq H]] Hf]].
        -- left. exists (Datatypes.S i). split; [simpl; lia|]. split; [lia|]. rewrite Nat.add_succ_l, AF. split; [reflexivity|]. simpl. exact Hn.
        -- left. exists O. split; [simpl; lia|]. split; [lia|]. simpl. rewrite AF, P0. split; [reflexivity|].
           destruct r as [|[|c z] r]; simpl; [discriminate| |discriminate]. intros _. specialize (Hf O). apply Hf; [simpl; lia|].
           unfold after. simpl. unfold zlen. simpl. lia.
        -- right. split; [assumption|]. intros [|i] L; simpl in L; [simpl; rewrite AF, P0; assumption|]. rewrite Nat.add_succ_l, AF. apply Hf. lia.
      * intros [([|i] & L & -> & -> & Hn)|[H Hf]].
        -- right. rewrite Nat.add_0_r. simpl. rewrite AF, P0. split; [left; auto|]. intros i Li E. simpl in Hn.
           destruct r as [|y r]; [simpl in Li; lia|]. assert (y <> []) by (intros ->; apply Hn; reflexivity). 
           rewrite Nat.add_1_r in E. rewrite after_cons in E. pose proof (after_mono (p + zlen y) i r). assert (0 < zlen y) by (destruct y; [congruence|unfold zlen; simpl length; lia]). lia.
        -- left. exists i. simpl in L. split; [lia|]. split; [lia|]. rewrite Nat.add_succ_l, AF. split; [reflexivity|]. simpl in Hn. exact Hn.
        -- right. split; [right; split; [|assumption]|].
           ++ specialize (Hf O). simpl in Hf. rewrite AF, P0 in Hf. apply Hf. lia.
           ++ intros i L. specialize (Hf (Datatypes.S i)). rewrite Nat.add_succ_l, AF in Hf. apply Hf. simpl. lia.
Qed.
Theorem jt_read_spec name parts t os : jt_read name parts = (t, os) ->
  jt_ok t /\ jt_name t = name /\ jt_text t = List.concat parts /\ jt_valid t = true /\
  length os = Datatypes.S (length parts) /\
  (forall i o, nth_error os i = Some o ->
     o_pos (jt_obj t o) = zlen (List.concat (firstn i parts)) /\ o_num (jt_obj t o) = 0 /\ (entered t o <-> nth_error parts i <> Some [])).
Proof.
  intros E. unfold jt_read in E. cbn [jt_alloc jt_new] in E. set (t1 := jt_with_map _ _) in E. destruct (read_parts t1 0 parts) as [t2 os2] eqn:E2. injection E as <- <-.
  assert (D1 : NoDup (map fst (jt_map t1))) by (simpl; repeat constructor; simpl; tauto).
  destruct (read_spec parts t1 0 t2 os2 E2 D1) as (A1&A2&A3&A4&A5&A6&A7&A8&A9&A10). simpl jt_next in *. simpl jt_map in A10. 
  assert (X0 : after 0 0 parts = 0) by reflexivity.
  assert (OB : forall i, (i <= length parts)%nat -> jt_obj t2 i = mkOff 0 (after 0 i parts) 0).
  { intros [|i] L; [rewrite A6 by lia; reflexivity|]. change (Datatypes.S i) with (1 + i)%nat at 1. rewrite A7 by lia. rewrite Nat.add_1_r. reflexivity. }
  assert (MP : forall q x, In (q, x) (jt_map t2) <-> (x <= length parts)%nat /\ q = after 0 x parts /\ nth_error parts x <> Some []).
  { intros q x. rewrite A10. split.
    - intros [(i & L & -> & -> & Hn)|[[H|[]] Hf]]; [rewrite Nat.add_1_r in *; simpl plus; split; [lia|]; auto|].
      injection H as <- <-. split; [lia|]. split; [reflexivity|]. destruct parts as [|[|c y] r]; simpl; [discriminate| |discriminate].
      intros _. apply (Hf O); [simpl; lia|]. reflexivity.
    - intros (L & -> & Hn). destruct x as [|x].
      + right. split; [left; reflexivity|]. intros i Li F. destruct parts as [|y r]; [simpl in Li; lia|]. assert (y <> []) by (intros ->; apply Hn; reflexivity).
        rewrite Nat.add_1_r, after_cons, X0 in F. pose proof (after_mono (0 + zlen y) i r). assert (0 < zlen y) by (destruct y; [congruence|unfold zlen; simpl length; lia]). lia.
      + left. exists x. rewrite Nat.add_1_r. split; [lia|]. split; [lia|]. auto. }
  split; [|split; [exact A4|split; [exact A3|split; [exact A5|split; [|]]]]].
  - split; [split; [exact A9|split]|].
    + intros p o H. apply MP in H. destruct H as (L & -> & _). rewrite OB by assumption. split; [lia|reflexivity].
    + intros _ o. destruct (le_lt_dec o (length parts)) as [L|L]; [rewrite OB by assumption; reflexivity|]. rewrite A8 by lia. simpl. destruct (Nat.eqb o 0); reflexivity.
    + intros p o H. apply MP in H. destruct H as (L & -> & _). split; [pose proof (after_mono 0 o parts); lia|]. rewrite A3. simpl. unfold after.
      rewrite <- (firstn_skipn o parts) at 2. rewrite concat_app, zlen_app. pose proof (zlen_nonneg (List.concat (skipn o parts))). lia.
  - rewrite A1. simpl. rewrite seq_length. reflexivity.
  - intros i o H.
    assert (Y : (i <= length parts)%nat /\ o = i).
    { rewrite A1 in H. assert (L : (i < length (0%nat :: seq 1 (length parts)))%nat) by (apply nth_error_Some; congruence). simpl in L. rewrite seq_length in L. split; [lia|].
      change (0%nat :: seq 1 (length parts)) with (seq 0 (Datatypes.S (length parts))) in H.
      apply (nth_error_nth _ _ 0%nat) in H. rewrite seq_nth in H by lia. simpl in H. congruence. }
    destruct Y as [L ->]. rewrite OB by assumption. simpl. split; [unfold after; lia|]. split; [reflexivity|].
    unfold entered. rewrite OB by assumption. simpl. rewrite MP. intuition.
Qed.

(** an encoded span read back *)
Theorem text_roundtrip t spans t' parts x : jt_ok t -> Forall (current t) spans -> jt_prepare t spans = (t', Ok parts) ->
  In x spans -> forall name,
  let (t2, os) := jt_read name parts in
  jt_text t2 = jt_text t /\
  exists a b, nth_error os (Z.to_nat (fst (js_ids t' x))) = Some a /\ nth_error os (Z.to_nat (snd (js_ids t' x))) = Some b /\
    js_start t2 (a, b) = js_start t x /\ js_stop t2 (a, b) = js_stop t x /\ js_string t2 (a, b) = js_string t x /\
    (jt_text t <> [] -> current t2 (a, b)).
Proof.
  intros O C E Hx name. destruct (jt_read name parts) as [t2 os] eqn:R. destruct (jt_read_spec _ _ _ _ R) as (B1&B2&B3&B4&B5&B6).
  destruct (prepare_spec t spans O) as (t3 & parts' & E' & P1&P2&P3&P4&P5&P6&P7&P8&P9&P10&P11&P12). rewrite E in E'. injection E' as <- <-.
  split; [congruence|].
  assert (Q : forall o, In o (used spans) -> exists a, nth_error os (Z.to_nat (o_num (jt_obj t' o))) = Some a /\ o_pos (jt_obj t2 a) = o_pos (jt_obj t o) /\ (jt_text t <> [] -> entered t2 a)).
  { intros o Ho. pose proof (used_current _ _ _ C Ho) as He. destruct (P5 o He Ho) as [[I0 I1] I2].
    assert (L : (Z.to_nat (o_num (jt_obj t' o)) < length os)%nat) by (rewrite B5; unfold zlen in I1; lia).
    destruct (nth_error os (Z.to_nat (o_num (jt_obj t' o)))) as [a|] eqn:Ea; [|apply nth_error_None in Ea; lia].
    destruct (B6 _ _ Ea) as (D1 & D2 & D3). exists a. split; [reflexivity|]. split.
    - rewrite D1, I2. pose proof (proj2 O _ _ He) as Hr. unfold zlen in *. rewrite firstn_length. lia.
    - intros NE. apply D3. intros F. apply (P3 NE). eapply nth_error_In. exact F. }
  assert (U : In (fst x) (used spans) /\ In (snd x) (used spans)) by (unfold used; split; apply in_flat_map; exists x; simpl; auto).
  destruct (Q _ (proj1 U)) as (a & Ea & Pa & Ca). destruct (Q _ (proj2 U)) as (b & Eb & Pb & Cb). exists a, b.
  split; [exact Ea|]. split; [exact Eb|]. unfold js_string, js_start, js_stop. simpl. rewrite Pa, Pb, B3, P2. repeat (split; [reflexivity|]). split; auto.
Qed.

(** operations of spans *)
Lemma char_at_spec t x i : 0 <= js_start t x -> js_stop t x <= zlen (jt_text t) ->
  js_char_at t x i = if (0 <=? i) && (i <? js_length t x)
                     then match nth_error (sub (jt_text t) (js_start t x) (js_stop t x)) (Z.to_nat i) with Some c => Ok c | None => Err IndexError end
                     else Err IndexError.
Proof.
  intros A B. unfold js_char_at, js_length. destruct (Z.leb_spec (js_stop t x) (i + js_start t x)), (Z.ltb_spec i 0), (Z.leb_spec 0 i), (Z.ltb_spec i (js_stop t x - js_start t x)); try lia; simpl; try reflexivity.
  destruct (Z.leb_spec 0 (i + js_start t x)); [|lia]. unfold sub. rewrite nth_error_firstn' by lia. rewrite nth_error_skipn'.
  replace (Z.to_nat (js_start t x) + Z.to_nat i)%nat with (Z.to_nat (i + js_start t x)) by lia. reflexivity.
Qed.
Lemma java_sub_sub {A} (x : list A) a b c d : 0 <= a -> a <= b -> b <= zlen x -> 0 <= c ->
  (if b <? d + a then Err IndexError else java_sub x (c + a) (d + a)) = java_sub (sub x a b) c d.
Proof.
  intros Ha Hab Hb Hc. unfold java_sub. rewrite sub_length by lia.
  destruct (Z.ltb_spec b (d + a)), (Z.leb_spec 0 (c + a)), (Z.leb_spec (c + a) (d + a)), (Z.leb_spec (d + a) (zlen x)), (Z.leb_spec 0 c), (Z.leb_spec c d), (Z.leb_spec d (b - a)); try lia; simpl; try reflexivity.
  f_equal. rewrite sub_sub by lia. f_equal; lia.
Qed.
Lemma current_eq t x y : jt_wf t -> current t x -> current t y ->
  js_eq t x t y = true <-> js_start t x = js_start t y /\ js_stop t x = js_stop t y.
Proof.
  intros W [A1 A2] [B1 B2]. unfold js_eq, jt_eq, js_start, js_stop. rewrite !str_eqb_refl. simpl. unfold off_eq. split.
  - intros H. apply andb_prop in H. destruct H as [H1 H2]. apply andb_prop in H1, H2. destruct H1 as [_ H1]. destruct H2 as [_ H2].
    apply Z.eqb_eq in H1, H2. auto.
  - intros [H1 H2]. rewrite (entered_inj t (fst x) (fst y) W A1 B1 H1), (entered_inj t (snd x) (snd y) W A2 B2 H2). rewrite !Z.eqb_refl. reflexivity.
Qed.
Lemma compare_eq t x u y : js_compare t x u y = Eq <-> js_start t x = js_start u y /\ js_stop t x = js_stop u y.
Proof.
  unfold js_compare. destruct (Z.compare_spec (js_start t x) (js_start u y)).
  - rewrite Z.compare_eq_iff. intuition.
  - split; [discriminate|lia].
  - split; [discriminate|lia].
Qed.
Lemma compare_lt t x u y : js_compare t x u y = Lt <->
  js_start t x < js_start u y \/ (js_start t x = js_start u y /\ js_stop t x < js_stop u y).
Proof.
  unfold js_compare. destruct (Z.compare_spec (js_start t x) (js_start u y)).
  - rewrite Z.compare_lt_iff. intuition.
  - intuition.
  - split; [discriminate|lia].
Qed.
Lemma compare_opp t x u y : js_compare u y t x = CompOpp (js_compare t x u y).
Proof.
  unfold js_compare. rewrite (Z.compare_antisym (js_start t x) (js_start u y)), (Z.compare_antisym (js_stop t x) (js_stop u y)).
  destruct (js_start t x ?= js_start u y); reflexivity.
Qed.
Lemma span_reading : forall t x, 0 <= js_start t x -> js_start t x <= js_stop t x -> js_stop t x <= zlen (jt_text t) ->
  let str := sub (jt_text t) (js_start t x) (js_stop t x) in
  js_string t x = Ok str /\ js_length t x = zlen str /\
  (forall i, js_char_at t x i = if (0 <=? i) && (i <? zlen str)
      then match nth_error str (Z.to_nat i) with Some c => Ok c | None => Err IndexError end else Err IndexError) /\
  (forall a b, 0 <= a -> js_sub t x a b = java_sub str a b).
Proof.
  intros t x A B C. cbv zeta. unfold js_length. rewrite sub_length by lia. split; [|split; [reflexivity|split]].
  - unfold js_string, java_sub. destruct (Z.leb_spec 0 (js_start t x)); [|lia]. destruct (Z.leb_spec (js_start t x) (js_stop t x)); [|lia].
    destruct (Z.leb_spec (js_stop t x) (zlen (jt_text t))); [|lia]. reflexivity.
  - intros i. apply char_at_spec; assumption.
  - intros a b Ha. unfold js_sub. apply java_sub_sub; assumption.
Qed.
Lemma span_order : forall t x u y,
  (js_covers t x u y = true <-> js_start t x <= js_start u y /\ js_stop u y <= js_stop t x) /\
  (js_intersects t x u y = true <-> js_start t x <= js_stop u y /\ js_start u y <= js_stop t x) /\
  (js_compare t x u y = Eq <-> js_start t x = js_start u y /\ js_stop t x = js_stop u y) /\
  (js_compare t x u y = Lt <-> js_start t x < js_start u y \/ (js_start t x = js_start u y /\ js_stop t x < js_stop u y)) /\
  js_compare u y t x = CompOpp (js_compare t x u y).
Proof.
  intros t x u y. unfold js_covers, js_intersects. rewrite !andb_true_iff, !Z.leb_le.
  split; [reflexivity|]. split; [reflexivity|]. split; [apply compare_eq|]. split; [apply compare_lt|apply compare_opp].
Qed.
Lemma history_new name text ops : jt_run (jt_new name text) [] ops = range_run text [] ops.
Proof. intros. apply (history ops (jt_new name text) []); [apply jt_new_ok|reflexivity|constructor|reflexivity]. Qed.
Lemma texts_eq t t' : jt_eq t t' = true <-> jt_name t = jt_name t' /\ jt_text t = jt_text t'.
Proof.
  unfold jt_eq. rewrite Bool.andb_true_iff. split; [intros [A B]; split; apply str_eqb_eq; assumption|]. intros [-> ->]. rewrite !str_eqb_refl. auto.
Qed.
Lemma other_eq t x t' y : js_eq t x t' y = true -> jt_name t = jt_name t' /\ jt_text t = jt_text t' /\ js_start t x = js_start t' y /\ js_stop t x = js_stop t' y.
Proof.
  unfold js_eq, js_start, js_stop, off_eq. rewrite !Bool.andb_true_iff, !Z.eqb_eq. intros [[A [_ B]] [_ C]]. apply texts_eq in A. tauto.
Qed.
