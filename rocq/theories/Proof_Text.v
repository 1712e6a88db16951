From Verif Require Import PyBase PyBaseFacts Model_Text Spec_Text.
Local Open Scope Z_scope.

Lemma slice_norm_id len i : 0 <= i <= len -> slice_norm len i = i.
Proof. intros H. unfold slice_norm. destruct (Z.ltb_spec i 0); lia. Qed.

Lemma span_str_sub x : in_bounds x -> span_str x = sub (sp_text x) (sp_start x) (sp_stop x).
Proof.
  intros (H1 & H2 & H3). unfold span_str, py_slice. simpl.
  rewrite !slice_norm_id by lia. reflexivity.
Qed.

Lemma text_slice_spec t a b :
  text_slice t a b =
    if slice_stop (zlen t) b <? slice_start (zlen t) a then Err DataValidationError
    else Ok (mkSpan t (slice_start (zlen t) a) (slice_stop (zlen t) b)).
Proof.
  unfold text_slice, new_span.
  pose proof (slice_start_range a (zlen_nonneg t)). pose proof (slice_stop_range b (zlen_nonneg t)).
  destruct (Z.ltb_spec (slice_stop (zlen t) b) (slice_start (zlen t) a)); [reflexivity|].
  destruct (Z.ltb_spec (zlen t) (slice_start (zlen t) a)); [lia|].
  destruct (Z.ltb_spec (zlen t) (slice_stop (zlen t) b)); [lia|]. simpl.
  destruct (Z.leb_spec (slice_start (zlen t) a) (slice_stop (zlen t) b)); [reflexivity|lia].
Qed.

Lemma text_slice_python t a b :
  match text_slice t a b with
  | Ok x => sp_text x = t /\ in_bounds x /\ span_str x = py_slice t a b
            /\ sp_start x = slice_start (zlen t) a /\ sp_stop x = slice_stop (zlen t) b
  | Err e => e = DataValidationError /\ slice_stop (zlen t) b < slice_start (zlen t) a
  end.
Proof.
  rewrite text_slice_spec.
  pose proof (slice_start_range a (zlen_nonneg t)). pose proof (slice_stop_range b (zlen_nonneg t)).
  destruct (Z.ltb_spec (slice_stop (zlen t) b) (slice_start (zlen t) a)); [split; [reflexivity|assumption]|].
  assert (Hb : in_bounds (mkSpan t (slice_start (zlen t) a) (slice_stop (zlen t) b)))
    by (unfold in_bounds; simpl; lia).
  split; [reflexivity|]. split; [assumption|]. split; [|split; reflexivity].
  rewrite span_str_sub by assumption. reflexivity.
Qed.

Lemma text_pair_strict t a b :
  (0 <= a <= b /\ b <= zlen t -> text_pair t a b = Ok (mkSpan t a b)) /\
  (~ (0 <= a <= b /\ b <= zlen t) -> text_pair t a b = Err DataValidationError).
Proof.
  unfold text_pair, new_span. split; intros H.
  - destruct (Z.ltb_spec b a); [lia|]. destruct (Z.ltb_spec a 0); [lia|]. destruct (Z.ltb_spec b 0); [lia|].
    destruct (Z.ltb_spec (zlen t) a); [lia|]. destruct (Z.ltb_spec (zlen t) b); [lia|]. simpl.
    destruct (Z.leb_spec a b); [reflexivity|lia].
  - destruct (Z.ltb_spec b a); [reflexivity|]. destruct (Z.ltb_spec a 0); [reflexivity|].
    destruct (Z.ltb_spec b 0); [reflexivity|]. destruct (Z.ltb_spec (zlen t) a); [reflexivity|].
    destruct (Z.ltb_spec (zlen t) b); [reflexivity|]. lia.
Qed.

Lemma span_len_str x : in_bounds x -> zlen (span_str x) = span_len x.
Proof. intros H. rewrite span_str_sub by assumption. destruct H as (?&?&?). rewrite sub_length; unfold span_len; lia. Qed.

Lemma span_slice_composes x a b : in_bounds x ->
  match span_slice x a b with
  | Ok y => inside y x /\ in_bounds y /\ span_str y = py_slice (span_str x) a b
  | Err e => e = DataValidationError /\
             slice_stop (zlen (span_str x)) b < slice_start (zlen (span_str x)) a
  end.
Proof.
  intros Hx. rewrite span_len_str by assumption. unfold span_slice.
  assert (Hl : 0 <= span_len x) by (destruct Hx as (?&?&?); unfold span_len; lia).
  pose proof (slice_start_range a Hl) as Ha. pose proof (slice_stop_range b Hl) as Hb.
  rewrite text_slice_spec. simpl.
  destruct Hx as (H1 & H2 & H3). unfold span_len in *.
  rewrite !slice_norm_id by lia.
  set (A := slice_start (sp_stop x - sp_start x) a) in *. set (B := slice_stop (sp_stop x - sp_start x) b) in *.
  destruct (Z.ltb_spec (B + sp_start x) (A + sp_start x)).
  - split; [reflexivity|lia].
  - assert (Hb' : in_bounds (mkSpan (sp_text x) (A + sp_start x) (B + sp_start x))) by (unfold in_bounds; simpl; lia).
    split; [unfold inside; repeat split; simpl; (reflexivity || lia)|]. split; [assumption|].
    rewrite (span_str_sub _ Hb'). simpl. rewrite (span_str_sub x) by (unfold in_bounds; lia).
    unfold py_slice. rewrite sub_length by lia. fold A B.
    rewrite sub_sub by lia. f_equal; lia.
Qed.

Lemma span_int_in_range x i : in_bounds x -> - span_len x <= i < span_len x ->
  span_int x i = py_getitem (span_str x) i.
Proof.
  intros Hx Hi. pose proof Hx as (H1 & H2 & H3). unfold span_int.
  unfold py_getitem at 2. rewrite span_len_str by assumption.
  assert (E : slice_norm (span_len x) i = if i <? 0 then i + span_len x else i).
  { unfold slice_norm. destruct (Z.ltb_spec i 0); lia. }
  rewrite E. unfold span_len in *.
  rewrite (span_str_sub x) by assumption.
  destruct (Z.ltb_spec i 0) as [Hneg|Hpos]; unfold py_index at 1; unfold py_getitem.
  - destruct (Z.ltb_spec i 0); [|lia]. destruct (Z.leb_spec 0 (i + (sp_stop x - sp_start x))); [|lia].
    rewrite nth_error_sub by lia. rewrite py_index_nonneg by lia.
    replace (i + (sp_stop x - sp_start x) + sp_start x) with (sp_start x + (i + (sp_stop x - sp_start x))) by lia.
    reflexivity.
  - destruct (Z.ltb_spec i 0); [lia|]. destruct (Z.ltb_spec i (sp_stop x - sp_start x)); [|lia].
    rewrite nth_error_sub by lia. rewrite py_index_nonneg by lia.
    replace (i + sp_start x) with (sp_start x + i) by lia. reflexivity.
Qed.

(** outside the range: a Python string raises IndexError, the span does not in general *)
Lemma span_int_below x i : in_bounds x -> i < - span_len x -> span_int x i = py_getitem (sp_text x) (sp_start x).
Proof.
  intros Hx Hi. unfold span_int, slice_norm. unfold span_len in *. destruct Hx as (?&?&?).
  destruct (Z.ltb_spec i 0); [|lia]. f_equal. lia.
Qed.
Lemma span_int_above x i : in_bounds x -> span_len x <= i -> span_int x i = py_getitem (sp_text x) (sp_stop x).
Proof.
  intros Hx Hi. unfold span_int, slice_norm. unfold span_len in *. destruct Hx as (?&?&?).
  destruct (Z.ltb_spec i 0); [lia|]. f_equal. lia.
Qed.

Lemma covered_by_iff x y : sp_start x < sp_stop x ->
  (covered_by x y = true <-> forall p, pos_in p x -> pos_in p y).
Proof.
  intros Hne. unfold covered_by, pos_in. rewrite andb_true_iff, !Z.leb_le. split.
  - intros. lia.
  - intros H. pose proof (H (sp_start x)). pose proof (H (sp_stop x - 1)). lia.
Qed.

Lemma intersected_by_iff x y : sp_start x < sp_stop x -> sp_start y < sp_stop y ->
  (intersected_by x y = true <-> exists p, pos_in p x /\ pos_in p y).
Proof.
  intros Hx Hy. unfold intersected_by, pos_in. rewrite andb_true_iff, !Z.ltb_lt. split.
  - intros. exists (Z.max (sp_start x) (sp_start y)). lia.
  - intros (p & ? & ?). lia.
Qed.

Lemma intersected_sym x y : intersected_by x y = intersected_by y x.
Proof. unfold intersected_by. apply andb_comm. Qed.
Lemma covered_refl x : covered_by x x = true.
Proof. unfold covered_by. rewrite !Z.leb_refl. reflexivity. Qed.
Lemma covered_trans x y z : covered_by x y = true -> covered_by y z = true -> covered_by x z = true.
Proof. unfold covered_by. rewrite !andb_true_iff, !Z.leb_le. lia. Qed.
Lemma covered_exact x y : covered_by x y = true <-> (sp_start y <= sp_start x /\ sp_stop x <= sp_stop y).
Proof. unfold covered_by. rewrite andb_true_iff, !Z.leb_le. tauto. Qed.

(** trim *)
Section Trim.
Variable isspace : N -> bool.

Lemma trim_forward_spec cs : forall pos,
  exists pre post, cs = pre ++ post /\ all_space isspace pre /\
    trim_forward isspace cs pos = pos + zlen pre /\
    match post with [] => True | c :: _ => isspace c = false end.
Proof.
  induction cs as [|c cs IH]; intros pos; simpl.
  - exists [], []. repeat split; [constructor|unfold zlen; simpl; lia].
  - destruct (isspace c) eqn:E.
    + destruct (IH (pos + 1)) as (pre & post & -> & Hp & Hpos & Hpost).
      exists (c :: pre), post. repeat split; [constructor; assumption| |assumption].
      rewrite Hpos. unfold zlen. simpl length. lia.
    + exists [], (c :: cs). repeat split; [constructor|unfold zlen; simpl; lia|assumption].
Qed.

Lemma trim_backward_spec t n : forall pos, (Z.of_nat n <= pos) -> pos <= zlen t ->
  exists k, trim_backward isspace t n pos = Ok (pos - Z.of_nat k) /\ (k <= n)%nat /\
    all_space isspace (sub t (pos - Z.of_nat k) pos) /\
    ((k < n)%nat -> exists c, nth_error t (Z.to_nat (pos - Z.of_nat k - 1)) = Some c /\ isspace c = false).
Proof.
  induction n as [|n IH]; intros pos H1 H2; simpl.
  - exists O. replace (pos - Z.of_nat 0) with pos by lia.
    split; [reflexivity|]. split; [lia|]. split; [|lia]. rewrite sub_nil by lia. constructor.
  - unfold py_getitem. rewrite py_index_nonneg by lia.
    destruct (nth_error t (Z.to_nat (pos - 1))) as [c|] eqn:E.
    2:{ apply nth_error_None in E. unfold zlen in H2. lia. }
    simpl. destruct (isspace c) eqn:Es.
    + destruct (IH (pos - 1)) as (k & Hk & Hle & Hsp & Hst); [lia|lia|].
      exists (S k). replace (pos - Z.of_nat (S k)) with (pos - 1 - Z.of_nat k) by lia.
      split; [assumption|]. split; [lia|]. split.
      * rewrite <- (@sub_app _ t (pos - 1 - Z.of_nat k) (pos - 1) pos) by lia.
        apply Forall_app. split; [assumption|].
        assert (El : sub t (pos - 1) pos = [c]).
        { unfold sub. replace (Z.to_nat (pos - (pos - 1))) with 1%nat by lia.
          destruct (skipn (Z.to_nat (pos - 1)) t) as [|c' r] eqn:Esk.
          - assert (length (skipn (Z.to_nat (pos - 1)) t) = O) by (rewrite Esk; reflexivity).
            rewrite skipn_length in H. assert (Z.to_nat (pos - 1) < length t)%nat by (apply nth_error_Some; congruence). lia.
          - simpl. pose proof (nth_error_skipn' t (Z.to_nat (pos - 1)) 0) as Hn. rewrite Esk in Hn.
            rewrite Nat.add_0_r, E in Hn. simpl in Hn. congruence. }
        rewrite El. constructor; [assumption|constructor].
      * intros Hlt. apply Hst. lia.
    + exists O. replace (pos - Z.of_nat 0) with pos by lia.
      split; [reflexivity|]. split; [lia|]. split; [rewrite sub_nil by lia; constructor|].
      intros _. exists c. split; [exact E|assumption].
Qed.

Lemma nth_error_in_bounds x : in_bounds x -> sp_start x < sp_stop x ->
  exists c r, span_str x = c :: r /\ py_getitem (sp_text x) (sp_start x) = Ok c.
Proof.
  intros Hx Hlt. rewrite span_str_sub by assumption. pose proof Hx as (H1 & H2 & H3).
  unfold py_getitem. rewrite py_index_nonneg by lia.
  pose proof (@nth_error_sub _ (sp_text x) (sp_start x) (sp_stop x) 0 H1 ltac:(lia)) as Hn.
  rewrite Z.add_0_r in Hn. destruct (sub (sp_text x) (sp_start x) (sp_stop x)) as [|c r] eqn:E.
  - pose proof (sub_length (sp_text x) (conj H1 H2) H3) as Hl. rewrite E in Hl. unfold zlen in Hl; simpl in Hl. lia.
  - exists c, r. split; [reflexivity|]. simpl in Hn. rewrite <- Hn. reflexivity.
Qed.

Lemma py_getitem_last x : in_bounds x -> sp_start x < sp_stop x ->
  exists c, nth_error (sp_text x) (Z.to_nat (sp_stop x - 1)) = Some c /\ py_getitem (sp_text x) (sp_stop x - 1) = Ok c.
Proof.
  intros (H1 & H2 & H3) Hlt. unfold py_getitem. rewrite py_index_nonneg by lia.
  destruct (nth_error (sp_text x) (Z.to_nat (sp_stop x - 1))) as [c|] eqn:E.
  - exists c. split; reflexivity.
  - apply nth_error_None in E. unfold zlen in *. lia.
Qed.

Definition first_ok (x : span) : Prop :=
  sp_start x < sp_stop x ->
  exists c, nth_error (sp_text x) (Z.to_nat (sp_start x)) = Some c /\ isspace c = false.
Definition last_ok (x : span) : Prop :=
  sp_start x < sp_stop x ->
  exists c, nth_error (sp_text x) (Z.to_nat (sp_stop x - 1)) = Some c /\ isspace c = false.

(** Everything trim does, in one statement. *)
Lemma trim_main x : in_bounds x ->
  exists y, trim isspace x = Ok y /\ inside y x /\ in_bounds y /\
    (exists pre post, span_str x = pre ++ span_str y ++ post /\
        all_space isspace pre /\ all_space isspace post) /\
    first_ok y /\
    ((forall c, nth_error (sp_text x) (Z.to_nat (sp_start x)) = Some c -> isspace c = false) -> last_ok y).
Proof.
  intros Hx. pose proof Hx as (H1 & H2 & H3). unfold trim, trim_offsets.
  destruct (Z.eqb_spec (span_len x) 0) as [E0|E0]; unfold span_len in *.
  - simpl. exists x. split; [reflexivity|]. split; [unfold inside; repeat split; simpl; (reflexivity || lia)|]. split; [assumption|].
    split; [exists [], []; rewrite app_nil_r; repeat split; constructor|].
    split; [intros ?; lia|intros _ ?; lia].
  - destruct (nth_error_in_bounds x Hx ltac:(lia)) as (c & r & Hc & Hg). rewrite Hg. simpl.
    assert (Hc0 : nth_error (sp_text x) (Z.to_nat (sp_start x)) = Some c).
    { unfold py_getitem in Hg. rewrite py_index_nonneg in Hg by lia.
      destruct (nth_error (sp_text x) (Z.to_nat (sp_start x))); [injection Hg as ->; reflexivity|discriminate]. }
    destruct (isspace c) eqn:Ec.
    + (* leading whitespace *)
      simpl. destruct (trim_forward_spec (span_str x) (sp_start x)) as (pre & post & Hs & Hpre & Hpos & Hpost).
      assert (Hlen : zlen (span_str x) = sp_stop x - sp_start x) by (rewrite span_len_str by assumption; reflexivity).
      assert (Hlen2 : zlen (span_str x) = zlen pre + zlen post) by (rewrite Hs; unfold zlen; rewrite app_length; lia).
      assert (Hp1 : 1 <= zlen pre).
      { destruct pre as [|p pre]; [|unfold zlen; simpl length; lia].
        simpl in Hs. subst post. rewrite Hc in Hpost. simpl in Hpost. congruence. }
      rewrite Hpos. destruct (Z.leb_spec (sp_stop x) (sp_start x + zlen pre)).
      * (* all whitespace *)
        simpl. unfold new_span. destruct (Z.leb_spec (sp_start x) (sp_start x)); [|lia].
        exists (mkSpan (sp_text x) (sp_start x) (sp_start x)).
        assert (Hb : in_bounds (mkSpan (sp_text x) (sp_start x) (sp_start x))) by (unfold in_bounds; simpl; lia).
        split; [reflexivity|]. split; [unfold inside; repeat split; simpl; (reflexivity || lia)|]. split; [assumption|].
        split. { exists pre, []. rewrite (span_str_sub _ Hb). simpl. rewrite sub_nil by lia. simpl. rewrite app_nil_r.
                 assert (post = []) by (destruct post; [reflexivity|unfold zlen in *; simpl length in *; lia]).
                 subst post. rewrite app_nil_r in Hs. repeat split; [assumption|assumption|constructor]. }
        split; [intros ?; simpl in *; lia|intros _ ?; simpl in *; lia].
      * destruct (Z.eqb_spec (sp_start x + zlen pre) (sp_start x)); [lia|]. simpl.
        unfold text_offset.
        destruct (Z.leb_spec 0 (sp_start x + zlen pre)); [|lia].
        destruct (Z.leb_spec (sp_start x + zlen pre) (zlen (sp_text x))); [|lia]. simpl.
        destruct (Z.leb_spec 0 (sp_stop x)); [|lia].
        destruct (Z.leb_spec (sp_stop x) (zlen (sp_text x))); [|lia]. simpl.
        unfold new_span. destruct (Z.leb_spec (sp_start x + zlen pre) (sp_stop x)); [|lia].
        exists (mkSpan (sp_text x) (sp_start x + zlen pre) (sp_stop x)).
        assert (Hb : in_bounds (mkSpan (sp_text x) (sp_start x + zlen pre) (sp_stop x))) by (unfold in_bounds; simpl; lia).
        split; [reflexivity|]. split; [unfold inside; repeat split; simpl; (reflexivity || lia)|]. split; [assumption|].
        assert (Hy : sub (sp_text x) (sp_start x + zlen pre) (sp_stop x) = post).
        { rewrite span_str_sub in Hs by assumption.
          replace (sp_stop x) with (sp_start x + (sp_stop x - sp_start x)) by lia.
          rewrite <- (@sub_sub _ (sp_text x) (sp_start x) (sp_stop x)) by lia. rewrite Hs.
          unfold sub at 1. unfold zlen. rewrite Nat2Z.id. rewrite skipn_app, Nat.sub_diag, skipn_all. simpl.
          apply firstn_all2. unfold zlen in *. lia. }
        split. { exists pre, []. rewrite (span_str_sub _ Hb). simpl. rewrite Hy, app_nil_r. repeat split; [assumption|assumption|constructor]. }
        split.
        -- intros _. simpl. destruct post as [|c' post'] eqn:Ep; [unfold zlen in *; simpl length in *; lia|].
           exists c'. split; [|assumption].
           rewrite <- (Z.add_0_r (sp_start x + zlen pre)). rewrite <- (@nth_error_sub _ (sp_text x) (sp_start x + zlen pre) (sp_stop x)) by lia.
           rewrite Hy. reflexivity.
        -- intros Hf. specialize (Hf c Hc0). congruence.
    + destruct (py_getitem_last x Hx ltac:(lia)) as (cl & Hcl & Hgl). rewrite Hgl. simpl.
      destruct (isspace cl) eqn:Ecl.
      * destruct (trim_backward_spec (sp_text x) (Z.to_nat (sp_stop x - sp_start x)) (sp_stop x) ltac:(lia) H3)
          as (k & Hk & Hle & Hsp & Hst).
        rewrite Hk. simpl.
        assert (Hkl : (k < Z.to_nat (sp_stop x - sp_start x))%nat).
        { destruct (Nat.eq_dec k (Z.to_nat (sp_stop x - sp_start x))) as [Ek|]; [|lia].
          exfalso. replace (sp_stop x - Z.of_nat k) with (sp_start x) in Hsp by lia.
          rewrite <- span_str_sub in Hsp by assumption. rewrite Hc in Hsp. inversion Hsp; congruence. }
        assert (Hk1 : (1 <= k)%nat).
        { destruct k; [|lia]. destruct (Hst Hkl) as (c' & Hc' & Hf). replace (sp_stop x - Z.of_nat 0 - 1) with (sp_stop x - 1) in Hc' by lia.
          congruence. }
        destruct (Z.leb_spec (sp_stop x - Z.of_nat k) (sp_start x)); [lia|].
        destruct (Z.eqb_spec (sp_start x) (sp_start x)); [|lia].
        destruct (Z.eqb_spec (sp_stop x - Z.of_nat k) (sp_stop x)); [lia|]. simpl.
        unfold text_offset.
        destruct (Z.leb_spec 0 (sp_start x)); [|lia].
        destruct (Z.leb_spec (sp_start x) (zlen (sp_text x))); [|lia]. simpl.
        destruct (Z.leb_spec 0 (sp_stop x - Z.of_nat k)); [|lia].
        destruct (Z.leb_spec (sp_stop x - Z.of_nat k) (zlen (sp_text x))); [|lia]. simpl.
        unfold new_span. destruct (Z.leb_spec (sp_start x) (sp_stop x - Z.of_nat k)); [|lia].
        exists (mkSpan (sp_text x) (sp_start x) (sp_stop x - Z.of_nat k)).
        assert (Hb : in_bounds (mkSpan (sp_text x) (sp_start x) (sp_stop x - Z.of_nat k))) by (unfold in_bounds; simpl; lia).
        split; [reflexivity|]. split; [unfold inside; repeat split; simpl; (reflexivity || lia)|]. split; [assumption|].
        split. { exists [], (sub (sp_text x) (sp_stop x - Z.of_nat k) (sp_stop x)).
                 rewrite (span_str_sub _ Hb), (span_str_sub x) by assumption. simpl. rewrite sub_app by lia.
                 repeat split; [constructor|assumption]. }
        split; [intros _; simpl; exists c; split; assumption|].
        intros _ _. simpl. apply Hst. assumption.
      * simpl. destruct (Z.leb_spec (sp_stop x) (sp_start x)); [lia|].
        rewrite !Z.eqb_refl. simpl. exists x. split; [reflexivity|]. split; [unfold inside; repeat split; simpl; (reflexivity || lia)|]. split; [assumption|].
        split; [exists [], []; rewrite app_nil_r; repeat split; constructor|].
        split; [intros _; exists c; split; assumption|intros _ _; exists cl; split; assumption].
Qed.
End Trim.

(** Segmentation *)
Lemma zset_insert_In x l y : In y (zset_insert x l) <-> y = x \/ In y l.
Proof.
  induction l as [|z l IH]; simpl; [intuition|].
  destruct (Z.ltb_spec x z); [simpl; intuition|].
  destruct (Z.eqb_spec x z) as [->|]; simpl; [intuition|]. rewrite IH. intuition.
Qed.

Lemma zset_insert_sorted x l : StronglySorted Z.lt l -> StronglySorted Z.lt (zset_insert x l).
Proof.
  induction l as [|z l IH]; simpl; intros H; [repeat constructor|].
  inversion H as [|? ? Hs Hf]; subst.
  destruct (Z.ltb_spec x z).
  - constructor; [assumption|]. constructor; [assumption|]. eapply Forall_impl; [|exact Hf]. simpl; intros; lia.
  - destruct (Z.eqb_spec x z) as [->|]; [assumption|].
    constructor; [auto|]. apply Forall_forall. intros y Hy. apply zset_insert_In in Hy.
    destruct Hy as [->|Hy]; [lia|]. rewrite Forall_forall in Hf. auto.
Qed.

Lemma sorted_offsets_In t c o : In o (sorted_offsets t c) <-> o = 0 \/ o = zlen t \/ In o c.
Proof.
  unfold sorted_offsets. simpl. rewrite !zset_insert_In.
  assert (E : forall l, In o (fold_right zset_insert [] l) <-> In o l).
  { induction l as [|x l IH]; simpl; [tauto|]. rewrite zset_insert_In, IH. intuition. }
  rewrite E. intuition.
Qed.

Lemma sorted_offsets_sorted t c : StronglySorted Z.lt (sorted_offsets t c).
Proof.
  unfold sorted_offsets. induction (0 :: zlen t :: c) as [|x l IH]; simpl; [constructor|].
  apply zset_insert_sorted. assumption.
Qed.

Lemma text_compile_pos t l : forall a,
  StronglySorted Z.lt (a :: l) -> Forall (fun o => 0 <= o <= zlen t) (a :: l) ->
  seg_offsets a (text_compile t (a :: l)) = a :: l /\
  join_segs (text_compile t (a :: l)) = sub t a (last l a).
Proof.
  induction l as [|b l IH]; intros a Hs Hf.
  - simpl. rewrite sub_nil by lia. split; reflexivity.
  - inversion Hs as [|? ? Hs' Hlt]; subst. inversion Hf as [|? ? Ha Hf']; subst.
    inversion Hlt as [|? ? Hab Hlt']; subst. inversion Hf' as [|? ? Hb Hf'']; subst.
    destruct (IH b Hs' Hf') as [IH1 IH2].
    change (text_compile t (a :: b :: l)) with (py_slice t (Some a) (Some b) :: text_compile t (b :: l)).
    assert (E : py_slice t (Some a) (Some b) = sub t a b).
    { unfold py_slice. simpl. rewrite !slice_norm_id by lia. reflexivity. }
    rewrite E. split.
    + cbn [seg_offsets]. rewrite sub_length by lia. replace (a + (b - a)) with b by lia.
      rewrite IH1. reflexivity.
    + cbn [join_segs List.concat]. unfold join_segs in IH2. rewrite IH2.
      assert (Elast : last (b :: l) a = last l b).
      { clear. revert b. induction l as [|c l IH]; intros b; [reflexivity|].
        change (last (b :: c :: l) a) with (last (c :: l) a). rewrite IH.
        destruct l; [reflexivity|]. change (last (c :: z :: l) b) with (last (z :: l) b).
        clear. revert z c b. induction l as [|e l IH]; intros; [reflexivity|].
        change (last (z :: e :: l) c) with (last (e :: l) c). change (last (z :: e :: l) b) with (last (e :: l) b).
        apply IH. }
      rewrite Elast. apply sub_app; [lia|].
      assert (In (last l b) (b :: l)).
      { clear. revert b. induction l as [|c l IH]; intros b; [left; reflexivity|].
        right. change (last (c :: l) b) with (match l with [] => c | _ => last l b end).
        destruct l as [|d l]; [left; reflexivity|].
        replace (last (d :: l) b) with (last (d :: l) c); [apply IH|].
        clear. revert d. induction l as [|e l IH]; intros d; [reflexivity|]. apply (IH e). }
      inversion Hs' as [|? ? _ Hf2]; subst. destruct H as [<-|Hin]; [lia|].
      rewrite Forall_forall in Hf2. specialize (Hf2 _ Hin). lia.
Qed.

Lemma last_In_nonempty {A} (l : list A) d : l <> [] -> In (last l d) l.
Proof.
  induction l as [|x l IH]; [congruence|]. intros _. destruct l; [left; reflexivity|].
  right. apply IH. discriminate.
Qed.

Lemma last_sorted_max l : StronglySorted Z.lt l -> forall d o, In o l -> o <= last l d.
Proof.
  induction l as [|x l IH]; intros Hs d o Hin; [destruct Hin|].
  inversion Hs as [|? ? Hs' Hf]; subst. destruct l as [|y l].
  - destruct Hin as [<-|[]]. simpl. lia.
  - change (last (x :: y :: l) d) with (last (y :: l) d). destruct Hin as [<-|Hin].
    + assert (In (last (y :: l) d) (y :: l)) by (apply last_In_nonempty; discriminate).
      rewrite Forall_forall in Hf. specialize (Hf _ H). lia.
    + apply IH; assumption.
Qed.

Lemma segmentation t c : Forall (fun o => 0 <= o <= zlen t) c ->
  join_segs (text_compile t (sorted_offsets t c)) = t /\
  seg_offsets 0 (text_compile t (sorted_offsets t c)) = sorted_offsets t c.
Proof.
  intros Hc. pose proof (zlen_nonneg t) as Hz.
  assert (Hall : Forall (fun o => 0 <= o <= zlen t) (sorted_offsets t c)).
  { apply Forall_forall. intros o Ho. apply sorted_offsets_In in Ho. rewrite Forall_forall in Hc.
    destruct Ho as [->|[->|Ho]]; [lia|lia|auto]. }
  pose proof (sorted_offsets_sorted t c) as Hs.
  assert (Hhd : exists r, sorted_offsets t c = 0 :: r).
  { assert (H0 : In 0 (sorted_offsets t c)) by (apply sorted_offsets_In; left; reflexivity).
    destruct (sorted_offsets t c) as [|a r] eqn:E; [destruct H0|].
    exists r. f_equal. destruct H0 as [->|H0]; [reflexivity|].
    inversion Hs as [|? ? _ Hf]; subst. rewrite Forall_forall in Hf. specialize (Hf _ H0).
    inversion Hall; subst. lia. }
  destruct Hhd as (r & Er).
  assert (Hlast : last r 0 = zlen t).
  { assert (Hin : In (zlen t) (sorted_offsets t c)) by (apply sorted_offsets_In; right; left; reflexivity).
    pose proof (last_sorted_max _ Hs 0 (zlen t) Hin) as Hm. rewrite Er in Hm.
    assert (El : last (0 :: r) 0 = last r 0) by (destruct r; reflexivity). rewrite El in Hm.
    assert (Hin2 : last r 0 = 0 \/ In (last r 0) r).
    { destruct r; [left; reflexivity|right; apply last_In_nonempty; discriminate]. }
    assert (last r 0 <= zlen t).
    { rewrite Er in Hall. inversion Hall as [|? ? Hz0 Hf]; subst. destruct Hin2 as [->|Hin2]; [lia|].
      rewrite Forall_forall in Hf. apply Hf in Hin2. lia. }
    lia. }
  rewrite Er in *. destruct (text_compile_pos _ _ _ Hs Hall) as [E1 E2]. split; [|assumption].
  rewrite E2, Hlast. apply sub_full.
Qed.

Lemma offset_id_nth l o : In o l -> exists i, offset_id l o = Some (Z.of_nat i) /\ nth_error l i = Some o.
Proof.
  induction l as [|x l IH]; intros Hin; [destruct Hin|]. simpl.
  destruct (Z.eqb_spec x o) as [->|Hn].
  - exists O. split; reflexivity.
  - destruct Hin as [->|Hin]; [congruence|]. destruct (IH Hin) as (i & E1 & E2).
    exists (S i). rewrite E1. simpl. split; [f_equal; lia|assumption].
Qed.

Lemma segmentation_ids t c o : Forall (fun o => 0 <= o <= zlen t) c -> In o (0 :: zlen t :: c) ->
  exists i, offset_id (sorted_offsets t c) o = Some (Z.of_nat i) /\
            nth_error (seg_offsets 0 (text_compile t (sorted_offsets t c))) i = Some o.
Proof.
  intros Hc Hin. destruct (segmentation t c Hc) as [_ E]. rewrite E. apply offset_id_nth.
  apply sorted_offsets_In. simpl in Hin. intuition.
Qed.

(** Agreement of the model's built-in slicing with the documented one *)
Lemma slice_norm_clamp len i : 0 <= len -> slice_norm len i = clamp len (if i <? 0 then len + i else i).
Proof. intros. unfold slice_norm, clamp. destruct (Z.ltb_spec i 0); lia. Qed.
Lemma slice_start_clamp len a : 0 <= len -> slice_start len a = clamp len (doc_start len a).
Proof. intros. destruct a; simpl; [apply slice_norm_clamp; assumption|unfold clamp; lia]. Qed.
Lemma slice_stop_clamp len a : 0 <= len -> slice_stop len a = clamp len (doc_stop len a).
Proof. intros. destruct a; simpl; [apply slice_norm_clamp; assumption|unfold clamp; lia]. Qed.

Lemma filter_none {A} (f : A -> bool) l : (forall x, In x l -> f x = false) -> filter f l = [].
Proof.
  induction l as [|x l IH]; intros H; [reflexivity|]. simpl. rewrite H by (left; reflexivity).
  apply IH. intros; apply H; right; assumption.
Qed.

Lemma select_positions {A} (l : list A) : forall p lo hi,
  map snd (filter (fun q => (lo <=? fst q) && (fst q <? hi)) (combine (map Z.of_nat (seq p (length l))) l))
  = firstn (Z.to_nat (Z.min hi (Z.of_nat p + zlen l) - Z.max (Z.of_nat p) lo)) (skipn (Z.to_nat (lo - Z.of_nat p)) l).
Proof.
  induction l as [|x l IH]; intros p lo hi.
  - simpl. rewrite skipn_nil, firstn_nil. reflexivity.
  - cbn [length seq map combine filter fst].
    assert (Hz : zlen (x :: l) = zlen l + 1) by (unfold zlen; simpl length; lia). rewrite Hz.
    pose proof (zlen_nonneg l).
    destruct (Z.leb_spec lo (Z.of_nat p)); simpl andb.
    + replace (Z.to_nat (lo - Z.of_nat p)) with O by lia. cbn [skipn].
      destruct (Z.ltb_spec (Z.of_nat p) hi).
      * cbn [map snd]. rewrite IH. replace (Z.to_nat (lo - Z.of_nat (S p))) with O by lia. cbn [skipn].
        replace (Z.to_nat (Z.min hi (Z.of_nat p + (zlen l + 1)) - Z.max (Z.of_nat p) lo))
          with (S (Z.to_nat (Z.min hi (Z.of_nat (S p) + zlen l) - Z.max (Z.of_nat (S p)) lo))) by lia.
        reflexivity.
      * cbv iota. rewrite IH. replace (Z.to_nat (Z.min hi (Z.of_nat (S p) + zlen l) - Z.max (Z.of_nat (S p)) lo)) with O by lia.
        replace (Z.to_nat (Z.min hi (Z.of_nat p + (zlen l + 1)) - Z.max (Z.of_nat p) lo)) with O by lia. reflexivity.
    + cbv iota. rewrite IH. replace (Z.to_nat (lo - Z.of_nat p)) with (S (Z.to_nat (lo - Z.of_nat (S p)))) by lia. cbn [skipn].
      f_equal. lia.
Qed.

Lemma doc_slice_py {A} (l : list A) a b : doc_slice l a b = py_slice l a b.
Proof.
  unfold doc_slice, py_slice, sub. pose proof (zlen_nonneg l) as Hz.
  rewrite select_positions, slice_start_clamp, slice_stop_clamp by assumption.
  unfold clamp. simpl Z.of_nat. rewrite Z.sub_0_r.
  set (lo := doc_start (zlen l) a). set (hi := doc_stop (zlen l) b).
  destruct (Z_le_gt_dec lo (zlen l)).
  - f_equal; [lia|]. f_equal. lia.
  - replace (Z.to_nat (Z.max 0 (Z.min (zlen l) hi) - Z.max 0 (Z.min (zlen l) lo))) with O by lia.
    rewrite skipn_all2 by (unfold zlen in *; lia). rewrite firstn_nil. reflexivity.
Qed.

Lemma doc_item_py {A} (l : list A) i : doc_item l i = py_getitem l i.
Proof.
  unfold doc_item, py_getitem, py_index. pose proof (zlen_nonneg l).
  destruct (Z.ltb_spec i 0).
  - destruct (Z.leb_spec 0 (i + zlen l)), (Z.leb_spec (- zlen l) i), (Z.ltb_spec i (zlen l)); try lia; simpl; try reflexivity.
    rewrite Z.add_comm. reflexivity.
  - destruct (Z.leb_spec (- zlen l) i), (Z.ltb_spec i (zlen l)); try lia; reflexivity.
Qed.

Lemma reversed_py len a b : 0 <= len -> (reversed len a b <-> slice_stop len b < slice_start len a).
Proof. intros. unfold reversed. rewrite slice_start_clamp, slice_stop_clamp by assumption. tauto. Qed.

Lemma text_slice_main t a b :
  (~ reversed (zlen t) a b ->
     exists x, text_slice t a b = Ok x /\ sp_text x = t /\ in_bounds x /\ span_str x = doc_slice t a b /\
               sp_start x = clamp (zlen t) (doc_start (zlen t) a)) /\
  (reversed (zlen t) a b -> text_slice t a b = Err DataValidationError).
Proof.
  pose proof (zlen_nonneg t) as Hz. rewrite reversed_py by assumption. pose proof (text_slice_python t a b) as H.
  rewrite doc_slice_py. rewrite <- slice_start_clamp by assumption.
  split; intros Hr.
  - destruct (text_slice t a b) as [x|e] eqn:E; [|lia]. exists x. intuition.
  - rewrite text_slice_spec. destruct (Z.ltb_spec (slice_stop (zlen t) b) (slice_start (zlen t) a)); [reflexivity|lia].
Qed.

Lemma span_slice_main x a b : in_bounds x ->
  (~ reversed (zlen (span_str x)) a b ->
     exists y, span_slice x a b = Ok y /\ inside y x /\ in_bounds y /\ span_str y = doc_slice (span_str x) a b) /\
  (reversed (zlen (span_str x)) a b -> span_slice x a b = Err DataValidationError).
Proof.
  intros Hx. pose proof (zlen_nonneg (span_str x)) as Hz. rewrite reversed_py by assumption.
  pose proof (span_slice_composes x a b Hx) as H. rewrite doc_slice_py.
  split; intros Hr.
  - destruct (span_slice x a b) as [y|e] eqn:E; [|lia]. exists y. intuition.
  - destruct (span_slice x a b) as [y|e] eqn:E; [|f_equal; intuition].
    exfalso. rewrite span_len_str in Hr by assumption. unfold span_slice in E. rewrite text_slice_spec in E.
    pose proof Hx as (?&?&?). assert (0 <= span_len x) by (unfold span_len; lia).
    pose proof (slice_start_range a H3). pose proof (slice_stop_range b H3). unfold span_len in *.
    simpl in E. rewrite !slice_norm_id in E by lia.
    destruct (Z.ltb_spec (slice_stop (sp_stop x - sp_start x) b + sp_start x) (slice_start (sp_stop x - sp_start x) a + sp_start x)); [discriminate|lia].
Qed.

Lemma span_int_main x i : in_bounds x -> - zlen (span_str x) <= i < zlen (span_str x) ->
  span_int x i = doc_item (span_str x) i /\ exists c, span_int x i = Ok c.
Proof.
  intros Hx Hi. rewrite doc_item_py. rewrite span_len_str in Hi by assumption.
  split; [apply span_int_in_range; assumption|].
  rewrite span_int_in_range by assumption. unfold py_getitem, py_index. rewrite span_len_str by assumption.
  pose proof (span_len_str x Hx) as Hl. unfold zlen in Hl.
  destruct (Z.ltb_spec i 0).
  - destruct (Z.leb_spec 0 (i + span_len x)); [|lia].
    destruct (nth_error (span_str x) (Z.to_nat (i + span_len x))) eqn:E; [eexists; reflexivity|].
    apply nth_error_None in E. lia.
  - destruct (Z.ltb_spec i (span_len x)); [|lia].
    destruct (nth_error (span_str x) (Z.to_nat i)) eqn:E; [eexists; reflexivity|].
    apply nth_error_None in E. lia.
Qed.

(** text_to and span_to *)
Lemma span_to_main x r : in_bounds x -> in_bounds r -> sp_text r = sp_text x -> sp_start x <= sp_stop r ->
  exists y, span_to x r = Ok y /\ span_str y = span_text_to x r /\ sp_start y = sp_start x /\ sp_stop y = sp_stop r.
Proof.
  intros (?&?&?) (?&?&H5) Ht Hle. rewrite Ht in H5. unfold span_to. rewrite text_slice_spec. simpl. rewrite !slice_norm_id by lia.
  destruct (Z.ltb_spec (sp_stop r) (sp_start x)); [lia|]. eexists. split; [reflexivity|].
  split; [reflexivity|]. split; reflexivity.
Qed.
