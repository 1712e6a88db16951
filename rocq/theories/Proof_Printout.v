(** Proofs about options, truncation, numbers and escaping. *)
From Verif Require Import PyBase PyBaseFacts Model_Printout Spec_Printout.
From Coq Require Import QArith Qround Lia ZArith.
Local Open Scope Z_scope.

(** ** Options *)
Lemma py_int_whole k : py_int (inject_Z k) = k.
Proof. unfold py_int. destruct (Qle_bool 0 (inject_Z k)); [apply Qfloor_Z|apply Qceiling_Z]. Qed.
Lemma qle_whole k m : Qle_bool (inject_Z k) (inject_Z m) = (k <=? m).
Proof.
  destruct (k <=? m) eqn:E.
  - apply Qle_bool_iff. rewrite <- Zle_Qle. lia.
  - destruct (Qle_bool (inject_Z k) (inject_Z m)) eqn:F; [|reflexivity]. apply Qle_bool_iff in F. rewrite <- Zle_Qle in F. lia.
Qed.
Lemma set_whole least k : set_limit least (Some (inject_Z k)) = if k <=? least then Err ValueError else Ok (Some k).
Proof. unfold set_limit. rewrite qle_whole, py_int_whole. reflexivity. Qed.
Definition limits (o : options) : Prop :=
  (forall m, o_rows o = Some m -> 1 <= m) /\ (forall m, o_columns o = Some m -> 1 <= m) /\
  (forall m, o_width o = Some m -> 7 <= m) /\ (forall m, o_display o = Some m -> 11 <= m).
Lemma reached_limits o : reached whole o -> limits o.
Proof.
  induction 1 as [|o c o' R (A & B & C & D) W E].
  - repeat split; intros m X; cbn in X; injection X as <-; lia.
  - destruct W; cbn [set_option] in E; try rewrite set_whole in E; cbn [set_limit] in E;
      try (match type of E with context [?k <=? ?m] => destruct (Z.leb_spec k m); [discriminate E|] end);
      cbn [rbind] in E; injection E as <-; repeat split; cbn; intros m X; try discriminate X; try (injection X as <-); try lia;
      solve [eauto].
Qed.

(** ** truncate *)
Lemma zlen_app {A} (a b : list A) : zlen (a ++ b) = zlen a + zlen b.
Proof. unfold zlen. rewrite app_length. lia. Qed.
Lemma skip_skip {A} (l : list A) a b : skipn a (skipn b l) = skipn (b + a) l.
Proof. revert l. induction b as [|b IH]; intros l; [reflexivity|]. destruct l; cbn [skipn Nat.add]; [apply skipn_nil|apply IH]. Qed.
Lemma firstn_zlen {A} (l : list A) k : (k <= length l)%nat -> zlen (firstn k l) = Z.of_nat k.
Proof. intros L. unfold zlen. rewrite firstn_length. lia. Qed.
Lemma slice_first {A} (l : list A) k : 0 <= k <= zlen l -> py_slice l (Some 0) (Some k) = firstn (Z.to_nat k) l.
Proof.
  intros L. unfold py_slice, slice_start, slice_stop, slice_norm, sub.
  destruct (Z.ltb_spec 0 0); [lia|]. destruct (Z.ltb_spec k 0); [lia|].
  replace (Z.min 0 (zlen l)) with 0 by lia. replace (Z.min k (zlen l)) with k by lia. rewrite Z.sub_0_r. reflexivity.
Qed.
Lemma slice_last {A} (l : list A) k : 0 < k <= zlen l -> py_slice l (Some (- k)) None = skipn (length l - Z.to_nat k) l.
Proof.
  intros L. unfold py_slice, slice_start, slice_stop, slice_norm, sub.
  destruct (Z.ltb_spec (- k) 0); [|lia]. replace (Z.max (- k + zlen l) 0) with (zlen l - k) by lia.
  rewrite firstn_all2. f_equal. unfold zlen in *. lia. rewrite skipn_length. unfold zlen in *. lia.
Qed.
Lemma truncate_spec o x w d : limits o -> o_width o = Some w -> o_display o = Some d ->
  exists y, truncate o x = Ok y /\ zlen y <= Z.min w d /\
  (zlen x <= Z.min w d - 5 -> y = x) /\
  (Z.min w d - 5 < zlen x -> exists a m b, x = a ++ m ++ b /\ y = a ++ s " ... " ++ b /\ m <> [] /\
     zlen a = (Z.min w d - 5) / 2 /\ zlen b = (Z.min w d - 5) / 2 /\ 1 <= zlen a).
Proof.
  intros (_ & _ & W & D) Ew Ed. specialize (W w Ew). specialize (D d Ed). unfold truncate. rewrite Ew, Ed.
  replace (Z.min (d - 5) (w - 5)) with (Z.min w d - 5) by lia. set (m := Z.min w d - 5).
  destruct (Z.ltb_spec m (zlen x)) as [L|L].
  - rewrite Z.shiftr_div_pow2 by lia. change (2 ^ 1) with 2. set (p := m / 2).
    assert (P : 1 <= p /\ 2 * p <= m) by (unfold p, m; split; [apply Z.div_le_lower_bound; lia|pose proof (Z.mul_div_le (Z.min w d - 5) 2 ltac:(lia)); lia]).
    assert (T : (Z.to_nat p + (length x - Z.to_nat p - Z.to_nat p) + Z.to_nat p)%nat = length x) by (unfold zlen in L; lia).
    exists (firstn (Z.to_nat p) x ++ s " ... " ++ skipn (length x - Z.to_nat p) x).
    assert (Hb : zlen (skipn (length x - Z.to_nat p) x) = p) by (unfold zlen in *; rewrite skipn_length; lia).
    split; [|split; [|split]].
    + rewrite slice_first, slice_last by lia. reflexivity.
    + rewrite !zlen_app, firstn_zlen, Hb by lia. change (zlen (s " ... ")) with 5. lia.
    + lia.
    + intros _. exists (firstn (Z.to_nat p) x), (firstn (length x - Z.to_nat p - Z.to_nat p) (skipn (Z.to_nat p) x)), (skipn (length x - Z.to_nat p) x).
      split; [|split; [reflexivity|split; [|rewrite firstn_zlen by lia; rewrite Hb; lia]]].
      * rewrite <- (firstn_skipn (Z.to_nat p) x) at 1. f_equal.
        rewrite <- (firstn_skipn (length x - Z.to_nat p - Z.to_nat p) (skipn (Z.to_nat p) x)) at 1. f_equal.
        rewrite skip_skip. f_equal. lia.
      * intros E. apply (f_equal (@length _)) in E. rewrite firstn_length, skipn_length in E. cbn in E. unfold zlen in L. lia.
  - exists x. split; [reflexivity|]. split; [lia|]. split; [reflexivity|]. lia.
Qed.

(** ** Decimal numbers *)
Lemma decimal_app x y : decimal (x ++ y) = fold_left digit_value y (decimal x).
Proof. unfold decimal. apply fold_left_app. Qed.
Lemma digits_ok f k : (N.to_nat (N.log2 k) < f)%nat -> decimal (digits f k) = Z.of_N k /\ Forall is_digit (digits f k) /\ digits f k <> [].
Proof.
  revert k. induction f as [|f IH]; intros k L; [lia|]. cbn [digits]. destruct (N.ltb_spec k 10) as [Lk|Lk].
  - split; [|split; [|discriminate]].
    + unfold decimal. cbn [fold_left]. unfold digit_value. rewrite N2Z.inj_add. lia.
    + constructor; [unfold is_digit; lia|constructor].
  - assert (D : (k = 10 * (k / 10) + k mod 10)%N) by (apply N.div_mod'; lia).
    assert (M : (k mod 10 < 10)%N) by (apply N.mod_lt; lia).
    assert (Q : (N.to_nat (N.log2 (k / 10)) < f)%nat).
    { assert (X : (N.log2 (k / 10) < N.log2 k)%N); [|lia].
      assert (Y : (k / 10 <= k / 2)%N) by (apply N.div_le_compat_l; lia).
      apply N.log2_le_mono in Y. rewrite <- N.div2_div in Y.
      assert (Z : (N.log2 k = N.succ (N.log2 (N.div2 k)))%N).
      { rewrite N.div2_spec, N.log2_shiftr. assert (1 <= N.log2 k)%N; [|lia]. change 1%N with (N.log2 2). apply N.log2_le_mono. lia. }
      lia. }
    destruct (IH _ Q) as (A & B & C). split; [|split].
    + rewrite decimal_app, A. cbn [fold_left]. unfold digit_value. clear -D M. lia.
    + apply Forall_app. split; [exact B|]. constructor; [unfold is_digit; clear -M; revert M; generalize (k mod 10)%N; intros j M; split; lia|constructor].
    + intros E. apply app_eq_nil in E. destruct E as [_ E]. discriminate E.
Qed.
Lemma str_int_ok i : 0 <= i -> decimal (str_int i) = i /\ Forall is_digit (str_int i) /\ str_int i <> [].
Proof.
  intros L. unfold str_int. destruct (Z.ltb_spec i 0); [lia|]. destruct (digits_ok (S (N.to_nat (N.log2 (Z.to_N i)))) (Z.to_N i)) as (A & B & C); [lia|].
  unfold str_nat. rewrite A. split; [lia|auto].
Qed.

(** ** Escaping *)
Lemma escape_char_ok c x y : stands_for x y -> stands_for (escape_char c ++ x) (c :: y).
Proof.
  intros H. unfold escape_char.
  destruct (N.eqb_spec c 38) as [->|N1]; [apply st_amp, H|]. destruct (N.eqb_spec c 60) as [->|N2]; [apply st_lt, H|].
  destruct (N.eqb_spec c 62) as [->|N3]; [apply st_gt, H|]. destruct (N.eqb_spec c 34) as [->|N4]; [apply st_quot, H|].
  destruct (N.eqb_spec c 39) as [->|N5]; [apply st_apos, H|]. apply (st_plain c); [|exact H].
  unfold special. cbn [existsb]. apply N.eqb_neq in N1, N2, N3, N4, N5. rewrite N1, N2, N3, N4, N5. reflexivity.
Qed.
Lemma escape_ok x : stands_for (escape x) x.
Proof. induction x as [|c x IH]; [constructor|]. apply escape_char_ok, IH. Qed.
Lemma stands_app a b x y : stands_for a x -> stands_for b y -> stands_for (a ++ b) (x ++ y).
Proof.
  induction 1; intros HB; [exact HB|apply st_plain; auto|..]; rewrite <- app_assoc; cbn [app];
    [apply st_amp|apply st_lt|apply st_gt|apply st_quot|apply st_apos]; auto.
Qed.
(** such HTML stands for one text only *)
Lemma stands_fun a x : stands_for a x -> forall y, stands_for a y -> x = y.
Proof.
  induction 1 as [|c a x Hc H IH|a x H IH|a x H IH|a x H IH|a x H IH|a x H IH]; intros z Hz; inversion Hz; subst; try reflexivity;
    try match goal with H : special _ = false |- _ => discriminate H end; try (f_equal; apply IH; assumption).
Qed.
Lemma stands_no_tag a x c : stands_for a x -> In c [60%N; 62%N; 34%N; 39%N] -> ~ In c a.
Proof.
  intros H Hc. induction H as [|d a x Hd H IH|a x H IH|a x H IH|a x H IH|a x H IH|a x H IH]; intros HI;
    try (apply in_app_or in HI as [HI|HI]; [|tauto]; cbn in HI, Hc;
         repeat (destruct HI as [<-|HI]; [repeat (destruct Hc as [Hc|Hc]; [discriminate Hc|]); contradiction|]); contradiction).
  - destruct HI.
  - destruct HI as [->|HI]; [|tauto]. unfold special in Hd. cbn in Hc.
    repeat (destruct Hc as [<-|Hc]; [discriminate Hd|]). contradiction.
Qed.
