(** The boundary reader (C37, C38). *)
From Verif Require Import PyBase PyBaseFacts Model_Msgpack Model_Collection Model_Boundary Spec_Boundary Proof_Msgpack Proof_Boundary.
From Coq Require Import Lia.
Local Open Scope Z_scope.

(** ** positions *)
Lemma data_position_unique b x y : 12 <= b -> is_data b x = true -> is_data b y = true -> cnt b x = cnt b y -> x = y.
Proof.
  intros Hb Hx Hy E. assert (1 <= x) by (apply is_data_iff in Hx; lia). assert (1 <= y) by (apply is_data_iff in Hy; lia).
  destruct (Z_lt_ge_dec x y); [pose proof (cnt_lt b x y Hb ltac:(lia) Hx); lia|].
  destruct (Z_lt_ge_dec y x); [pose proof (cnt_lt b y x Hb ltac:(lia) Hy); lia|lia].
Qed.
Lemma to_absolute_ok b o : 12 <= b -> 0 <= o -> is_data b (to_absolute b o) = true /\ cnt b (to_absolute b o) = o.
Proof.
  intros Hb Ho. pose proof (pow_big b Hb) as P. unfold to_absolute. rewrite shl, Z.mul_1_l by lia. destruct (Z.ltb_spec o (2 ^ b - 1)) as [L|L].
  - split; [apply (data_segment b 0); lia|]. unfold cnt. destruct (Z.ltb_spec (o + 1) (2 ^ b)); lia.
  - set (u := o - 2 ^ b + 1). destruct (quot (2 ^ b - 4) u ltac:(lia) ltac:(lia)) as (q & Hq & Hr & D & _). rewrite D.
    set (x := q * 4 + 2 ^ b + 4 + u). assert (Hx : (q + 1) * 2 ^ b + 4 <= x < (q + 1 + 1) * 2 ^ b) by lia.
    assert (X : is_data b x = true) by (apply (data_segment b (q + 1)); lia). split; [exact X|]. rewrite (cnt_data b x Hb X).
    destruct (div_between (2 ^ b) (q + 1) x) as [-> _]; unfold x, u in *; lia.
Qed.
Lemma read_position_ok b o : 12 <= b -> exact_at b o -> is_data b (read_position b o) = true /\ cnt b (read_position b o) = o.
Proof.
  intros Hb (Ho & E). pose proof (pow_big b Hb) as P. unfold read_position. rewrite shr by lia.
  destruct (quot (2 ^ b) (o + 1) ltac:(lia) ltac:(lia)) as (q & Hq & Hr & D & M). rewrite D, M in *. set (x := q * 4 + (o + 1)).
  assert (X : is_data b x = true). { apply (data_segment b q); unfold x; try lia. }
  split; [exact X|]. rewrite (cnt_data b x Hb X). destruct (div_between (2 ^ b) q x) as [-> _]; unfold x; lia.
Qed.
Lemma read_position_mono b o n : 12 <= b -> 0 <= n -> read_position b o <= read_position b (o + n).
Proof.
  intros Hb Hn. pose proof (pow_big b Hb) as P. unfold read_position. rewrite !shr by lia.
  assert ((o + 1) / 2 ^ b <= (o + n + 1) / 2 ^ b) by (apply Z.div_le_mono; lia). lia.
Qed.
Lemma data_off_boundary b x : 12 <= b -> is_data b x = true -> on_boundary b x = false.
Proof.
  intros Hb D. pose proof (pow_big b Hb) as P. unfold on_boundary. rewrite shl, shr by lia. apply Z.eqb_neq. intros E. apply is_data_iff in D. destruct D as (H1 & D).
  destruct (quot (2 ^ b) x ltac:(lia) ltac:(lia)) as (q & Hq & Hr & Dq & M). rewrite Dq in E. rewrite M in D. destruct D as [D|D]; [|lia]. assert (1 <= q) by (destruct (Z.eq_dec q 0); [subst q|]; lia). assert (1 * 2 ^ b <= q * 2 ^ b) by (apply Z.mul_le_mono_nonneg_r; lia). lia.
Qed.

(** ** the file *)
Section File.
Variables (b : Z) (p f : list N).
Hypothesis Hb : 12 <= b.
Hypothesis F : boundary_file b p f.
Let B := 2 ^ b.

Lemma file_cons : exists rest, f = Z.to_N b :: rest /\ data_from b 1 rest = p.
Proof.
  destruct F as (A & D & _). destruct f as [|c rest]; [discriminate|]. cbn in A. injection A as ->. exists rest. split; [reflexivity|]. exact D.
Qed.
Lemma file_len : 1 <= zlen f /\ cnt b (zlen f) = zlen p.
Proof.
  destruct file_cons as (rest & -> & D). unfold zlen at 1 2. cbn [length]. split; [lia|]. rewrite <- D. rewrite data_from_length, cnt_1 by lia.
  unfold zlen. rewrite Nat2Z.inj_succ, <- Z.add_1_l. lia.
Qed.
Lemma data_tail x : 1 <= x <= zlen f -> data_from b x (skipn (Z.to_nat x) f) = skipn (Z.to_nat (cnt b x)) p.
Proof.
  intros Hx. destruct file_cons as (rest & E & D). rewrite E in *. unfold zlen in Hx. cbn [length] in Hx.
  replace (Z.to_nat x) with (S (Z.to_nat (x - 1))) by lia. cbn [skipn]. rewrite <- D.
  rewrite <- (firstn_skipn (Z.to_nat (x - 1)) rest) at 2. rewrite data_from_app.
  assert (Lf : zlen (firstn (Z.to_nat (x - 1)) rest) = x - 1) by (unfold zlen; rewrite firstn_length; lia).
  pose proof (data_from_length b Hb (firstn (Z.to_nat (x - 1)) rest) 1 ltac:(lia)) as L. rewrite Lf in *. replace (1 + (x - 1)) with x in * by lia.
  rewrite cnt_1 in L by lia. rewrite skipn_app. unfold zlen in L. rewrite (skipn_all2 (data_from b 1 (firstn (Z.to_nat (x - 1)) rest))) by lia.
  replace (Z.to_nat (cnt b x) - length (data_from b 1 (firstn (Z.to_nat (x - 1)) rest)))%nat with 0%nat by lia. reflexivity.
Qed.
Lemma data_part x y : 1 <= x <= y -> y <= zlen f -> data_from b x (sub f x y) = firstn (Z.to_nat (cnt b y - cnt b x)) (skipn (Z.to_nat (cnt b x)) p).
Proof.
  intros H1 H2. pose proof (data_tail x ltac:(lia)) as T.
  assert (S : skipn (Z.to_nat x) f = sub f x y ++ skipn (Z.to_nat (y - x)) (skipn (Z.to_nat x) f)) by (unfold sub; symmetry; apply firstn_skipn).
  rewrite S in T. rewrite data_from_app in T. rewrite <- T.
  pose proof (data_from_length b Hb (sub f x y) x ltac:(lia)) as L. rewrite sub_length in L by lia. replace (x + (y - x)) with y in L by lia.
  rewrite <- L. unfold zlen. rewrite Nat2Z.id, firstn_app, Nat.sub_diag, firstn_all. simpl. rewrite app_nil_r. reflexivity.
Qed.
Lemma nth_data x : 1 <= x < zlen f -> is_data b x = true -> nth_error f (Z.to_nat x) = nth_error p (Z.to_nat (cnt b x)).
Proof.
  intros Hx D. pose proof (data_tail x ltac:(lia)) as T. unfold zlen in Hx.
  destruct (nth_error f (Z.to_nat x)) as [c|] eqn:E; [|apply nth_error_None in E; lia].
  apply nth_error_split in E. destruct E as (l1 & l2 & E & L). rewrite E in T. rewrite <- L in T. rewrite skipn_app, skipn_all, Nat.sub_diag in T. cbn [app skipn data_from] in T.
  rewrite D in T. rewrite <- (firstn_skipn (Z.to_nat (cnt b x)) p). rewrite <- T.
  assert (Z.to_nat (cnt b x) <= length p)%nat. { destruct (le_gt_dec (Z.to_nat (cnt b x)) (length p)); [assumption|]. rewrite skipn_all2 in T by lia. discriminate. }
  rewrite nth_error_app2; rewrite firstn_length, Nat.min_l by lia; [|lia]. rewrite Nat.sub_diag. reflexivity.
Qed.

(** ** the loop *)
Lemma set_slice_ok pre k x : set_slice (pre ++ repeat 0%N (length x + k)) (zlen pre) (zlen pre + zlen x) x = (pre ++ x) ++ repeat 0%N k.
Proof.
  unfold set_slice, zlen. rewrite Nat2Z.id. replace (Z.to_nat (Z.of_nat (length pre) + Z.of_nat (length x))) with (length pre + length x)%nat by lia.
  rewrite firstn_app, firstn_all, Nat.sub_diag. simpl. rewrite app_nil_r. rewrite skipn_app, skipn_all2 by lia.
  replace (length pre + length x - length pre)%nat with (length x) by lia. rewrite repeat_app, skipn_app, skipn_all2 by (rewrite repeat_length; lia).
  rewrite repeat_length, Nat.sub_diag. simpl. rewrite <- app_assoc. reflexivity.
Qed.
Lemma br_loop_ok x stop l : is_data b x = true -> is_data b stop = true -> zlen l = stop - x -> forall fuel cur,
  is_data b cur = true -> x <= cur <= stop -> stop - cur <= Z.of_nat fuel ->
  br_loop fuel b stop l (data_from b x (sub l 0 (cur - x)) ++ repeat 0%N (Z.to_nat (cnt b stop - cnt b cur))) (cnt b cur - cnt b x) (cur - x) cur =
  Ok (data_from b x l, cnt b stop - cnt b x).
Proof.
  intros Dx Ds Ll. pose proof (pow_big b Hb) as P. assert (X1 : 1 <= x) by (apply is_data_iff in Dx; lia).
  induction fuel as [|fuel IH]; intros cur Dc Hc Hf.
  - assert (cur = stop) by lia. subst cur. cbn [br_loop]. rewrite Z.ltb_irrefl. rewrite Z.sub_diag. rewrite <- Ll, sub_full. simpl. rewrite app_nil_r. reflexivity.
  - cbn [br_loop]. destruct (Z.ltb_spec cur stop) as [L|L].
    2:{ assert (cur = stop) by lia. subst cur. rewrite Z.sub_diag. rewrite <- Ll, sub_full. simpl. rewrite app_nil_r. reflexivity. }
    rewrite shl, shr by lia. destruct (quot (2 ^ b) cur ltac:(lia) ltac:(lia)) as (q & Hq & Hr & Dq & M). rewrite Dq.
    set (m := Z.min ((q + 1) * 2 ^ b) stop - cur). assert (Hm : 1 <= m <= stop - cur) by lia.
    rewrite py_slice_in by lia.
    assert (Dm : forall y, cur <= y < cur + m -> is_data b y = true).
    { intros y Hy. apply (data_segment b q); try lia. apply is_data_iff in Dc. destruct (Z.eq_dec q 0); [left; assumption|right]. rewrite M in Dc. destruct Dc as (_ & [Q|Q]); [nia|lia]. }
    assert (Lm : zlen (sub l (cur - x) (cur - x + m)) = m) by (rewrite sub_length; lia).
    assert (Dk : data_from b cur (sub l (cur - x) (cur - x + m)) = sub l (cur - x) (cur - x + m)) by (apply data_from_all; rewrite Lm; exact Dm).
    pose proof (data_from_length b Hb (sub l (cur - x) (cur - x + m)) cur ltac:(lia)) as Cm. rewrite Dk, Lm in Cm.
    pose proof (data_from_length b Hb (sub l 0 (cur - x)) x X1) as Cp. rewrite sub_length in Cp by lia. replace (x + (cur - x - 0)) with cur in Cp by lia.
    assert (Cs : cnt b (cur + m) <= cnt b stop) by (apply cnt_mono; lia).
    replace (Z.to_nat (cnt b stop - cnt b cur)) with (length (sub l (cur - x) (cur - x + m)) + Z.to_nat (cnt b stop - cnt b (cur + m)))%nat by (unfold zlen in Lm; lia).
    pose proof (set_slice_ok (data_from b x (sub l 0 (cur - x))) (Z.to_nat (cnt b stop - cnt b (cur + m))) (sub l (cur - x) (cur - x + m))) as SS.
    rewrite Cp, Lm in SS. rewrite SS.
    assert (Ej : data_from b x (sub l 0 (cur - x)) ++ sub l (cur - x) (cur - x + m) = data_from b x (sub l 0 (cur + m - x))).
    { rewrite <- Dk. replace cur with (x + zlen (sub l 0 (cur - x))) at 2 by (rewrite sub_length; lia). rewrite <- data_from_app. rewrite sub_app by lia.
      f_equal. f_equal. lia. }
    rewrite Ej.
    destruct (Z_lt_ge_dec ((q + 1) * 2 ^ b) stop) as [S|S].
    + assert (Em : cur + m = (q + 1) * 2 ^ b) by lia.
      assert (S4 : (q + 1) * 2 ^ b + 4 <= stop).
      { destruct (Z_le_gt_dec ((q + 1) * 2 ^ b + 4) stop); [assumption|]. rewrite (marker_segment b (q + 1) stop) in Ds by lia. discriminate. }
      assert (D4 : is_data b (cur + m + 4) = true) by (apply (data_segment b (q + 1)); lia).
      assert (C4 : cnt b (cur + m + 4) = cnt b (cur + m)).
      { replace (cur + m + 4) with (cur + m + 1 + 1 + 1 + 1) by lia. rewrite !cnt_succ by lia. rewrite !(marker_segment b (q + 1)) by lia. lia. }
      specialize (IH (cur + m + 4) D4 ltac:(lia) ltac:(lia)). rewrite C4 in IH.
      replace (cnt b cur - cnt b x + m) with (cnt b (cur + m) - cnt b x) by lia.
      replace (cur - x + (4 + m)) with (cur + m + 4 - x) by lia. replace (cur + (m + 4)) with (cur + m + 4) by lia.
      replace (data_from b x (sub l 0 (cur + m - x))) with (data_from b x (sub l 0 (cur + m + 4 - x))); [exact IH|].
      replace (sub l 0 (cur + m + 4 - x)) with (sub l 0 (cur + m - x) ++ sub l (cur + m - x) (cur + m + 4 - x)) by (apply sub_app; lia). rewrite data_from_app, (data_from_none b (sub l (cur + m - x) (cur + m + 4 - x))); [apply app_nil_r|].
      rewrite !sub_length by lia. intros y Hy. apply (marker_segment b (q + 1)); lia.
    + assert (Em : cur + m = stop) by lia.
      replace (cur + m - x) with (stop - x) by lia. rewrite <- Ll, sub_full. replace (cnt b stop - cnt b (cur + m)) with 0 by (rewrite Em; lia).
      simpl repeat. rewrite app_nil_r. replace (cnt b cur - cnt b x + m) with (cnt b stop - cnt b x) by (rewrite <- Em; lia).
      destruct fuel; cbn [br_loop]; replace (cur + (m + 4) <? stop) with false by (symmetry; apply Z.ltb_ge; lia); reflexivity.
Qed.

(** ** one read *)
Definition rinv (r : breader) (o : Z) : Prop :=
  br_file r = f /\ br_b r = b /\ br_offset r = o /\ 0 <= o /\
  (exact_at b o /\ br_pos r = read_position b o \/ o = zlen p /\ br_pos r = zlen f /\ is_data b (zlen f) = true).
Lemma io_read_sub x n : 1 <= x <= zlen f -> (n = -1 \/ 0 <= n) ->
  io_read f x n = (sub f x (if n =? -1 then zlen f else Z.min (x + n) (zlen f)), if n =? -1 then zlen f else Z.min (x + n) (zlen f)).
Proof.
  intros Hx Hn. unfold io_read. unfold zlen in *.
  assert (A : forall l y, sub f x y = l -> x <= y <= Z.of_nat (length f) -> (l, x + Z.of_nat (length l)) = (sub f x y, y)).
  { intros l y <- Hy. f_equal. assert (L : zlen (sub f x y) = y - x) by (apply sub_length; unfold zlen; lia). unfold zlen in L. lia. }
  destruct Hn as [->|Hn].
  - cbn. apply A; [|lia]. unfold sub. apply firstn_all2. rewrite skipn_length. lia.
  - replace (n <? 0) with false by (symmetry; apply Z.ltb_ge; lia). destruct (Z.eqb_spec n (-1)); [lia|]. apply A; [|lia].
    unfold sub. destruct (Z_le_gt_dec (x + n) (Z.of_nat (length f))).
    + rewrite Z.min_l by lia. f_equal. lia.
    + rewrite Z.min_r by lia. rewrite !firstn_all2; [reflexivity| |]; rewrite skipn_length; lia.
Qed.
Lemma io_read_end x n : zlen f <= x -> (n = -1 \/ 0 <= n) -> io_read f x n = ([], x).
Proof.
  intros Hx Hn. unfold io_read. rewrite skipn_all2 by (unfold zlen in Hx; lia). rewrite firstn_nil. destruct (n <? 0); rewrite Z.add_0_r; reflexivity.
Qed.
Lemma end_is_data : 1 < zlen f -> zlen f mod 2 ^ b <> 0 -> is_data b (zlen f) = true.
Proof.
  intros L M. pose proof (pow_big b Hb) as P. destruct F as (_ & _ & [E|E]); [lia|]. destruct (is_data b (zlen f)) eqn:D; [reflexivity|]. exfalso.
  destruct (is_data_false b (zlen f) ltac:(lia) ltac:(lia) D) as (G & R). apply is_data_iff in E. destruct (quot (2 ^ b) (zlen f) ltac:(lia) ltac:(lia)) as (q & Hq & Hr & Dq & Mq).
  rewrite Mq in *. assert (Hq1 : 1 <= q) by nia. destruct (div_between (2 ^ b) q (zlen f - 1)) as [_ Me]; [lia|lia|]. rewrite Me in E. destruct E as (_ & [E|E]); [nia|lia].
Qed.
(** reading from one data position to another *)
Lemma read_between r o n x stop : br_file r = f -> br_b r = b -> br_offset r = o -> read_position b o = x -> br_pos r = x -> is_data b x = true -> cnt b x = o -> x < stop <= zlen f -> is_data b stop = true ->
  io_read f x (if n =? -1 then n else read_position b (o + n) - x) = (sub f x stop, stop) ->
  br_read r n = (mkBR f stop b (cnt b stop), Ok (firstn (Z.to_nat (cnt b stop - o)) (skipn (Z.to_nat o) p))).
Proof.
  intros Ef Eb Eo Ex Ep Dx Cx Hs Ds Er. pose proof (pow_big b Hb) as P. assert (X1 : 1 <= x) by (apply is_data_iff in Dx; lia).
  unfold br_read. rewrite Ef, Eb, Eo, Ep, Ex, Er. rewrite sub_length by lia. replace (x + (stop - x)) with stop by lia.
  destruct (Z.eqb_spec (stop - x) 0); [lia|]. rewrite (data_off_boundary b x Hb Dx), (data_off_boundary b stop Hb Ds), !shr by lia.
  assert (R : stop - x - (stop / 2 ^ b - x / 2 ^ b) * 4 = cnt b stop - cnt b x) by (rewrite (cnt_data b x), (cnt_data b stop) by assumption; lia).
  rewrite R. pose proof (cnt_mono b x stop Hb ltac:(lia)) as Mn. destruct (Z.ltb_spec (cnt b stop - cnt b x) 0); [lia|].
  pose proof (br_loop_ok x stop (sub f x stop) Dx Ds ltac:(rewrite sub_length; lia) (length (sub f x stop)) x Dx ltac:(lia)) as L.
  rewrite !Z.sub_diag in L. assert (Lz : zlen (sub f x stop) = stop - x) by (apply sub_length; lia). unfold zlen in Lz. change (sub (sub f x stop) 0 0) with (@nil N) in L. cbn [data_from app] in L. rewrite L by lia.
  rewrite Z.eqb_refl. rewrite Cx. replace (o + (cnt b stop - o)) with (cnt b stop) by lia. f_equal. f_equal. rewrite data_part by lia. rewrite Cx. reflexivity.
Qed.
Lemma read_step r o n : rinv r o -> safe_op b p f o (BRead n) ->
  exists r1, br_read r n = (r1, Ok (cursor_read p o n)) /\ rinv r1 (o + zlen (cursor_read p o n)).
Proof.
  intros (Ef & Eb & Eo & Ho & St) (Hn & He). pose proof (pow_big b Hb) as P. destruct file_len as (F1 & Fc).
  set (k := if n =? -1 then n else read_position b (o + n) - read_position b o).
  assert (Hk : k = -1 \/ 0 <= k).
  { unfold k. destruct (Z.eqb_spec n (-1)); [left; assumption|right]. pose proof (read_position_mono b o n Hb ltac:(lia)). lia. }
  destruct St as [(Ex & Ep)|(El & Ep & Dl)].
  - destruct (read_position_ok b o Hb Ex) as (Dx & Cx). set (x := read_position b o) in *. assert (X1 : 1 <= x) by (apply is_data_iff in Dx; lia).
    destruct (Z_le_gt_dec (zlen f) x) as [G|G].
    + pose proof (cnt_mono b (zlen f) x Hb ltac:(lia)) as C. assert (Rn : cursor_read p o n = []).
      { unfold cursor_read. rewrite skipn_all2 by (unfold zlen in *; lia). rewrite firstn_nil. destruct (n =? -1); reflexivity. }
      unfold br_read. rewrite Ef, Eb, Eo, Ep. fold x k. rewrite io_read_end by assumption. cbn. rewrite Rn. eexists. split; [reflexivity|].
      unfold rinv. cbn. rewrite Z.add_0_r. repeat split; auto.
    + assert (C : o < zlen p) by (pose proof (cnt_lt b x (zlen f) Hb ltac:(lia) Dx); lia). specialize (He C).
      assert (Go : forall stop, x < stop <= zlen f -> is_data b stop = true -> io_read f x k = (sub f x stop, stop) ->
                    cursor_read p o n = firstn (Z.to_nat (cnt b stop - o)) (skipn (Z.to_nat o) p) -> (exact_at b (cnt b stop) /\ stop = read_position b (cnt b stop) \/ stop = zlen f) ->
                    exists r1, br_read r n = (r1, Ok (cursor_read p o n)) /\ rinv r1 (o + zlen (cursor_read p o n))).
      { intros stop Hs Ds Er Ec Q. rewrite (read_between r o n x stop) by (auto; reflexivity). rewrite Ec. eexists. split; [reflexivity|].
        assert (Cm := cnt_mono b x stop Hb ltac:(lia)). assert (Cl := cnt_mono b stop (zlen f) Hb ltac:(lia)).
        assert (Lc : o + zlen (firstn (Z.to_nat (cnt b stop - o)) (skipn (Z.to_nat o) p)) = cnt b stop) by (unfold zlen in *; rewrite firstn_length, skipn_length; lia).
        rewrite Lc. unfold rinv. cbn. repeat split; auto; try lia. destruct Q as [Q|Q]; [left; exact Q|right]. subst stop. repeat split; auto. }
      assert (Full : (n = -1 \/ zlen p <= o + n) -> cursor_read p o n = firstn (Z.to_nat (cnt b (zlen f) - o)) (skipn (Z.to_nat o) p)).
      { intros Q. rewrite Fc. unfold cursor_read. assert (Lr := skipn_length (Z.to_nat o) p). unfold zlen in *.
        rewrite (firstn_all2 (n := Z.to_nat (Z.of_nat (length p) - o))) by lia. destruct (Z.eqb_spec n (-1)); [reflexivity|]. apply firstn_all2. lia. }
      destruct Hn as [->|(Hn & Hx)].
      * apply (Go (zlen f)); auto; [lia|apply end_is_data; auto; lia|]. change k with (-1). rewrite io_read_sub by lia. reflexivity.
      * destruct (read_position_ok b (o + n) Hb Hx) as (Dy & Cy). set (y := read_position b (o + n)) in *. assert (Ek : k = y - x) by (unfold k; destruct (Z.eqb_spec n (-1)); [lia|reflexivity]).
        assert (Xy : x <= y) by (apply read_position_mono; lia).
        assert (Er : io_read f x k = (sub f x (Z.min y (zlen f)), Z.min y (zlen f))).
        { rewrite io_read_sub by lia. destruct (Z.eqb_spec k (-1)); [lia|]. rewrite Ek. replace (x + (y - x)) with y by lia. reflexivity. }
        destruct (Z.eq_dec n 0) as [->|Nz].
        -- (* nothing asked for *)
           assert (Ey : y = x) by (unfold y, x; rewrite Z.add_0_r; reflexivity). assert (Rn : cursor_read p o 0 = []) by (unfold cursor_read; reflexivity).
           rewrite Z.min_l in Er by lia. rewrite Ey in Er. rewrite sub_nil in Er by lia.
           rewrite Rn. unfold br_read. rewrite Ef, Eb, Eo, Ep. fold x y. change (if 0 =? -1 then 0 else y - x) with k. rewrite Er. cbn. eexists. split; [reflexivity|].
           unfold rinv. cbn. rewrite Z.add_0_r. repeat split; auto.
        -- assert (Xlt : x < y) by (destruct (Z.eq_dec x y) as [Q|]; [rewrite <- Q in Cy; lia|lia]).
           destruct (Z_lt_ge_dec y (zlen f)) as [Ly|Ly].
           ++ rewrite Z.min_l in Er by lia. apply (Go y); auto; [lia| |left; rewrite Cy; auto]. rewrite Cy. unfold cursor_read. destruct (Z.eqb_spec n (-1)); [lia|].
              replace (o + n - o) with n by lia. reflexivity.
           ++ rewrite Z.min_r in Er by lia. assert (Q : zlen p <= o + n) by (pose proof (cnt_mono b (zlen f) y Hb ltac:(lia)); lia).
              apply (Go (zlen f)); auto; [lia|]. apply end_is_data; [lia|]. apply He. right. exact Q.
  - assert (Rn : cursor_read p o n = []).
    { unfold cursor_read. rewrite skipn_all2 by (unfold zlen in *; lia). rewrite firstn_nil. destruct (n =? -1); reflexivity. }
    unfold br_read. rewrite Ef, Eb, Eo, Ep. fold k. rewrite io_read_end by (auto; lia). cbn. rewrite Rn. eexists. split; [reflexivity|].
    unfold rinv. cbn. rewrite Z.add_0_r. repeat split; auto.
Qed.
Lemma tell_data r : br_b r = b -> is_data b (br_pos r) = true -> br_tell r = cnt b (br_pos r).
Proof. intros E D. unfold br_tell. rewrite E, shr, (cnt_data b _ Hb D) by lia. lia. Qed.
Lemma step_ok r o c : rinv r o -> safe_op b p f o c ->
  exists r1, br_step r c = (r1, snd (cursor_step p o c)) /\ rinv r1 (fst (cursor_step p o c)).
Proof.
  intros R Sf. destruct c as [n|q|]; cbn [br_step cursor_step fst snd].
  - destruct (read_step r o n R Sf) as (r1 & E & R1). rewrite E. eauto.
  - cbn in Sf. destruct R as (Ef & Eb & _). assert (Hq : 0 <= q) by apply Sf. destruct (to_absolute_ok b q Hb Hq) as (Da & Ca). destruct (read_position_ok b q Hb Sf) as (Dr & Cr).
    assert (E : to_absolute b q = read_position b q) by (apply (data_position_unique b); auto; lia). unfold br_seek. rewrite Eb, E.
    destruct (Z.ltb_spec (read_position b q) 0); [apply is_data_iff in Dr; lia|]. eexists. split; [reflexivity|]. unfold rinv. cbn. auto 10.
  - exists r. split; [|exact R]. f_equal. f_equal. destruct R as (Ef & Eb & Eo & Ho & [(Ex & Ep)|(El & Ep & Dl)]).
    + destruct (read_position_ok b o Hb Ex) as (Dx & Cx). rewrite tell_data by (rewrite ?Ep; assumption). rewrite Ep, Cx. reflexivity.
    + rewrite tell_data by (rewrite ?Ep; assumption). rewrite Ep. destruct file_len as (_ & ->). rewrite El. reflexivity.
Qed.
Lemma ops_ok : forall cs r o, rinv r o -> safe_ops b p f o cs -> br_ops r cs = cursor_ops p o cs.
Proof.
  induction cs as [|c cs IH]; intros r o R Sf; [reflexivity|]. destruct Sf as (S1 & S2). destruct (step_ok r o c R S1) as (r1 & E & R1).
  cbn [br_ops cursor_ops]. rewrite E. rewrite (IH _ _ R1 S2). destruct (cursor_step p o c). reflexivity.
Qed.
Lemma rinv_open : b <= 30 -> exists r, br_open f = Ok r /\ rinv r 0.
Proof.
  intros Hb2. pose proof (pow_big b Hb) as P. destruct file_cons as (rest & E & _). unfold br_open. rewrite E. rewrite Z2N.id by lia.
  replace ((b <? 12) || (30 <? b)) with false by (symmetry; apply orb_false_iff; rewrite !Z.ltb_ge; lia). eexists. split; [reflexivity|].
  unfold rinv. cbn [br_file br_b br_offset br_pos]. rewrite E. repeat split; try lia. left. assert (D : (0 + 1) / 2 ^ b = 0) by (apply Z.div_small; lia). split.
  - split; [lia|]. rewrite D, Z.mod_small; lia.
  - unfold read_position. rewrite shr by lia. rewrite D. lia.
Qed.
End File.

Theorem reads_back b p f : 12 <= b <= 30 -> boundary_file b p f ->
  exists r, br_open f = Ok r /\ forall cs, safe_ops b p f 0 cs -> br_ops r cs = cursor_ops p 0 cs.
Proof.
  intros Hb F. destruct (rinv_open b p f ltac:(lia) F ltac:(lia)) as (r & E & R). exists r. split; [exact E|]. intros cs. apply (ops_ok b p f ltac:(lia) F). exact R.
Qed.
(** seek: the byte at the position *)
Theorem seek_position b p f r o : 12 <= b <= 30 -> boundary_file b p f -> br_file r = f -> br_b r = b -> 0 <= o ->
  exists r1, br_seek r o = (r1, Ok o) /\ br_tell r1 = o /\ is_data b (br_pos r1) = true /\ data_below b (br_pos r1) = o /\
    (o < zlen p -> nth_error f (Z.to_nat (br_pos r1)) = nth_error p (Z.to_nat o)).
Proof.
  intros Hb F Ef Eb Ho. destruct (to_absolute_ok b o ltac:(lia) Ho) as (D & C). unfold br_seek. rewrite Eb.
  assert (X1 : 1 <= to_absolute b o) by (apply is_data_iff in D; lia). destruct (Z.ltb_spec (to_absolute b o) 0); [lia|].
  eexists. split; [reflexivity|]. split; [rewrite (tell_data b) by (auto; lia); exact C|]. cbn [br_pos]. split; [exact D|]. split; [rewrite data_below_cnt by lia; exact C|].
  intros L. destruct (file_len b p f ltac:(lia) F) as (F1 & Fc).
  assert (Lt : to_absolute b o < zlen f).
  { destruct (Z_lt_ge_dec (to_absolute b o) (zlen f)); [assumption|]. pose proof (cnt_mono b (zlen f) (to_absolute b o) ltac:(lia) ltac:(lia)). lia. }
  rewrite (nth_data b p f) by (auto; lia). rewrite C. reflexivity.
Qed.
(** directly before a marker, tell is four short *)
Theorem tell_before_marker b k r : 12 <= b <= 30 -> 1 <= k -> br_b r = b -> br_pos r = k * 2 ^ b -> br_tell r = data_below b (br_pos r) - 4.
Proof.
  intros Hb Hk Eb Ep. pose proof (pow_big b ltac:(lia)) as P. rewrite data_below_cnt by nia. unfold br_tell, cnt. rewrite Eb, Ep, shr by lia.
  rewrite Z.div_mul, Z.mod_mul by lia. destruct (Z.ltb_spec (k * 2 ^ b) (2 ^ b)); [nia|]. change (Z.min 4 0) with 0. lia.
Qed.
Theorem layout_unique b p f g : 12 <= b <= 30 -> boundary_file b p f -> boundary_file b p g ->
  length f = length g /\ forall x, is_data b (Z.of_nat x) = true -> nth_error f x = nth_error g x.
Proof.
  intros Hb F G. destruct (file_len b p f ltac:(lia) F) as (F1 & Fc). destruct (file_len b p g ltac:(lia) G) as (G1 & Gc).
  assert (L : zlen f = zlen g).
  { apply (ends_unique b (zlen p)); [lia| |].
    - split; [exact F1|]. split; [rewrite data_below_cnt by lia; exact Fc|]. apply F.
    - split; [exact G1|]. split; [rewrite data_below_cnt by lia; exact Gc|]. apply G. }
  unfold zlen in L. apply Nat2Z.inj in L. split; [exact L|]. intros x D. destruct (Nat.lt_ge_cases x (length f)) as [I|I].
  - assert (1 <= Z.of_nat x) by (apply is_data_iff in D; lia).
    pose proof (nth_data b p f ltac:(lia) F (Z.of_nat x) ltac:(unfold zlen; lia) D) as E1. pose proof (nth_data b p g ltac:(lia) G (Z.of_nat x) ltac:(unfold zlen; lia) D) as E2.
    rewrite Nat2Z.id in E1, E2. congruence.
  - rewrite (proj2 (nth_error_None f x)), (proj2 (nth_error_None g x)) by lia. reflexivity.
Qed.
Lemma exponent_refused b : ~ 12 <= b <= 30 -> bw_open b = Err ValueError /\ forall x f, Z.of_N x = b -> br_open (x :: f) = Err IOError.
Proof.
  intros H. unfold bw_open, br_open. split.
  - destruct (Z.leb_spec 12 b), (Z.leb_spec b 30); try reflexivity. lia.
  - intros x f E. cbv zeta. rewrite E. destruct (Z.ltb_spec b 12), (Z.ltb_spec 30 b); try reflexivity. lia.
Qed.
