(** Positions in boundary files, and the writer (C35, C36). *)
From Verif Require Import PyBase PyBaseFacts Model_Msgpack Model_Collection Model_Boundary Spec_Boundary Proof_Msgpack.
From Coq Require Import Lia.
Local Open Scope Z_scope.

Lemma pow_big b : 12 <= b -> 4096 <= 2 ^ b.
Proof. intros H. change 4096 with (2 ^ 12). apply Z.pow_le_mono_r; lia. Qed.
Lemma shr b x : 12 <= b -> Z.shiftr x b = x / 2 ^ b.
Proof. intros. apply Z.shiftr_div_pow2. lia. Qed.
Lemma shl b x : 12 <= b -> Z.shiftl x b = x * 2 ^ b.
Proof. intros. apply Z.shiftl_mul_pow2. lia. Qed.

(** ** data positions *)
Lemma is_data_iff b x : is_data b x = true <-> 1 <= x /\ (x < 2 ^ b \/ 4 <= x mod 2 ^ b).
Proof.
  unfold is_data. rewrite andb_true_iff, orb_true_iff, Z.leb_le, Z.ltb_lt, Z.leb_le. tauto.
Qed.
Lemma is_data_false b x : 0 <= b -> 1 <= x -> is_data b x = false -> 2 ^ b <= x /\ 0 <= x mod 2 ^ b < 4.
Proof.
  intros Hb Hx F. assert (P : 0 < 2 ^ b) by (apply Z.pow_pos_nonneg; lia). pose proof (Z.mod_pos_bound x _ P).
  destruct (is_data b x) eqn:E; [discriminate|]. assert (Q : ~ (1 <= x /\ (x < 2 ^ b \/ 4 <= x mod 2 ^ b))) by (rewrite <- is_data_iff; congruence). lia.
Qed.
(** the quotient of a position between two multiples *)
Lemma div_between B q x : 0 < B -> q * B <= x < (q + 1) * B -> x / B = q /\ x mod B = x - q * B.
Proof.
  intros P H. assert (E : x / B = q). { symmetry. apply Z.div_unique with (r := x - q * B); lia. }
  split; [exact E|]. rewrite Z.mod_eq, E by lia. lia.
Qed.
Lemma quot B x : 0 < B -> 0 <= x -> exists q, 0 <= q /\ q * B <= x < (q + 1) * B /\ x / B = q /\ x mod B = x - q * B.
Proof.
  intros P H. exists (x / B). pose proof (Z.div_mod x B ltac:(lia)). pose proof (Z.mod_pos_bound x B P).
  assert (0 <= x / B) by (apply Z.div_pos; lia). repeat split; lia.
Qed.
(** positions of a segment after its marker *)
Lemma data_segment b q x : 12 <= b -> 0 <= q -> 1 <= x -> (q = 0 \/ q * 2 ^ b + 4 <= x) -> x < (q + 1) * 2 ^ b -> is_data b x = true.
Proof.
  intros Hb Hq Hx Hs He. pose proof (pow_big b Hb) as P. apply is_data_iff. split; [lia|].
  destruct Hs as [->|Hs]; [left; lia|]. right. destruct (div_between (2 ^ b) q x) as [_ ->]; lia.
Qed.
Lemma marker_segment b q x : 12 <= b -> 1 <= q -> q * 2 ^ b <= x < q * 2 ^ b + 4 -> is_data b x = false.
Proof.
  intros Hb Hq Hx. pose proof (pow_big b Hb) as P. destruct (is_data b x) eqn:E; [|reflexivity]. apply is_data_iff in E.
  destruct (div_between (2 ^ b) q x) as [_ M]; [lia|lia|]. rewrite M in E. assert (2 ^ b <= q * 2 ^ b) by nia. lia.
Qed.

(** ** counting *)
Definition cnt (b x : Z) : Z := if x <? 2 ^ b then x - 1 else x - 1 - 4 * (x / 2 ^ b - 1) - Z.min 4 (x mod 2 ^ b).
Lemma cnt_succ b x : 12 <= b -> 1 <= x -> cnt b (x + 1) = cnt b x + (if is_data b x then 1 else 0).
Proof.
  intros Hb Hx. pose proof (pow_big b Hb) as P. destruct (quot (2 ^ b) x ltac:(lia) ltac:(lia)) as (q & Hq & Hr & D & M).
  unfold cnt.
  destruct (Z.ltb_spec x (2 ^ b)) as [L|L].
  - rewrite (data_segment b 0 x) by lia. destruct (Z.ltb_spec (x + 1) (2 ^ b)); [lia|]. assert (E : x + 1 = 1 * 2 ^ b) by lia.
    rewrite E, Z.div_mul, Z.mod_mul by lia. change (Z.min 4 0) with 0. lia.
  - destruct (Z.ltb_spec (x + 1) (2 ^ b)); [lia|]. assert (1 <= q) by nia.
    destruct (Z_lt_ge_dec (x + 1) ((q + 1) * 2 ^ b)) as [S|S].
    + destruct (div_between (2 ^ b) q (x + 1)) as [D1 M1]; [lia|lia|]. rewrite D, M, D1, M1.
      destruct (Z_lt_ge_dec (x - q * 2 ^ b) 4).
      * rewrite (marker_segment b q x) by lia. lia.
      * rewrite (data_segment b q x) by lia. lia.
    + assert (E : x + 1 = (q + 1) * 2 ^ b) by lia. rewrite E, Z.div_mul, Z.mod_mul, D, M by lia. rewrite (data_segment b q x) by lia.
      change (Z.min 4 0) with 0. lia.
Qed.
Lemma cnt_1 b : 12 <= b -> cnt b 1 = 0.
Proof. intros Hb. pose proof (pow_big b Hb). unfold cnt. destruct (Z.ltb_spec 1 (2 ^ b)); lia. Qed.
Lemma zrange_S n : zrange (S n) = zrange n ++ [Z.of_nat n].
Proof. unfold zrange. rewrite seq_S, map_app. reflexivity. Qed.
Lemma data_below_cnt b x : 12 <= b -> 1 <= x -> data_below b x = cnt b x.
Proof.
  intros Hb Hx. assert (G : forall n, data_below b (Z.of_nat (S n)) = cnt b (Z.of_nat (S n))).
  { induction n as [|n IH].
    - rewrite cnt_1 by assumption. unfold data_below. reflexivity.
    - rewrite Nat2Z.inj_succ, <- Z.add_1_r. rewrite cnt_succ by lia. rewrite <- IH. unfold data_below.
      replace (Z.to_nat (Z.of_nat (S n) + 1)) with (S (S n)) by lia. rewrite zrange_S, filter_app, app_length, Nat2Z.inj_add.
      rewrite Nat2Z.id. f_equal. cbn [filter]. destruct (is_data b (Z.of_nat (S n))); reflexivity. }
  specialize (G (Z.to_nat x - 1)%nat). replace (Z.of_nat (S (Z.to_nat x - 1))) with x in G by lia. exact G.
Qed.
(** cnt does not decrease *)
Lemma cnt_add b x n : 12 <= b -> 1 <= x -> cnt b x <= cnt b (x + Z.of_nat n) <= cnt b x + Z.of_nat n.
Proof.
  intros Hb Hx. induction n as [|n IH].
  - rewrite Z.add_0_r. lia.
  - replace (x + Z.of_nat (S n)) with (x + Z.of_nat n + 1) by lia. rewrite cnt_succ by lia. destruct (is_data b (x + Z.of_nat n)); lia.
Qed.
Lemma cnt_mono b x y : 12 <= b -> 1 <= x <= y -> cnt b x <= cnt b y.
Proof.
  intros Hb H. pose proof (cnt_add b x (Z.to_nat (y - x)) Hb ltac:(lia)) as Q. replace (x + Z.of_nat (Z.to_nat (y - x))) with y in Q by lia. lia.
Qed.
Lemma cnt_lt b x y : 12 <= b -> 1 <= x < y -> is_data b x = true -> cnt b x < cnt b y.
Proof.
  intros Hb H D. pose proof (cnt_succ b x Hb ltac:(lia)) as Q. rewrite D in Q. pose proof (cnt_mono b (x + 1) y Hb ltac:(lia)). lia.
Qed.
(** at data positions *)
Lemma cnt_data b x : 12 <= b -> is_data b x = true -> cnt b x = x - 1 - 4 * (x / 2 ^ b).
Proof.
  intros Hb D. pose proof (pow_big b Hb) as P. apply is_data_iff in D. unfold cnt. destruct (Z.ltb_spec x (2 ^ b)).
  - rewrite Z.div_small by lia. lia.
  - rewrite Z.min_l by lia. lia.
Qed.
Lemma ends_unique b n x y : 12 <= b -> ends_at b n x -> ends_at b n y -> x = y.
Proof.
  intros Hb (H1 & C1 & E1) (H2 & C2 & E2). rewrite data_below_cnt in C1, C2 by lia.
  assert (G : forall x y, 1 <= x -> 1 <= y -> cnt b x = cnt b y -> y = 1 \/ is_data b (y - 1) = true -> ~ x < y).
  { intros u v Hu Hv C E L. destruct E as [->|E]; [lia|]. destruct (Z.eq_dec v 1); [lia|].
    pose proof (cnt_succ b (v - 1) Hb ltac:(lia)) as Q. replace (v - 1 + 1) with v in Q by lia. rewrite E in Q.
    pose proof (cnt_mono b u (v - 1) Hb ltac:(lia)). lia. }
  pose proof (G x y H1 H2 ltac:(lia) E2). pose proof (G y x H2 H1 ltac:(lia) E1). lia.
Qed.

(** ** data of bytes *)
Lemma data_from_app b : forall l x m, data_from b x (l ++ m) = data_from b x l ++ data_from b (x + zlen l) m.
Proof.
  induction l as [|c l IH]; intros x m.
  - unfold zlen. simpl. rewrite Z.add_0_r. reflexivity.
  - cbn [data_from app]. rewrite IH. replace (x + 1 + zlen l) with (x + zlen (c :: l)) by (unfold zlen; cbn [length]; lia).
    destruct (is_data b x); reflexivity.
Qed.
Lemma data_from_all b : forall l x, (forall y, x <= y < x + zlen l -> is_data b y = true) -> data_from b x l = l.
Proof.
  induction l as [|c l IH]; intros x H; [reflexivity|]. unfold zlen in H. cbn [length] in H. cbn [data_from].
  rewrite H by lia. rewrite IH; [reflexivity|]. intros y Hy. apply H. unfold zlen in Hy. lia.
Qed.
Lemma data_from_none b : forall l x, (forall y, x <= y < x + zlen l -> is_data b y = false) -> data_from b x l = [].
Proof.
  induction l as [|c l IH]; intros x H; [reflexivity|]. unfold zlen in H. cbn [length] in H. cbn [data_from].
  rewrite H by lia. apply IH. intros y Hy. apply H. unfold zlen in Hy. lia.
Qed.
Lemma data_from_length b : 12 <= b -> forall l x, 1 <= x -> zlen (data_from b x l) = cnt b (x + zlen l) - cnt b x.
Proof.
  intros Hb. induction l as [|c l IH]; intros x Hx.
  - unfold zlen. simpl. rewrite Z.add_0_r. lia.
  - replace (x + zlen (c :: l)) with (x + 1 + zlen l) by (unfold zlen; cbn [length]; lia). cbn [data_from].
    pose proof (cnt_succ b x Hb Hx) as Q. specialize (IH (x + 1) ltac:(lia)).
    destruct (is_data b x); [unfold zlen in *; cbn [length] in *|]; lia.
Qed.
Lemma zlen_app {A} (l m : list A) : zlen (l ++ m) = zlen l + zlen m.
Proof. unfold zlen. rewrite app_length. lia. Qed.

(** ** the marker *)
Lemma signed_pack d l : pack_i32 d = Ok l -> signed32 l = Some d /\ zlen l = 4.
Proof.
  unfold pack_i32. destruct ((-2147483648 <=? d) && (d <=? 2147483647)) eqn:E; [|discriminate]. intros H. apply Ok_inj in H. subst l.
  rewrite andb_true_iff, Z.leb_le, Z.leb_le in E.
  pose proof (unbe_be 4 (d mod 4294967296)) as U. change (256 ^ Z.of_nat 4) with 4294967296 in U.
  pose proof (Z.mod_pos_bound d 4294967296 ltac:(lia)) as M. specialize (U M).
  assert (V : d mod 4294967296 = if d <? 0 then d + 4294967296 else d).
  { destruct (Z.ltb_spec d 0); [symmetry; apply Z.mod_unique with (q := -1); lia|apply Z.mod_small; lia]. }
  remember (d mod 4294967296) as v eqn:Ev. clear Ev. cbn [be app] in U |- *. unfold unbe in U. cbn [fold_left] in U. split; [|reflexivity]. cbn [signed32].
  rewrite Z.mul_0_l, Z.add_0_l in U. rewrite U. rewrite V. f_equal. destruct (Z.ltb_spec d 0); destruct (Z.ltb_spec (if true then 0 else 0) 0); try lia.
  all: match goal with |- (if ?c then _ else _) = _ => destruct c eqn:F end; (apply Z.ltb_lt in F || apply Z.ltb_ge in F); lia.
Qed.
Lemma pack_i32_ok d : -2147483648 <= d <= 2147483647 -> exists l, pack_i32 d = Ok l.
Proof.
  intros H. unfold pack_i32. replace ((-2147483648 <=? d) && (d <=? 2147483647)) with true; [eauto|]. symmetry. apply andb_true_iff. rewrite !Z.leb_le. lia.
Qed.

(** ** the writer *)
Definition clamp (d : Z) : Z := Z.max (-2147483648) d.
Definition marker_ok (b : Z) (xs : list Z) (out : list N) (k : Z) : Prop :=
  exists x, In x xs /\ x <= k * 2 ^ b /\ (forall x', In x' xs -> x' <= k * 2 ^ b -> x' <= x) /\
            signed32 (sub out (k * 2 ^ b) (k * 2 ^ b + 4)) = Some (clamp (x - k * 2 ^ b)).
Record winv (b : Z) (w : bwriter) (p : list N) (xs : list Z) : Prop := {
  wi_b : bw_b w = b;
  wi_first : nth_error (bw_out w) 0 = Some (Z.to_N b);
  wi_len : zlen (bw_out w) = bw_written w;
  wi_data : data_from b 0 (bw_out w) = p;
  wi_pos : 1 <= bw_written w;
  wi_seg : 0 <= bw_seg w;
  wi_low : bw_seg w = 0 \/ bw_seg w * 2 ^ b + 4 <= bw_written w;
  wi_high : bw_written w <= (bw_seg w + 1) * 2 ^ b;
  wi_in : In (bw_last w) xs;
  wi_max : forall x, In x xs -> x <= bw_last w;
  wi_le : bw_last w <= bw_written w;
  wi_marks : forall k, 1 <= k -> k * 2 ^ b < bw_written w -> marker_ok b xs (bw_out w) k }.
Definition tight (b : Z) (w : bwriter) : Prop := bw_written w = 1 \/ is_data b (bw_written w - 1) = true.

Lemma zlen_nn {A} (l : list A) : 0 <= zlen l.
Proof. unfold zlen. lia. Qed.
Lemma sub_app_left {A} (l m : list A) a c : 0 <= a -> c <= zlen l -> sub (l ++ m) a c = sub l a c.
Proof.
  intros Ha Hc. unfold sub. rewrite skipn_app, firstn_app. unfold zlen in Hc.
  destruct (Z_le_gt_dec c a); [replace (Z.to_nat (c - a)) with 0%nat by lia; simpl; reflexivity|].
  replace (Z.to_nat (c - a) - length (skipn (Z.to_nat a) l))%nat with 0%nat by (rewrite skipn_length; lia). rewrite app_nil_r. reflexivity.
Qed.
Lemma sub_app_right {A} (l m : list A) : sub (l ++ m) (zlen l) (zlen l + zlen m) = m.
Proof.
  unfold sub. rewrite skipn_app. unfold zlen. replace (Z.to_nat (Z.of_nat (length l))) with (length l) by lia. rewrite skipn_all, Nat.sub_diag. simpl.
  apply firstn_all2. lia.
Qed.
(** a marker is complete once there is data after it *)
Lemma marker_inside b w p xs k : 12 <= b -> winv b w p xs -> 1 <= k -> k * 2 ^ b < bw_written w -> k <= bw_seg w /\ k * 2 ^ b + 4 <= bw_written w.
Proof.
  intros Hb W Hk L. pose proof (pow_big b Hb) as P. destruct W. assert (k <= bw_seg w) by nia. split; [assumption|].
  destruct wi_low0 as [E|E]; [lia|]. nia.
Qed.
(** appending data within the segment *)
Lemma winv_data b w p xs d : 12 <= b -> winv b w p xs -> bw_written w + zlen d <= (bw_seg w + 1) * 2 ^ b ->
  winv b (mkBW (bw_out w ++ d) (bw_b w) (bw_written w + zlen d) (bw_last w) (bw_seg w)) (p ++ d) xs.
Proof.
  intros Hb W L. pose proof (marker_inside b w p xs) as MI. assert (W' := W). pose proof (zlen_nn d) as Nd. destruct W.
  constructor; cbn [bw_out bw_b bw_written bw_last bw_seg]; auto; try lia.
  - rewrite nth_error_app1; [assumption|]. apply nth_error_Some. congruence.
  - rewrite zlen_app. lia.
  - rewrite data_from_app, wi_data0. f_equal. rewrite wi_len0. apply data_from_all. intros y Hy. apply (data_segment b (bw_seg w)); lia.
  - intros k Hk Lk. destruct (Z_lt_ge_dec (k * 2 ^ b) (bw_written w)) as [Q|Q].
    + destruct (wi_marks0 k Hk Q) as (x & I & Lx & Mx & Sx). destruct (MI k Hb W' Hk Q). exists x. repeat split; auto.
      rewrite sub_app_left by lia. exact Sx.
    + exfalso. pose proof (pow_big b Hb). assert (k < bw_seg w + 1) by nia. destruct wi_low0; nia.
Qed.
(** appending a marker at the end of the segment *)
Lemma winv_marker b w p xs : 12 <= b -> winv b w p xs -> bw_written w = (bw_seg w + 1) * 2 ^ b ->
  exists w1, bw_marker w = (w1, Ok tt) /\ winv b w1 p xs /\ bw_written w1 = bw_seg w1 * 2 ^ b + 4 /\ bw_seg w1 = bw_seg w + 1.
Proof.
  intros Hb W L. pose proof (marker_inside b w p xs) as MI. assert (W' := W). pose proof (pow_big b Hb) as P. destruct W.
  unfold bw_marker. replace (Z.shiftl (Z.shiftr (bw_written w) (bw_b w)) (bw_b w) =? bw_written w) with true
    by (symmetry; rewrite wi_b0, shl, shr, L, Z.div_mul by lia; apply Z.eqb_refl).
  rewrite wi_b0.
  set (d := bw_last w - bw_written w).
  assert (Hd : (if d <=? -2147483648 then -2147483648 else d) = clamp d). { unfold clamp. destruct (Z.leb_spec d (-2147483648)); lia. }
  rewrite Hd. destruct (pack_i32_ok (clamp d)) as (m & Em); [unfold clamp, d; lia|]. rewrite Em. destruct (signed_pack _ _ Em) as (Sm & Lm).
  eexists. split; [reflexivity|]. cbn [bw_out bw_b bw_written bw_last bw_seg]. split; [|split; [rewrite L; reflexivity|reflexivity]].
  constructor; cbn [bw_out bw_b bw_written bw_last bw_seg]; auto; try lia.
  - rewrite nth_error_app1; [assumption|]. apply nth_error_Some. congruence.
  - rewrite zlen_app. lia.
  - rewrite data_from_app, wi_data0, data_from_none, app_nil_r; [reflexivity|]. intros y Hy. apply (marker_segment b (bw_seg w + 1)); lia.
  - intros k Hk Lk. destruct (Z_lt_ge_dec (k * 2 ^ b) (bw_written w)) as [Q|Q].
    + destruct (wi_marks0 k Hk Q) as (x & I & Lx & Mx & Sx). destruct (MI k Hb W' Hk Q). exists x. repeat split; auto.
      rewrite sub_app_left by lia. exact Sx.
    + assert (E : k = bw_seg w + 1) by nia. subst k. unfold marker_ok. rewrite <- L. exists (bw_last w).
      split; [assumption|]. split; [lia|]. split; [intros x' I' _; auto|].
      replace (sub (bw_out w ++ m) (bw_written w) (bw_written w + 4)) with m; [exact Sm|]. rewrite <- wi_len0, <- Lm. symmetry. apply sub_app_right.
Qed.
Lemma winv_split b w p xs : 12 <= b -> winv b w p xs -> winv b (bw_split w) p (xs ++ [bw_written w]).
Proof.
  intros Hb W. destruct W. constructor; cbn [bw_split bw_out bw_b bw_written bw_last bw_seg]; auto; try lia.
  - apply in_or_app. right. left. reflexivity.
  - intros x I. apply in_app_or in I. destruct I as [I|[<-|[]]]; [specialize (wi_max0 x I)|]; lia.
  - intros k Hk Lk. destruct (wi_marks0 k Hk Lk) as (x & I & Lx & Mx & Sx). exists x. split; [apply in_or_app; left; exact I|]. split; [exact Lx|]. split; [|exact Sx].
    intros x' I' L'. apply in_app_or in I'. destruct I' as [I'|[<-|[]]]; [auto|lia].
Qed.
Lemma py_slice_in {A} (l : list A) a c : 0 <= a <= c -> c <= zlen l -> py_slice l (Some a) (Some c) = sub l a c.
Proof.
  intros H1 H2. unfold py_slice, slice_start, slice_stop, slice_norm.
  replace (a <? 0) with false by (symmetry; apply Z.ltb_ge; lia). replace (c <? 0) with false by (symmetry; apply Z.ltb_ge; lia).
  rewrite !Z.min_l by lia. reflexivity.
Qed.
Lemma max_value b w p xs left : 12 <= b -> winv b w p xs -> bw_max w left = Z.min ((bw_seg w + 1) * 2 ^ b - bw_written w) left.
Proof. intros Hb W. unfold bw_max. rewrite (wi_b _ _ _ _ W), shl by lia. reflexivity. Qed.
Lemma bw_loop_ok b xs data : 12 <= b -> forall fuel w p pos left, winv b w p xs -> 0 <= pos -> 0 < left -> pos + left = zlen data ->
  left + (if bw_max w left =? 0 then 1 else 0) <= Z.of_nat fuel ->
  exists w1, bw_loop fuel w data pos left (bw_max w left) = (w1, Ok tt) /\ winv b w1 (p ++ sub data pos (zlen data)) xs /\ tight b w1.
Proof.
  intros Hb. pose proof (pow_big b Hb) as P. induction fuel as [|fuel IH]; intros w p pos left W Hp Hl E F.
  { destruct (bw_max w left =? 0); lia. }
  cbn [bw_loop]. replace (0 <? left) with true by (symmetry; apply Z.ltb_lt; lia). rewrite (max_value b w p xs) in * by assumption.
  assert (Hi := wi_high _ _ _ _ W). set (m := Z.min ((bw_seg w + 1) * 2 ^ b - bw_written w) left) in *. assert (Hm : 0 <= m <= left) by lia.
  rewrite py_slice_in by lia.
  assert (Ls : zlen (sub data pos (pos + m)) = m) by (rewrite sub_length; lia).
  pose proof (winv_data b w p xs (sub data pos (pos + m)) Hb W ltac:(lia)) as W1. rewrite Ls in W1.
  set (w1 := mkBW (bw_out w ++ sub data pos (pos + m)) (bw_b w) (bw_written w + m) (bw_last w) (bw_seg w)) in *.
  destruct (Z.ltb_spec 0 (left - m)) as [Q|Q].
  - assert (Em : m = (bw_seg w + 1) * 2 ^ b - bw_written w) by lia.
    destruct (winv_marker b w1 _ xs Hb W1) as (w2 & E2 & W2 & P2 & S2); [cbn [w1 bw_written bw_seg]; lia|]. rewrite E2.
    assert (M2 : bw_max w2 (left - m) = Z.min (2 ^ b - 4) (left - m)). { rewrite (max_value b w2 _ xs (left - m) Hb W2). rewrite P2. f_equal. lia. }
    destruct (IH w2 _ (pos + m) (left - m) W2) as (w3 & E3 & W3 & T3); [lia|lia|lia| |].
    { rewrite M2. destruct (Z.eqb_spec (Z.min (2 ^ b - 4) (left - m)) 0); [lia|]. destruct (Z.eqb_spec m 0); lia. }
    rewrite E3. exists w3. split; [reflexivity|]. split; [|exact T3]. rewrite <- app_assoc in W3. rewrite sub_app in W3 by lia. exact W3.
  - exists w1. split; [reflexivity|]. assert (Em : m = left) by lia. rewrite <- E, <- Em. split; [exact W1|]. right.
    cbn [w1 bw_written]. apply (data_segment b (bw_seg w)); destruct W; lia.
Qed.
Lemma bw_write_ok b w p xs d : 12 <= b -> winv b w p xs -> tight b w ->
  exists w1, bw_write w d = (w1, Ok tt) /\ winv b w1 (p ++ d) xs /\ tight b w1.
Proof.
  intros Hb W T. unfold bw_write. destruct d as [|c d].
  - cbn. exists w. rewrite app_nil_r. auto.
  - destruct (bw_loop_ok b xs (c :: d) Hb (S (length (c :: d))) w p 0 (zlen (c :: d)) W) as (w1 & E1 & W1 & T1); try lia.
    + unfold zlen. cbn [length]. lia.
    + destruct (bw_max w (zlen (c :: d)) =? 0); unfold zlen; lia.
    + exists w1. rewrite sub_full in W1. auto.
Qed.
Lemma winv_count b w p xs : 12 <= b -> winv b w p xs -> zlen p = cnt b (bw_written w).
Proof.
  intros Hb W. destruct W. destruct (bw_out w) as [|x out]; [discriminate|]. rewrite <- wi_data0. cbn [data_from].
  replace (is_data b 0) with false by reflexivity. rewrite data_from_length by lia. rewrite cnt_1 by assumption. rewrite <- wi_len0.
  unfold zlen. cbn [length]. replace (0 + 1 + Z.of_nat (length out)) with (Z.of_nat (S (length out))) by lia. rewrite Z.sub_0_r. reflexivity.
Qed.
Lemma bw_run_ok b : 12 <= b -> forall es w p xs, winv b w p xs -> tight b w ->
  exists w1 ys, bw_run w es = (w1, Ok tt) /\ winv b w1 (p ++ out_bytes es) (xs ++ ys) /\ tight b w1 /\ Forall2 (ends_at b) (split_counts (zlen p) es) ys.
Proof.
  intros Hb. induction es as [|e es IH]; intros w p xs W T.
  - exists w, []. cbn. rewrite !app_nil_r. auto.
  - destruct e as [d|]; cbn [bw_run split_counts].
    + destruct (bw_write_ok b w p xs d Hb W T) as (w1 & E1 & W1 & T1). rewrite E1. destruct (IH w1 _ xs W1 T1) as (w2 & ys & E2 & W2 & T2 & F2).
      exists w2, ys. rewrite zlen_app in F2. unfold out_bytes in *. cbn [map List.concat]. rewrite app_assoc. auto.
    + destruct (IH (bw_split w) p (xs ++ [bw_written w]) (winv_split b w p xs Hb W) T) as (w2 & ys & E2 & W2 & T2 & F2).
      exists w2, (bw_written w :: ys). split; [exact E2|]. split; [rewrite <- app_assoc in W2; exact W2|]. split; [exact T2|]. constructor; [|exact F2].
      pose proof (wi_pos _ _ _ _ W). split; [lia|]. split; [|exact T]. rewrite data_below_cnt by lia. symmetry. apply (winv_count b w p xs Hb W).
Qed.
Lemma winv_open b : 12 <= b <= 30 -> exists w, bw_open b = Ok w /\ winv b w [] [1] /\ tight b w.
Proof.
  intros Hb. pose proof (pow_big b ltac:(lia)) as P. unfold bw_open. replace ((12 <=? b) && (b <=? 30)) with true by (symmetry; apply andb_true_iff; rewrite !Z.leb_le; lia).
  eexists. split; [reflexivity|]. split; [|left; reflexivity].
  constructor; cbn [bw_out bw_b bw_written bw_last bw_seg]; auto; try lia; try (left; reflexivity); try solve [intros x [<-|[]]; lia].
Qed.
Lemma forall2_in_left {A B} (R : A -> B -> Prop) l m : Forall2 R l m -> forall x, In x l -> exists y, In y m /\ R x y.
Proof. induction 1; intros z I; [destruct I|]. destruct I as [<-|I]; [eexists; split; [left; reflexivity|assumption]|]. destruct (IHForall2 z I) as (y' & I' & R'). exists y'. split; [right|]; auto. Qed.
Lemma forall2_in_right {A B} (R : A -> B -> Prop) l m : Forall2 R l m -> forall y, In y m -> exists x, In x l /\ R x y.
Proof. induction 1; intros z I; [destruct I|]. destruct I as [<-|I]; [eexists; split; [left; reflexivity|assumption]|]. destruct (IHForall2 z I) as (y' & I' & R'). exists y'. split; [right|]; auto. Qed.

Theorem writes_file b es : 12 <= b <= 30 -> exists w w1, bw_open b = Ok w /\ bw_run w es = (w1, Ok tt) /\
  boundary_file b (out_bytes es) (bw_out w1) /\
  forall k, 1 <= k -> k * 2 ^ b < zlen (bw_out w1) ->
    exists x, latest_split b es (k * 2 ^ b) x /\ signed32 (sub (bw_out w1) (k * 2 ^ b) (k * 2 ^ b + 4)) = Some (Z.max (-2147483648) (x - k * 2 ^ b)).
Proof.
  intros Hb. destruct (winv_open b Hb) as (w & E & W & T). destruct (bw_run_ok b ltac:(lia) es w [] [1] W T) as (w1 & ys & E1 & W1 & T1 & F1).
  exists w, w1. split; [exact E|]. split; [exact E1|]. pose proof (wi_len _ _ _ _ W1) as Len. split.
  - split; [exact (wi_first _ _ _ _ W1)|]. split; [exact (wi_data _ _ _ _ W1)|]. rewrite Len. exact T1.
  - intros k Hk L. rewrite Len in L. destruct (wi_marks _ _ _ _ W1 k Hk L) as (x & I & Lx & Mx & Sx). exists x. split; [|exact Sx].
    assert (F : Forall2 (ends_at b) (0 :: split_counts 0 es) ([1] ++ ys)).
    { constructor; [|exact F1]. split; [lia|]. split; [rewrite data_below_cnt by lia; apply cnt_1; lia|left; reflexivity]. }
    split; [|split; [exact Lx|]].
    + destruct (forall2_in_right _ _ _ F x I) as (n & In' & En). eauto.
    + intros n' x' I' E' L'. destruct (forall2_in_left _ _ _ F n' I') as (y & Iy & Ey). assert (x' = y) by (apply (ends_unique b n'); auto; lia). subst y. auto.
Qed.
