(** Ints, longs and doubles in the Java port. *)
From Verif Require Import PyBase PyBaseFacts Model_Text Model_JUnits Model_JCodec Model_JValue Spec_JValue.
Local Open Scope Z_scope.

(** ** (int) of a long *)
Theorem to_int_ok i : - 2 ^ 31 <= to_int i < 2 ^ 31 /\ (exists k, to_int i = i + k * 2 ^ 32) /\ (- 2 ^ 31 <= i < 2 ^ 31 -> to_int i = i).
Proof.
  unfold to_int. pose proof (Z.div_mod (i + 2 ^ 31) (2 ^ 32) ltac:(lia)) as E. pose proof (Z.mod_pos_bound (i + 2 ^ 31) (2 ^ 32) ltac:(lia)) as M.
  split; [lia|]. split; [exists (- ((i + 2 ^ 31) / 2 ^ 32)); lia|]. intros R. rewrite Z.mod_small; lia.
Qed.

(** ** the parts of a double *)
Lemma parts s e f : (s = 0 \/ s = 1) -> 0 <= e < 2048 -> 0 <= f < 2 ^ 52 -> let b := Z.to_N (s * 2 ^ 63 + e * 2 ^ 52 + f) in
  Z.of_N b = s * 2 ^ 63 + e * 2 ^ 52 + f /\ is_double b /\ d_exp b = e /\ d_frac b = f /\ d_neg b = (s =? 1).
Proof.
  intros S E F b. assert (V : Z.of_N b = s * 2 ^ 63 + e * 2 ^ 52 + f) by (unfold b; lia). split; [exact V|]. unfold is_double, d_exp, d_frac, d_neg. rewrite V.
  split; [change (2 ^ 64)%N with (Z.to_N (2 ^ 64)); unfold b; apply Z2N.inj_lt; lia|].
  assert (Q : (s * 2 ^ 63 + e * 2 ^ 52 + f) / 2 ^ 52 = s * 2 ^ 11 + e) by (symmetry; apply (Z.div_unique _ _ _ f); lia).
  rewrite Q. split; [symmetry; apply (Z.mod_unique _ _ s); lia|]. split; [symmetry; apply (Z.mod_unique _ _ (s * 2 ^ 11 + e)); lia|].
  destruct S as [-> | ->]; cbn [Z.eqb Pos.eqb]; [apply Z.leb_gt|apply Z.leb_le]; lia.
Qed.
Lemma double_parts b : is_double b -> exists s, (s = 0 \/ s = 1) /\ Z.of_N b = s * 2 ^ 63 + d_exp b * 2 ^ 52 + d_frac b /\ d_neg b = (s =? 1) /\ 0 <= d_exp b < 2048 /\ 0 <= d_frac b < 2 ^ 52.
Proof.
  intros D. unfold is_double in D. assert (B : 0 <= Z.of_N b < 2 ^ 64) by lia. unfold d_exp, d_frac, d_neg. remember (Z.of_N b) as v. clear - B.
  exists (v / 2 ^ 63). pose proof (Z.div_mod v (2 ^ 63) ltac:(lia)). pose proof (Z.mod_pos_bound v (2 ^ 63) ltac:(lia)). pose proof (Z.div_mod v (2 ^ 52) ltac:(lia)). pose proof (Z.mod_pos_bound v (2 ^ 52) ltac:(lia)).
  pose proof (Z.div_mod (v / 2 ^ 52) 2048 ltac:(lia)). pose proof (Z.mod_pos_bound (v / 2 ^ 52) 2048 ltac:(lia)).
  assert (Q : v / 2 ^ 52 / 2048 = v / 2 ^ 63) by (rewrite Z.div_div by lia; reflexivity). rewrite Q in *.
  assert (S : v / 2 ^ 63 = 0 \/ v / 2 ^ 63 = 1) by lia. split; [exact S|]. split; [lia|]. split; [|lia].
  destruct S as [S|S]; rewrite S in *; cbn [Z.eqb Pos.eqb]; [apply Z.leb_gt|apply Z.leb_le]; lia.
Qed.
Lemma size_nonneg b : is_double b -> 0 <= d_size b.
Proof. intros D. destruct (double_parts b D) as (s & _ & _ & _ & E & F). unfold d_size. destruct (Z.eqb_spec (d_exp b) 0); [lia|]. apply Z.mul_nonneg_nonneg; [lia|]. apply Z.pow_nonneg. lia. Qed.
Lemma abs_units b : is_double b -> Z.abs (in_units b) = d_size b.
Proof. intros D. pose proof (size_nonneg b D). unfold in_units. destruct (d_neg b); lia. Qed.

(** ** doubles to whole numbers *)
Lemma of_double_finite m b : d_exp b <> 2047 -> of_double m b =
  let t := if d_exp b =? 0 then 0 else if 1075 <=? d_exp b then (2 ^ 52 + d_frac b) * 2 ^ (d_exp b - 1075) else (2 ^ 52 + d_frac b) / 2 ^ (1075 - d_exp b) in
  Z.max (- m) (Z.min (m - 1) (if d_neg b then - t else t)).
Proof. intros E. unfold of_double. fold (d_exp b) (d_frac b) (d_neg b). destruct (Z.eqb_spec (d_exp b) 2047); [contradiction|]. reflexivity. Qed.
Lemma whole_part b : finite b -> let t := if d_exp b =? 0 then 0 else if 1075 <=? d_exp b then (2 ^ 52 + d_frac b) * 2 ^ (d_exp b - 1075) else (2 ^ 52 + d_frac b) / 2 ^ (1075 - d_exp b) in
  0 <= t /\ t * unit1 <= d_size b < (t + 1) * unit1.
Proof.
  intros [D _]. destruct (double_parts b D) as (s & _ & _ & _ & E & F). unfold d_size, unit1. destruct (Z.eqb_spec (d_exp b) 0) as [X|X].
  - cbn zeta. split; [lia|]. rewrite Z.mul_0_l, Z.add_0_l, Z.mul_1_l. assert (2 ^ 52 < 2 ^ 1074) by (apply Z.pow_lt_mono_r; lia). lia.
  - destruct (Z.leb_spec 1075 (d_exp b)) as [Y|Y]; cbn zeta.
    + assert (P : 2 ^ (d_exp b - 1) = 2 ^ (d_exp b - 1075) * 2 ^ 1074) by (rewrite <- Z.pow_add_r by lia; f_equal; lia). rewrite P, Z.mul_assoc.
      assert (0 < 2 ^ (d_exp b - 1075)) by (apply Z.pow_pos_nonneg; lia). assert (0 < 2 ^ 1074) by (apply Z.pow_pos_nonneg; lia).
      split; [apply Z.mul_nonneg_nonneg; lia|]. split; [reflexivity|]. apply Z.mul_lt_mono_pos_r; lia.
    + assert (P : 2 ^ 1074 = 2 ^ (1075 - d_exp b) * 2 ^ (d_exp b - 1)) by (rewrite <- Z.pow_add_r by lia; f_equal; lia). rewrite P.
      assert (A : 0 < 2 ^ (1075 - d_exp b)) by (apply Z.pow_pos_nonneg; lia). assert (B : 0 < 2 ^ (d_exp b - 1)) by (apply Z.pow_pos_nonneg; lia).
      pose proof (Z.div_mod (2 ^ 52 + d_frac b) (2 ^ (1075 - d_exp b)) ltac:(lia)) as Q. pose proof (Z.mod_pos_bound (2 ^ 52 + d_frac b) (2 ^ (1075 - d_exp b)) A) as M.
      split; [apply Z.div_pos; lia|]. rewrite !Z.mul_assoc. split; [apply Z.mul_le_mono_nonneg_r; [lia|]; rewrite Z.mul_comm; lia|]. apply Z.mul_lt_mono_pos_r; [exact B|]. rewrite Z.mul_comm. lia.
Qed.
Theorem cast_double m b : finite b -> exists t, truncated b t /\ of_double m b = Z.max (- m) (Z.min (m - 1) t).
Proof.
  intros F. pose proof (whole_part b F) as W. cbn zeta in W. rewrite (of_double_finite m b (proj2 F)). cbn zeta.
  set (t := if d_exp b =? 0 then 0 else if 1075 <=? d_exp b then _ else _) in *. destruct W as [P W]. exists (if d_neg b then - t else t). split; [|reflexivity].
  unfold truncated. rewrite (abs_units b (proj1 F)). pose proof (size_nonneg b (proj1 F)). unfold in_units. destruct (d_neg b).
  - rewrite Z.abs_opp, (Z.abs_eq t P). split; [exact W|]. rewrite Z.mul_opp_opp. apply Z.mul_nonneg_nonneg; assumption.
  - rewrite (Z.abs_eq t P). split; [exact W|]. apply Z.mul_nonneg_nonneg; assumption.
Qed.
Theorem truncated_only b t u : truncated b t -> truncated b u -> t = u.
Proof.
  unfold truncated. assert (U : 0 < unit1) by (unfold unit1; apply Z.pow_pos_nonneg; lia). intros [A B] [C D].
  assert (E : Z.abs t = Z.abs u).
  { assert (Z.abs t < Z.abs u + 1) by (apply (Z.mul_lt_mono_pos_r unit1); lia). assert (Z.abs u < Z.abs t + 1) by (apply (Z.mul_lt_mono_pos_r unit1); lia). lia. }
  destruct (Z.eq_dec t 0) as [->|T]; [lia|]. assert (in_units b <> 0) by (intros X; rewrite X in A; cbn [Z.abs] in A; assert (1 * unit1 <= Z.abs t * unit1) by (apply Z.mul_le_mono_nonneg_r; lia); lia).
  destruct (Z.lt_trichotomy (in_units b) 0) as [X|[X|X]]; [| contradiction|]; nia.
Qed.
Theorem cast_odd m b : is_double b -> d_exp b = 2047 -> of_double m b = if d_frac b =? 0 then (if d_neg b then - m else m - 1) else 0.
Proof. intros D E. unfold of_double. fold (d_exp b) (d_frac b) (d_neg b). rewrite E. cbn [Z.eqb Pos.eqb]. destruct (d_frac b =? 0); reflexivity. Qed.

(** ** whole numbers to doubles *)
Lemma half_even_ok a k : 0 < k -> 0 <= a -> exists q, half_even a k = q /\ 2 * Z.abs (a - q * 2 ^ k) <= 2 ^ k /\ (2 * Z.abs (a - q * 2 ^ k) = 2 ^ k -> Z.even q = true) /\ a / 2 ^ k <= q <= a / 2 ^ k + 1.
Proof.
  intros K A. assert (P : 0 < 2 ^ k) by (apply Z.pow_pos_nonneg; lia). pose proof (Z.div_mod a (2 ^ k) ltac:(lia)) as E. pose proof (Z.mod_pos_bound a (2 ^ k) P) as M. eexists. split; [reflexivity|]. unfold half_even.
  destruct (Z.compare_spec (2 * (a mod 2 ^ k)) (2 ^ k)) as [C|C|C].
  - destruct (Z.even (a / 2 ^ k)) eqn:V; [split; [|split; [intros; exact V|]]; lia|]. split; [lia|]. split; [|lia]. intros _. rewrite Z.even_add, V. reflexivity.
  - split; [|split]; lia.
  - split; [|split]; lia.
Qed.
Definition lead (a : Z) : Z := let k := Z.log2 a in if k <=? 52 then a * 2 ^ (52 - k) else half_even a (k - 52).
Lemma lead_range a : 0 < a -> 2 ^ 52 <= lead a <= 2 ^ 53.
Proof.
  intros P. unfold lead. destruct (Z.log2_spec a P) as [L H]. pose proof (Z.log2_nonneg a). remember (Z.log2 a) as k. destruct (Z.leb_spec k 52) as [K|K].
  - assert (E : 2 ^ 52 = 2 ^ k * 2 ^ (52 - k)) by (rewrite <- Z.pow_add_r by lia; f_equal; lia). assert (0 < 2 ^ (52 - k)) by (apply Z.pow_pos_nonneg; lia).
    rewrite Z.pow_succ_r in H by lia. change (2 ^ 53) with (2 * 2 ^ 52). rewrite E. split; [apply Z.mul_le_mono_nonneg_r; lia|]. rewrite Z.mul_assoc. apply Z.mul_le_mono_nonneg_r; lia.
  - destruct (half_even_ok a (k - 52) ltac:(lia) ltac:(lia)) as (q & -> & _ & _ & B). assert (P2 : 0 < 2 ^ (k - 52)) by (apply Z.pow_pos_nonneg; lia).
    assert (2 ^ 52 <= a / 2 ^ (k - 52)). { apply Z.div_le_lower_bound; [lia|]. rewrite <- Z.pow_add_r by lia. replace (k - 52 + 52) with k by lia. exact L. }
    assert (a / 2 ^ (k - 52) < 2 ^ 53). { apply Z.div_lt_upper_bound; [lia|]. rewrite <- Z.pow_add_r by lia. replace (k - 52 + 53) with (Z.succ k) by lia. exact H. } lia.
Qed.
Lemma even_of_N n : N.even n = Z.even (Z.of_N n).
Proof. destruct n as [|[p|p|]]; reflexivity. Qed.
Lemma to_double_parts i : i <> 0 -> Z.abs i <= 2 ^ 63 -> let k := Z.log2 (Z.abs i) in let b := to_double i in
  finite b /\ d_neg b = (i <? 0) /\ d_size b = lead (Z.abs i) * 2 ^ (k + 1022) /\ N.even b = Z.even (lead (Z.abs i)).
Proof.
  intros N0 R k b. assert (P : 0 < Z.abs i) by lia. pose proof (lead_range _ P) as Q. assert (K : 0 <= k <= 63).
  { split; [apply Z.log2_nonneg|]. unfold k. rewrite <- (Z.log2_pow2 63) by lia. apply Z.log2_le_mono. exact R. }
  set (s := if i <? 0 then 1 else 0). assert (S : s = 0 \/ s = 1) by (unfold s; destruct (i <? 0); auto).
  assert (B : b = Z.to_N (s * 2 ^ 63 + (k + 1023) * 2 ^ 52 + (lead (Z.abs i) - 2 ^ 52))).
  { unfold b, to_double. destruct (Z.eqb_spec i 0); [contradiction|]. fold (lead (Z.abs i)). fold k. f_equal. unfold s. destruct (i <? 0); lia. }
  assert (Sg : (s =? 1) = (i <? 0)) by (unfold s; destruct (i <? 0); reflexivity).
  assert (Ev : N.even b = Z.even (lead (Z.abs i))).
  { rewrite even_of_N, B. remember (lead (Z.abs i)) as q. rewrite Z2N.id by lia. replace (s * 2 ^ 63 + (k + 1023) * 2 ^ 52 + (q - 2 ^ 52)) with (q + 2 * (s * 2 ^ 62 + (k + 1022) * 2 ^ 51)) by lia. apply Z.even_add_mul_2. }
  destruct (Z.eq_dec (lead (Z.abs i)) (2 ^ 53)) as [E|E].
  - destruct (parts s (k + 1024) 0 S ltac:(lia) ltac:(lia)) as (V & D & X & F & G). assert (B2 : b = Z.to_N (s * 2 ^ 63 + (k + 1024) * 2 ^ 52 + 0)) by (rewrite B, E; f_equal; lia). rewrite <- B2 in *.
    split; [split; [exact D|lia]|]. split; [rewrite G; exact Sg|]. split; [|exact Ev]. unfold d_size. rewrite X, F, E. destruct (Z.eqb_spec (k + 1024) 0); [lia|].
    rewrite Z.add_0_r. replace (k + 1024 - 1) with (1 + (k + 1022)) by lia. rewrite (Z.pow_add_r 2 1) by lia. change (2 ^ 53) with (2 ^ 52 * 2 ^ 1). apply Z.mul_assoc.
  - destruct (parts s (k + 1023) (lead (Z.abs i) - 2 ^ 52) S ltac:(lia) ltac:(lia)) as (V & D & X & F & G). rewrite <- B in *.
    split; [split; [exact D|lia]|]. split; [rewrite G; exact Sg|]. split; [|exact Ev]. unfold d_size. rewrite X, F. destruct (Z.eqb_spec (k + 1023) 0); [lia|]. f_equal; [lia|f_equal; lia].
Qed.
Lemma lead_exact a : 0 < a <= 2 ^ 53 -> lead a * 2 ^ (Z.log2 a + 1022) = a * unit1.
Proof.
  intros [P R]. unfold unit1. destruct (Z.eq_dec a (2 ^ 53)) as [->|E].
  - vm_compute. reflexivity.
  - assert (K : Z.log2 a < 53) by (apply Z.log2_lt_pow2; lia). pose proof (Z.log2_nonneg a). unfold lead. destruct (Z.leb_spec (Z.log2 a) 52); [|lia].
    rewrite <- Z.mul_assoc, <- Z.pow_add_r by lia. do 2 f_equal. lia.
Qed.
Theorem exact_double i : Z.abs i <= 2 ^ 53 -> finite (to_double i) /\ in_units (to_double i) = i * unit1.
Proof.
  intros R. destruct (Z.eq_dec i 0) as [->|N0]; [split; [split; [reflexivity|vm_compute; discriminate]|reflexivity]|].
  destruct (to_double_parts i N0 ltac:(lia)) as (F & G & S & _). split; [exact F|]. unfold in_units. rewrite G, S, lead_exact by lia. destruct (Z.ltb_spec i 0); [rewrite Z.abs_neq by lia; lia|rewrite Z.abs_eq by lia; reflexivity].
Qed.
(** a double of size 2^(k-1074) or more is a multiple of 2^(k-52-1074) *)
Lemma big_multiple x k : is_double x -> 52 <= k -> 2 ^ k <= d_size x -> exists n, d_size x = n * 2 ^ (k - 52).
Proof.
  intros D K L. destruct (double_parts x D) as (s & _ & _ & _ & E & F). unfold d_size in *. destruct (Z.eqb_spec (d_exp x) 0) as [X|X].
  - assert (2 ^ 52 <= 2 ^ k) by (apply Z.pow_le_mono_r; lia). lia.
  - assert (Q : k - 52 <= d_exp x - 1).
    { destruct (Z.le_gt_cases (k - 52) (d_exp x - 1)) as [Y|Y]; [exact Y|]. exfalso.
      assert (A : 2 ^ 53 * 2 ^ (d_exp x - 1) <= 2 ^ k) by (rewrite <- Z.pow_add_r by lia; apply Z.pow_le_mono_r; lia).
      assert (B : (2 ^ 52 + d_frac x) * 2 ^ (d_exp x - 1) < 2 ^ 53 * 2 ^ (d_exp x - 1)) by (apply Z.mul_lt_mono_pos_r; [apply Z.pow_pos_nonneg; lia|lia]). lia. }
    exists ((2 ^ 52 + d_frac x) * 2 ^ (d_exp x - 1 - (k - 52))). rewrite <- Z.mul_assoc, <- Z.pow_add_r by lia. do 2 f_equal. lia.
Qed.
(** numbers only: A between B and its double, D the multiple of U next to it *)
Lemma near_multiple A D U q n : 0 < U -> D = q * U -> 2 * Z.abs (A - D) <= U -> Z.abs (D - A) <= Z.abs (n * U - A) /\ (Z.abs (D - A) = Z.abs (n * U - A) -> n <> q -> 2 * Z.abs (A - D) = U).
Proof.
  intros P -> H. destruct (Z.eq_dec n q) as [->|N]; [split; [lia|congruence]|].
  assert (X : U <= Z.abs (n * U - q * U)). { rewrite <- Z.mul_sub_distr_r, Z.abs_mul, (Z.abs_eq U) by lia. rewrite <- (Z.mul_1_l U) at 1. apply Z.mul_le_mono_nonneg_r; lia. }
  split; [lia|]. intros E _. lia.
Qed.
Lemma nearest_size a x : 2 ^ 53 <= a <= 2 ^ 63 -> finite x -> let D := lead a * 2 ^ (Z.log2 a + 1022) in let A := a * unit1 in
  forall y, (y = d_size x \/ y = - d_size x) -> Z.abs (D - A) <= Z.abs (y - A) /\ (Z.abs (D - A) = Z.abs (y - A) -> y <> D -> Z.even (lead a) = true).
Proof.
  intros R F D A y Y. set (k := Z.log2 a) in *. assert (P : 0 < a) by lia. destruct (Z.log2_spec a P) as [L H]. fold k in L, H.
  assert (K : 53 <= k). { unfold k. rewrite <- (Z.log2_pow2 53) by lia. apply Z.log2_le_mono. lia. }
  assert (W : lead a = half_even a (k - 52)) by (unfold lead; fold k; destruct (Z.leb_spec k 52); [lia|reflexivity]).
  destruct (half_even_ok a (k - 52) ltac:(lia) ltac:(lia)) as (q & Hq & T & V & _). rewrite <- W in Hq. subst q.
  set (U := 2 ^ (k + 1022)) in *. assert (PU : 0 < U) by (unfold U; apply Z.pow_pos_nonneg; lia).
  assert (EU : U = 2 ^ (k - 52) * unit1) by (unfold U, unit1; rewrite <- Z.pow_add_r by lia; f_equal; lia).
  assert (P1 : 0 < unit1) by (unfold unit1; apply Z.pow_pos_nonneg; lia).
  assert (AD : A - D = (a - lead a * 2 ^ (k - 52)) * unit1) by (unfold A, D; rewrite EU; ring).
  assert (T2 : 2 * Z.abs (A - D) <= U). { rewrite AD, Z.abs_mul, (Z.abs_eq unit1), EU, Z.mul_assoc by lia. apply Z.mul_le_mono_nonneg_r; lia. }
  assert (V2 : 2 * Z.abs (A - D) = U -> Z.even (lead a) = true).
  { rewrite AD, Z.abs_mul, (Z.abs_eq unit1), EU, Z.mul_assoc by lia. intros E. apply V. apply Z.mul_reg_r in E; [exact E|lia]. }
  assert (NM : forall n, Z.abs (D - A) <= Z.abs (n * U - A) /\ (Z.abs (D - A) = Z.abs (n * U - A) -> n <> lead a -> 2 * Z.abs (A - D) = U)) by (intros n; apply near_multiple; [exact PU|reflexivity|exact T2]).
  assert (BA : 2 ^ 52 * U <= A). { unfold A. rewrite EU, Z.mul_assoc, <- Z.pow_add_r by lia. replace (52 + (k - 52)) with k by lia. apply Z.mul_le_mono_nonneg_r; lia. }
  assert (BU : 2 ^ (k + 1074) = 2 ^ 52 * U) by (unfold U; rewrite <- Z.pow_add_r by lia; f_equal; lia).
  pose proof (size_nonneg x (proj1 F)) as SN.
  destruct (Z.lt_ge_cases (d_size x) (2 ^ (k + 1074))) as [S|S].
  - destruct (NM (2 ^ 52)) as [N1 _]. split; [destruct Y as [-> | ->]; lia|]. intros E. exfalso. destruct Y as [-> | ->]; lia.
  - destruct (big_multiple x (k + 1074) (proj1 F) ltac:(lia) S) as (n & E). replace (k + 1074 - 52) with (k + 1022) in E by lia. fold U in E.
    assert (exists n', y = n' * U) as (n' & ->) by (destruct Y as [-> | ->]; [exists n; exact E|exists (- n); rewrite E; ring]).
    destruct (NM n') as [N1 N2]. split; [exact N1|]. intros Q X. apply V2. apply N2; [exact Q|]. intros ->. apply X. reflexivity.
Qed.
Theorem nearest_double i : - 2 ^ 63 <= i < 2 ^ 63 -> nearest (to_double i) i.
Proof.
  intros R. destruct (Z.le_gt_cases (Z.abs i) (2 ^ 53)) as [L|L].
  - destruct (exact_double i L) as [F E]. split; [exact F|]. intros x X. rewrite E, Z.sub_diag. cbn [Z.abs]. split; [apply Z.abs_nonneg|]. intros Q W. exfalso. lia.
  - destruct (to_double_parts i ltac:(lia) ltac:(lia)) as (F & G & S & V). split; [exact F|]. intros x X.
    destruct (Z.ltb_spec i 0) as [Neg|Pos].
    + destruct (nearest_size (Z.abs i) x ltac:(lia) X (- in_units x) ltac:(unfold in_units; destruct (d_neg x); lia)) as [A B]. rewrite <- S in A, B.
      assert (E1 : in_units (to_double i) = - d_size (to_double i)) by (unfold in_units; rewrite G; reflexivity). assert (E2 : Z.abs i = - i) by lia. rewrite E2 in A, B, V. rewrite E1.
      assert (Q : forall z, Z.abs (- z - i * unit1) = Z.abs (z - - i * unit1)) by (intros z; rewrite <- Z.abs_opp; f_equal; ring). rewrite Q.
      assert (Q2 : Z.abs (in_units x - i * unit1) = Z.abs (- in_units x - - i * unit1)) by (rewrite <- Z.abs_opp; f_equal; ring). rewrite Q2, V.
      split; [exact A|]. intros Z1 Z2. apply B; [exact Z1|]. intros Z3. apply Z2. lia.
    + destruct (nearest_size (Z.abs i) x ltac:(lia) X (in_units x) ltac:(unfold in_units; destruct (d_neg x); lia)) as [A B]. rewrite <- S in A, B. rewrite (Z.abs_eq i) in A, B, V by lia.
      assert (E1 : in_units (to_double i) = d_size (to_double i)) by (unfold in_units; rewrite G; reflexivity). rewrite E1, V. split; assumption.
Qed.
Theorem whole_again m i : 0 < m -> - m <= i < m -> Z.abs i <= 2 ^ 53 -> of_double m (to_double i) = i.
Proof.
  intros P R L. destruct (exact_double i L) as [F E]. destruct (cast_double m _ F) as (t & T & ->). assert (U : 0 < unit1) by (unfold unit1; apply Z.pow_pos_nonneg; lia).
  assert (T2 : truncated (to_double i) i).
  { unfold truncated. rewrite E, Z.abs_mul, (Z.abs_eq unit1) by lia. split; [split; [lia|apply Z.mul_lt_mono_pos_r; lia]|]. rewrite Z.mul_assoc. apply Z.mul_nonneg_nonneg; [apply Z.square_nonneg|lia]. }
  rewrite (truncated_only _ _ _ T T2). lia.
Qed.

(** ** boolValue of a double *)
Lemma size_le x y : is_double x -> is_double y -> (Z.of_N x mod 2 ^ 63 <= Z.of_N y mod 2 ^ 63 <-> d_size x <= d_size y).
Proof.
  assert (M : forall b, is_double b -> Z.of_N b mod 2 ^ 63 = d_exp b * 2 ^ 52 + d_frac b).
  { intros b D. destruct (double_parts b D) as (s & S & V & _ & E & F). rewrite V. symmetry. apply (Z.mod_unique _ _ s); lia. }
  assert (G : forall b, is_double b -> d_exp b * 2 ^ 52 + d_frac b = (if d_exp b =? 0 then 0 else d_exp b - 1) * 2 ^ 52 + (if d_exp b =? 0 then d_frac b else 2 ^ 52 + d_frac b)).
  { intros b _. destruct (Z.eqb_spec (d_exp b) 0); lia. }
  assert (Lt : forall x y, is_double x -> is_double y -> d_exp x * 2 ^ 52 + d_frac x < d_exp y * 2 ^ 52 + d_frac y -> d_size x < d_size y).
  { clear x y. intros x y Dx Dy H. destruct (double_parts x Dx) as (_ & _ & _ & _ & Ex & Fx). destruct (double_parts y Dy) as (_ & _ & _ & _ & Ey & Fy). unfold d_size.
    destruct (Z.eqb_spec (d_exp x) 0) as [X|X], (Z.eqb_spec (d_exp y) 0) as [Y|Y].
    - lia.
    - assert (1 <= 2 ^ (d_exp y - 1)) by (apply (Z.pow_le_mono_r 2 0); lia). assert ((2 ^ 52 + d_frac y) * 1 <= (2 ^ 52 + d_frac y) * 2 ^ (d_exp y - 1)) by (apply Z.mul_le_mono_nonneg_l; lia). lia.
    - lia.
    - destruct (Z.eq_dec (d_exp x) (d_exp y)) as [E|E]; [rewrite E; apply Z.mul_lt_mono_pos_r; [apply Z.pow_pos_nonneg; lia|lia]|].
      assert (LE : d_exp x < d_exp y) by lia. apply Z.lt_le_trans with (2 ^ 53 * 2 ^ (d_exp x - 1)); [apply Z.mul_lt_mono_pos_r; [apply Z.pow_pos_nonneg; lia|lia]|].
      apply Z.le_trans with (2 ^ 52 * 2 ^ (d_exp y - 1)); [rewrite <- !Z.pow_add_r by lia; apply Z.pow_le_mono_r; lia|]. apply Z.mul_le_mono_nonneg_r; [apply Z.pow_nonneg; lia|lia]. }
  intros Dx Dy. rewrite (M x Dx), (M y Dy). split; intros H.
  - destruct (Z.eq_dec (d_exp x * 2 ^ 52 + d_frac x) (d_exp y * 2 ^ 52 + d_frac y)) as [E|E]; [|apply Z.lt_le_incl, Lt; auto; lia].
    destruct (double_parts x Dx) as (_ & _ & _ & _ & Ex & Fx). destruct (double_parts y Dy) as (_ & _ & _ & _ & Ey & Fy). assert (d_exp x = d_exp y /\ d_frac x = d_frac y) as [E1 E2] by lia. unfold d_size. rewrite E1, E2. lia.
  - destruct (Z.le_gt_cases (d_exp x * 2 ^ 52 + d_frac x) (d_exp y * 2 ^ 52 + d_frac y)) as [K|K]; [exact K|]. specialize (Lt y x Dy Dx K). lia.
Qed.
Theorem double_bool_is b : is_double b -> (double_bool b = true <-> finite b /\ Z.abs (in_units b) <= in_units eps).
Proof.
  intros D. assert (De : is_double eps) by reflexivity. assert (Ee : Z.of_N eps mod 2 ^ 63 = Z.of_N eps) by reflexivity. assert (Ne : in_units eps = d_size eps) by reflexivity.
  unfold double_bool. rewrite Z.leb_le, <- Ee, (size_le b eps D De), (abs_units b D), Ne. split; [|tauto]. intros H. split; [|exact H]. split; [exact D|]. intros X.
  assert (S : d_size eps < d_size b); [|lia]. destruct (double_parts b D) as (_ & _ & _ & _ & _ & F). unfold d_size at 2. rewrite X. cbn [Z.eqb Pos.eqb].
  apply Z.lt_le_trans with (2 ^ 52 * 2 ^ (2047 - 1)); [vm_compute; reflexivity|]. apply Z.mul_le_mono_nonneg_r; [apply Z.pow_nonneg; lia|lia].
Qed.
Lemma eps_small : in_units eps < unit1.
Proof. vm_compute. reflexivity. Qed.
Theorem double_bool_opposite i : Z.abs i <= 2 ^ 53 -> double_bool (to_double i) = (i =? 0).
Proof.
  intros L. destruct (exact_double i L) as [F E]. pose proof (double_bool_is (to_double i) (proj1 F)) as [H1 H2]. rewrite E in H1, H2. pose proof eps_small as S.
  assert (U : 0 < unit1) by (unfold unit1; apply Z.pow_pos_nonneg; lia). rewrite Z.abs_mul, (Z.abs_eq unit1) in H1, H2 by lia.
  destruct (Z.eqb_spec i 0) as [->|N]; [reflexivity|]. destruct (double_bool (to_double i)); [|reflexivity]. exfalso. destruct (H1 eq_refl) as [_ X]. assert (1 * unit1 <= Z.abs i * unit1) by (apply Z.mul_le_mono_nonneg_r; lia). lia.
Qed.
