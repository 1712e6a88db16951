(** Proofs about float() of an int: the nearest double. *)
From Verif Require Import PyBase PyBaseFacts Model_Text Model_Heap Model_Layer Model_Types Model_Query Model_Coerce Spec_Layer Spec_Query Spec_Coerce Proof_Msgpack Proof_Query Proof_Coerce.
From Coq Require Import QArith Qabs Qpower Lqa.
Local Open Scope Z_scope.

(** a double is a whole number of less than 2^53, scaled *)
Lemma double_form b x : number (VFloat b) x -> exists m e, Z.abs m < 2 ^ 53 /\ (x == inject_Z m * pow2 e)%Q.
Proof.
  intros H. inversion H as [| | |g ex fr bits Hg He Hf E|g fr bits Hg Hf E]; subst.
  - eexists _, _. split; [|reflexivity]. destruct (g =? 0); lia.
  - eexists _, _. split; [|reflexivity]. destruct (g =? 0); lia.
Qed.
(** no double lies strictly between q c and (q+1) c, where c = 2^j and 2^52 <= q *)
Lemma no_between j q m e : 0 < j -> 2 ^ 52 <= q -> Z.abs m < 2 ^ 53 ->
  (inject_Z m * pow2 e <= inject_Z (q * 2 ^ j))%Q \/ (inject_Z ((q + 1) * 2 ^ j) <= inject_Z m * pow2 e)%Q.
Proof.
  intros Hj Hq Hm. destruct (Z.le_gt_cases j e) as [L|L].
  - rewrite (scale m e 0) by lia. rewrite Z.sub_0_r. assert (E : forall z, (inject_Z z * pow2 0 == inject_Z z)%Q) by (intros z; unfold pow2; cbn; ring). rewrite E.
    replace e with ((e - j) + j) by lia. rewrite Z.pow_add_r by lia. set (t := m * 2 ^ (e - j)). replace (m * (2 ^ (e - j) * 2 ^ j)) with (t * 2 ^ j) by (unfold t; ring).
    assert (P : 0 < 2 ^ j) by (apply Z.pow_pos_nonneg; lia). destruct (Z.le_gt_cases t q); [left|right]; apply zq_le; nia.
  - left. destruct (Z.le_gt_cases m 0) as [Hm0|Hm0].
    + apply Qle_trans with 0%Q; [|rewrite <- zq_0; apply zq_le; assert (0 < 2 ^ j) by (apply Z.pow_pos_nonneg; lia); nia].
      pose proof (pow2_pos e) as P. assert (H : (inject_Z m <= 0)%Q) by (rewrite <- zq_0; apply zq_le; exact Hm0). nra.
    + apply Qle_trans with (inject_Z m * pow2 (j - 1))%Q.
      * rewrite (scale m (j - 1) e) by lia. pose proof (pow2_pos e) as P. apply Qmult_le_r; [exact P|]. apply zq_le. assert (1 <= 2 ^ (j - 1 - e)) by (apply (Z.pow_le_mono_r 2 0); lia). nia.
      * rewrite (scale m (j - 1) 0) by lia. rewrite Z.sub_0_r. assert (E : forall z, (inject_Z z * pow2 0 == inject_Z z)%Q) by (intros z; unfold pow2; cbn; ring). rewrite E. apply zq_le.
        replace j with (1 + (j - 1)) at 2 by lia. rewrite Z.pow_add_r by lia. assert (0 < 2 ^ (j - 1)) by (apply Z.pow_pos_nonneg; lia). change (2 ^ 1) with 2. nia.
Qed.
(** the chosen multiple of c is the nearest of what does not lie between q c and (q+1) c *)
Definition rounded (a c : Z) : Z := if (c <? 2 * (a mod c)) || ((2 * (a mod c) =? c) && Z.odd (a / c)) then a / c + 1 else a / c.
Lemma rounded_near a c y : 0 < c -> (y <= inject_Z (a / c * c))%Q \/ (inject_Z ((a / c + 1) * c) <= y)%Q ->
  (Qabs (inject_Z (rounded a c * c) - inject_Z a) <= Qabs (y - inject_Z a))%Q /\
  ((Qabs (inject_Z (rounded a c * c) - inject_Z a) == Qabs (y - inject_Z a))%Q -> (inject_Z (rounded a c * c) == y)%Q \/ Z.even (rounded a c) = true).
Proof.
  intros Hc Hy. pose proof (Z.div_mod a c ltac:(lia)) as D. pose proof (Z.mod_pos_bound a c Hc) as R. unfold rounded.
  set (q := a / c) in *. set (r := a mod c) in *. clearbody q r. subst a.
  assert (Lo : (inject_Z (q * c) == inject_Z (c * q + r) - inject_Z r)%Q) by (unfold Qminus; rewrite <- inject_Z_opp, <- inject_Z_plus; replace (c * q + r + - r) with (q * c) by ring; reflexivity).
  assert (Hi : (inject_Z ((q + 1) * c) == inject_Z (c * q + r) + inject_Z (c - r))%Q) by (rewrite <- inject_Z_plus; replace (c * q + r + (c - r)) with ((q + 1) * c) by ring; reflexivity).
  assert (R0 : (0 <= inject_Z r)%Q) by (rewrite <- zq_0; apply zq_le; lia). assert (R1 : (0 < inject_Z (c - r))%Q) by (rewrite <- zq_0; apply zq_lt; lia).
  set (a := inject_Z (c * q + r)) in *. clearbody a.
  assert (Far : (inject_Z r <= Qabs (y - a))%Q \/ (inject_Z (c - r) <= Qabs (y - a))%Q).
  { destruct Hy as [Hy|Hy]; [left|right]; [rewrite Qabs_neg by lra|rewrite Qabs_pos by lra]; lra. }
  destruct ((c <? 2 * r) || ((2 * r =? c) && Z.odd q)) eqn:B.
  - assert (H2 : c <= 2 * r) by (apply orb_prop in B; destruct B as [B|B]; [apply Z.ltb_lt in B; lia|apply andb_prop in B; destruct B as [B _]; apply Z.eqb_eq in B; lia]).
    assert (QC : (inject_Z (c - r) <= inject_Z r)%Q) by (apply zq_le; lia).
    assert (E : (Qabs (inject_Z ((q + 1) * c) - a) == inject_Z (c - r))%Q) by (rewrite Qabs_pos by lra; lra). rewrite E. split; [destruct Far; lra|]. intros T.
    destruct Hy as [Hy|Hy].
    + right. assert (Ey : (Qabs (y - a) == a - y)%Q) by (rewrite Qabs_neg by lra; ring). rewrite Ey in T. assert (RC : (inject_Z r <= inject_Z (c - r))%Q) by lra. rewrite <- Zle_Qle in RC.
      apply orb_prop in B. destruct B as [B|B]; [apply Z.ltb_lt in B; lia|]. apply andb_prop in B. destruct B as [_ B]. rewrite Z.add_1_r, Z.even_succ. exact B.
    + left. rewrite (Qabs_pos (y - a)) in T by lra. lra.
  - apply orb_false_elim in B. destruct B as [B1 B2]. apply Z.ltb_ge in B1. assert (QC : (inject_Z r <= inject_Z (c - r))%Q) by (apply zq_le; lia).
    assert (E : (Qabs (inject_Z (q * c) - a) == inject_Z r)%Q) by (rewrite Qabs_neg by lra; lra). rewrite E. split; [destruct Far; lra|]. intros T.
    destruct Hy as [Hy|Hy].
    + left. rewrite (Qabs_neg (y - a)) in T by lra. lra.
    + right. rewrite (Qabs_pos (y - a)) in T by lra. assert (RC : (inject_Z (c - r) <= inject_Z r)%Q) by lra. rewrite <- Zle_Qle in RC.
      assert (2 * r =? c = true) as X by (apply Z.eqb_eq; lia). rewrite X in B2. cbn [andb] in B2. rewrite <- Z.negb_odd, B2. reflexivity.
Qed.
Lemma packed k q g : 0 <= k -> 2 ^ 52 <= q <= 2 ^ 53 -> (g = 0 \/ g = 1) -> (k + 1022) * 2 ^ 52 + q < 2047 * 2 ^ 52 ->
  exists x, number (VFloat (Z.to_N ((k + 1022) * 2 ^ 52 + q + g * 2 ^ 63))) x /\ (x == inject_Z (if g =? 0 then q else - q) * pow2 (k - 52))%Q.
Proof.
  intros Hk Hq Hg Hb. assert (Nb : forall z, 0 <= z -> Z.of_N (Z.to_N z) = z) by (intros; apply Z2N.id; assumption).
  destruct (Z.eq_dec q (2 ^ 53)) as [->|Hn].
  - eexists. split.
    + apply (nu_normal g (k + 1024) 0); [exact Hg|lia|split; [lia|reflexivity]|]. rewrite Nb by lia. change (2 ^ 63) with (2048 * 2 ^ 52). change (2 ^ 53) with (2 * 2 ^ 52). ring.
    + replace (k + 1024 - 1075) with (k - 51) by lia. rewrite (scale _ (k - 51) (k - 52)) by lia. replace (k - 51 - (k - 52)) with 1 by lia. destruct (g =? 0); reflexivity.
  - eexists. split.
    + apply (nu_normal g (k + 1023) (q - 2 ^ 52)); [exact Hg|lia|lia|]. rewrite Nb by lia. change (2 ^ 63) with (2048 * 2 ^ 52). ring.
    + replace (k + 1023 - 1075) with (k - 52) by lia. replace (q - 2 ^ 52 + 2 ^ 52) with q by ring. reflexivity.
Qed.
Lemma flip_sign (g : bool) (i : Z) (x : Q) a : i = (if g then - a else a) ->
  (Qabs ((if g then - x else x) - inject_Z i) == Qabs (x - inject_Z a))%Q.
Proof.
  intros ->. destruct g; [|reflexivity]. rewrite inject_Z_opp. rewrite <- Qabs_opp. apply Qabs_wd. ring.
Qed.
Lemma log2_lower a : 0 < a -> 2 ^ Z.log2 a <= a < 2 ^ (Z.log2 a + 1).
Proof. intros L. rewrite Z.add_1_r. apply Z.log2_spec. exact L. Qed.
Lemma rounded_range a j : 0 < j -> 2 ^ (52 + j) <= a < 2 ^ (53 + j) -> 2 ^ 52 <= a / 2 ^ j < 2 ^ 53 /\ 2 ^ 52 <= rounded a (2 ^ j) <= 2 ^ 53.
Proof.
  intros Hj [L U]. assert (P : 0 < 2 ^ j) by (apply Z.pow_pos_nonneg; lia). rewrite Z.pow_add_r in L, U by lia.
  assert (B : 2 ^ 52 <= a / 2 ^ j < 2 ^ 53) by (split; [apply Z.div_le_lower_bound; lia|apply Z.div_lt_upper_bound; lia]). split; [exact B|]. unfold rounded. destruct (_ || _); lia.
Qed.
(** what float_of_int packs *)
Definition chosen (a : Z) : Z := if Z.log2 a <=? 52 then a * 2 ^ (52 - Z.log2 a) else rounded a (2 ^ (Z.log2 a - 52)).
Lemma chosen_range a : 0 < a -> 2 ^ 52 <= chosen a <= 2 ^ 53.
Proof.
  intros L. unfold chosen. pose proof (log2_lower a L) as B. pose proof (Z.log2_nonneg a) as K. destruct (Z.leb_spec (Z.log2 a) 52) as [C|C].
  - assert (E1 : 2 ^ 52 = 2 ^ Z.log2 a * 2 ^ (52 - Z.log2 a)) by (rewrite <- Z.pow_add_r by lia; f_equal; lia).
    assert (E2 : 2 ^ 53 = 2 ^ (Z.log2 a + 1) * 2 ^ (52 - Z.log2 a)) by (rewrite <- Z.pow_add_r by lia; f_equal; lia).
    assert (0 < 2 ^ (52 - Z.log2 a)) by (apply Z.pow_pos_nonneg; lia). rewrite E1, E2. nia.
  - apply rounded_range; [lia|]. replace (52 + (Z.log2 a - 52)) with (Z.log2 a) by lia. replace (53 + (Z.log2 a - 52)) with (Z.log2 a + 1) by lia. exact B.
Qed.
Lemma float_of_int_eq i : i <> 0 -> float_of_int i =
  (let b := (Z.log2 (Z.abs i) + 1022) * 2 ^ 52 + chosen (Z.abs i) in if 2047 * 2 ^ 52 <=? b then Err OverflowError else Ok (Z.to_N (if i <? 0 then b + 2 ^ 63 else b))).
Proof. intros N. unfold float_of_int, chosen, rounded. cbv zeta. destruct (Z.eqb_spec (Z.abs i) 0); [lia|]. reflexivity. Qed.
(** the packed number against any other double *)
Lemma chosen_near a b' x' : 0 < a -> number (VFloat b') x' -> forall g : bool,
  let v := (inject_Z (chosen a) * pow2 (Z.log2 a - 52))%Q in let y := (if g then - x' else x')%Q in
  (Qabs (v - inject_Z a) <= Qabs (y - inject_Z a))%Q /\ ((Qabs (v - inject_Z a) == Qabs (y - inject_Z a))%Q -> (v == y)%Q \/ Z.even (chosen a) = true).
Proof.
  intros L Hx g v y. pose proof (log2_lower a L) as B. pose proof (Z.log2_nonneg a) as K.
  assert (One : forall z, (inject_Z z * pow2 0 == inject_Z z)%Q) by (intros z; unfold pow2; cbn; ring).
  unfold v, chosen. destruct (Z.leb_spec (Z.log2 a) 52) as [C|C].
  - assert (E : (inject_Z (a * 2 ^ (52 - Z.log2 a)) * pow2 (Z.log2 a - 52) == inject_Z a)%Q).
    { rewrite (at_scale a (52 - Z.log2 a)) by lia. replace (- (52 - Z.log2 a)) with (Z.log2 a - 52) by lia. reflexivity. }
    assert (Z0 : (inject_Z (a * 2 ^ (52 - Z.log2 a)) * pow2 (Z.log2 a - 52) - inject_Z a == 0)%Q) by (rewrite E; ring). rewrite Z0, E. change (Qabs 0) with 0%Q. split; [apply Qabs_nonneg|].
    intros T. left. assert (A : (Qabs (y - inject_Z a) <= 0)%Q) by (rewrite <- T; apply Qle_refl). apply Qabs_Qle_condition in A. lra.
  - set (j := Z.log2 a - 52) in *. assert (Hj : 0 < j) by lia. assert (P : 0 < 2 ^ j) by (apply Z.pow_pos_nonneg; lia).
    assert (E : forall q, (inject_Z q * pow2 j == inject_Z (q * 2 ^ j))%Q) by (intros q; rewrite (scale q j 0) by lia; rewrite Z.sub_0_r; apply One). rewrite E.
    destruct (rounded_range a j Hj) as [Rq _]; [replace (52 + j) with (Z.log2 a) by lia; replace (53 + j) with (Z.log2 a + 1) by lia; exact B|].
    apply rounded_near; [exact P|]. destruct (double_form _ _ Hx) as (m & e & Hm & Ex).
    assert (Ey : (y == inject_Z (if g then - m else m) * pow2 e)%Q) by (unfold y; destruct g; [rewrite inject_Z_opp|]; rewrite Ex; ring). rewrite Ey. apply no_between; [exact Hj|lia|destruct g; lia].
Qed.
Theorem float_nearest i b : float_of_int i = Ok b -> nearest i b.
Proof.
  intros H. destruct (Z.eq_dec i 0) as [->|N0].
  - injection H as <-. split; [split; [reflexivity|lia]|]. split; [reflexivity|]. eexists. split; [apply (nu_small 0 0); [auto|split; [lia|reflexivity]|reflexivity]|].
    intros b' x' H'. assert (E : (inject_Z 0 * pow2 (-1074) - inject_Z 0 == 0)%Q) by (change (inject_Z 0) with 0%Q; ring). rewrite E. change (Qabs 0) with 0%Q. split; [apply Qabs_nonneg|]. intros _. right. reflexivity.
  - rewrite float_of_int_eq in H by exact N0. cbv zeta in H. set (a := Z.abs i) in *. assert (L : 0 < a) by lia. pose proof (chosen_range a L) as R. pose proof (Z.log2_nonneg a) as K.
    destruct (Z.leb_spec (2047 * 2 ^ 52) ((Z.log2 a + 1022) * 2 ^ 52 + chosen a)) as [O|O]; [discriminate|]. apply Ok_inj in H. rename H into Hb.
    set (g := if i <? 0 then 1 else 0). assert (Hg : g = 0 \/ g = 1) by (unfold g; destruct (i <? 0); auto).
    assert (Eb : b = Z.to_N ((Z.log2 a + 1022) * 2 ^ 52 + chosen a + g * 2 ^ 63)) by (rewrite <- Hb; unfold g; destruct (i <? 0); f_equal; ring). clear Hb.
    destruct (packed (Z.log2 a) (chosen a) g K R Hg O) as (x & Hx & Ex). rewrite <- Eb in Hx.
    assert (Pb : 0 <= (Z.log2 a + 1022) * 2 ^ 52 + chosen a < 2 ^ 63) by (change (2 ^ 63) with (2048 * 2 ^ 52); lia).
    split; [|split].
    + rewrite Eb. replace (2 ^ 63)%N with (Z.to_N (2 ^ 63)) by reflexivity. unfold g. destruct (Z.ltb_spec i 0); (split; intros; [try lia; apply Z2N.inj_lt; lia|lia]).
    + rewrite Eb. replace (2 ^ 64)%N with (Z.to_N (2 ^ 64)) by reflexivity. change (2 ^ 64) with (2 * 2 ^ 63). apply Z2N.inj_lt; lia.
    + exists x. split; [exact Hx|]. intros b' x' H'. set (gb := i <? 0). assert (Ei : i = if gb then - a else a) by (unfold gb; destruct (Z.ltb_spec i 0); lia).
      set (v := (inject_Z (chosen a) * pow2 (Z.log2 a - 52))%Q). assert (Exv : (x == (if gb then - v else v))%Q).
      { rewrite Ex. unfold gb, g, v. destruct (i <? 0); cbn [Z.eqb]; [rewrite inject_Z_opp; ring|reflexivity]. }
      assert (E1 : (Qabs (x - inject_Z i) == Qabs (v - inject_Z a))%Q) by (rewrite Exv; apply flip_sign; exact Ei).
      assert (E2 : (Qabs (x' - inject_Z i) == Qabs ((if gb then - x' else x') - inject_Z a))%Q).
      { rewrite <- (flip_sign gb i (if gb then - x' else x') a Ei). apply Qabs_wd. destruct gb; ring. }
      rewrite E1, E2. destruct (chosen_near a b' x' L H' gb) as [A1 A2]. fold v in A1, A2. split; [exact A1|]. intros T. destruct (A2 T) as [V|V]; [left|right].
      * rewrite Exv. destruct gb; [rewrite V; ring|exact V].
      * rewrite Eb. assert (Ev : Z.even ((Z.log2 a + 1022) * 2 ^ 52 + chosen a + g * 2 ^ 63) = true).
        { rewrite !Z.even_add, !Z.even_mul, V. change (Z.even (2 ^ 52)) with true. change (Z.even (2 ^ 63)) with true. rewrite !orb_true_r. reflexivity. }
        rewrite <- (Z2N.id ((Z.log2 a + 1022) * 2 ^ 52 + chosen a + g * 2 ^ 63)) in Ev by lia. destruct (Z.to_N _) as [|[p|p|]]; try reflexivity; try discriminate Ev.
Qed.
Theorem float_overflow i : (float_of_int i = Err OverflowError <-> 2 ^ 1024 - 2 ^ 970 <= Z.abs i) /\ (forall e, float_of_int i = Err e -> e = OverflowError).
Proof.
  destruct (Z.eq_dec i 0) as [->|N0].
  - split; [split; [discriminate|]|discriminate]. intros H. change (Z.abs 0) with 0 in H. assert (2 ^ 970 < 2 ^ 1024) by (apply Z.pow_lt_mono_r; lia). lia.
  - rewrite float_of_int_eq by exact N0. cbv zeta. set (a := Z.abs i). assert (L : 0 < a) by lia. pose proof (chosen_range a L) as R. pose proof (Z.log2_nonneg a) as K. pose proof (log2_lower a L) as B.
    assert (M : 2047 * 2 ^ 52 <= (Z.log2 a + 1022) * 2 ^ 52 + chosen a <-> 2 ^ 1024 - 2 ^ 970 <= a).
    { destruct (Z.lt_trichotomy (Z.log2 a) 1023) as [C|[C|C]].
      - assert (a < 2 ^ 1023) by (apply Z.lt_le_trans with (2 ^ (Z.log2 a + 1)); [lia|apply Z.pow_le_mono_r; lia]).
        assert (2 ^ 1024 = 2 ^ 1023 + 2 ^ 1023) by (change 1024 with (1 + 1023); rewrite Z.pow_add_r by lia; change (2 ^ 1) with 2; lia). assert (2 ^ 970 <= 2 ^ 1023) by (apply Z.pow_le_mono_r; lia).
        change (2 ^ 53) with (2 * 2 ^ 52) in R. split; intros; exfalso; [|lia]. assert (Z.log2 a <= 1022) by lia. nia.
      - unfold chosen in *. rewrite C in *. change (1023 <=? 52) with false in *. cbv iota in *. change (1023 - 52) with 971 in *. set (c := 2 ^ 971) in *. assert (Hc : 0 < c) by (unfold c; apply Z.pow_pos_nonneg; lia).
        assert (E970 : c = 2 * 2 ^ 970) by (unfold c; change 971 with (1 + 970); rewrite Z.pow_add_r by lia; reflexivity). assert (E1024 : 2 ^ 1024 = 2 ^ 53 * c) by (unfold c; rewrite <- Z.pow_add_r by lia; reflexivity).
        change (1023 + 1) with 1024 in B. rewrite E1024 in B |- *. pose proof (Z.div_mod a c ltac:(lia)) as D. pose proof (Z.mod_pos_bound a c Hc) as Rm.
        assert (Q : a / c < 2 ^ 53) by (apply Z.div_lt_upper_bound; lia). unfold rounded in *. set (q := a / c) in *. set (r := a mod c) in *. clearbody q r c. clear C.
        assert (X : (2047 * 2 ^ 52 <= (1023 + 1022) * 2 ^ 52 + (if (c <? 2 * r) || (2 * r =? c) && Z.odd q then q + 1 else q)) <-> q = 2 ^ 53 - 1 /\ c <= 2 * r).
        { destruct ((c <? 2 * r) || (2 * r =? c) && Z.odd q) eqn:Bq.
          - apply orb_prop in Bq. assert (c <= 2 * r) by (destruct Bq as [Bq|Bq]; [apply Z.ltb_lt in Bq; lia|apply andb_prop in Bq; destruct Bq as [Bq _]; apply Z.eqb_eq in Bq; lia]). lia.
          - apply orb_false_elim in Bq. destruct Bq as [B1 B2]. apply Z.ltb_ge in B1. split; [intros; exfalso; lia|]. intros [-> Hr]. assert (2 * r =? c = true) as Y by (apply Z.eqb_eq; lia). rewrite Y in B2. discriminate B2. }
        rewrite X. split; [intros [-> Hr]; nia|]. intros H. assert (q = 2 ^ 53 - 1) by nia. split; [assumption|]. subst q. nia.
      - assert (2 ^ 1024 <= a) by (apply Z.le_trans with (2 ^ Z.log2 a); [apply Z.pow_le_mono_r; lia|lia]). assert (0 < 2 ^ 970) by (apply Z.pow_pos_nonneg; lia).
        split; intros; [lia|]. nia. }
    rewrite <- M. destruct (Z.leb_spec (2047 * 2 ^ 52) ((Z.log2 a + 1022) * 2 ^ 52 + chosen a)) as [O|O]; (split; [split; [intros; auto; try discriminate|intros; auto; try lia]|]); intros; congruence.
Qed.
