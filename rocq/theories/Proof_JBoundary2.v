(** Proofs for C88: the Java reader. *)
From Verif Require Import PyBase PyBaseFacts Model_Msgpack Model_Collection Model_Boundary Model_JBoundary Spec_Boundary Spec_JBoundary Proof_Boundary Proof_Boundary2.
Local Open Scope Z_scope.

Section Read.
Variables (b : Z) (p f : list N) (minus : bool).
Hypothesis Hb : 12 <= b.
Hypothesis F : boundary_file b p f.

Record rj (r : jreader) (o : Z) : Prop := {
  rj_b : jr_b r = b;
  rj_seg : 0 <= jr_seg r;
  rj_pos : 1 <= jr_read r <= zlen f;
  rj_rest : in_rest (jr_in r) = skipn (Z.to_nat (jr_read r)) f;
  rj_minus : in_minus (jr_in r) = minus;
  rj_cnt : cnt b (jr_read r) = o;
  rj_low : jr_seg r = 0 \/ jr_seg r * 2 ^ b + 4 <= jr_read r;
  rj_high : jr_read r <= (jr_seg r + 1) * 2 ^ b }.
Lemma limit_value r o : rj r o -> jr_limit r = (jr_seg r + 1) * 2 ^ b.
Proof. intros J. unfold jr_limit. rewrite (rj_b _ _ J), shl by lia. reflexivity. Qed.
Lemma marker_complete k : 1 <= k -> k * 2 ^ b < zlen f -> k * 2 ^ b + 4 < zlen f.
Proof.
  intros Hk L. pose proof (pow_big b Hb). destruct F as (_ & _ & [E|E]); [nia|].
  destruct (Z_lt_ge_dec (zlen f - 1) (k * 2 ^ b + 4)) as [U|U]; [|lia]. rewrite (marker_segment b k) in E; [discriminate|lia|lia|lia].
Qed.
Lemma pass_ok r o : rj r o -> exists r1, jr_pass r = (r1, Ok tt) /\ rj r1 o /\ in_sizes (jr_in r1) = in_sizes (jr_in r) /\
  (jr_read r1 < jr_limit r1 \/ jr_read r1 = zlen f).
Proof.
  intros J. pose proof (pow_big b Hb) as P. unfold jr_pass. rewrite (limit_value r o J).
  destruct (Z.eqb_spec (jr_read r) ((jr_seg r + 1) * 2 ^ b)) as [E|E].
  - destruct (Z.eq_dec (jr_read r) (zlen f)) as [U|U].
    + exists r. unfold jr_marker. rewrite (rj_rest _ _ J), U, skipn_all2 by (unfold zlen; lia). auto.
    + assert (M : jr_read r + 4 < zlen f). { rewrite E. apply marker_complete; destruct J; lia. }
      unfold jr_marker. pose proof (rj_rest _ _ J) as R. pose proof (rj_pos _ _ J) as Pp.
      assert (L : (4 < length (skipn (Z.to_nat (jr_read r)) f))%nat) by (rewrite skipn_length; unfold zlen in M; lia).
      assert (Sk : skipn 4 (skipn (Z.to_nat (jr_read r)) f) = skipn (Z.to_nat (jr_read r + 4)) f) by (rewrite skipn_skipn'; f_equal; lia).
      rewrite R. destruct (skipn (Z.to_nat (jr_read r)) f) as [|a0 [|a1 [|a2 [|a3 rest]]]]; cbn [length] in L; try lia. cbn [skipn] in Sk.
      eexists. split; [reflexivity|]. split; [|split; [reflexivity|]].
      * destruct J. constructor; cbn [jr_in jr_b jr_seg jr_read in_rest in_sizes in_minus]; try assumption; try lia.
        { assert (Cm : cnt b (jr_read r + 4) = cnt b (jr_read r)).
          { replace (jr_read r + 4) with (jr_read r + 1 + 1 + 1 + 1) by lia. rewrite !cnt_succ by lia. rewrite !(marker_segment b (jr_seg r + 1)) by lia. lia. }
          lia. }
      * left. unfold jr_limit. cbn [jr_in jr_b jr_seg jr_read]. rewrite (rj_b _ _ J), shl by lia. lia.
  - exists r. split; [reflexivity|]. split; [exact J|]. split; [reflexivity|]. left. rewrite (limit_value r o J). destruct J. lia.
Qed.
(** [n] more bytes of the segment *)
Lemma take_data r o n : rj r o -> 0 <= n -> jr_read r + n <= jr_limit r -> jr_read r + n <= zlen f ->
  sub f (jr_read r) (jr_read r + n) = firstn (Z.to_nat n) (skipn (Z.to_nat o) p) /\ cnt b (jr_read r + n) = o + n.
Proof.
  intros J Hn L1 L2. assert (L1' := L1). rewrite (limit_value r o J) in L1.
  assert (Dy : forall y, jr_read r <= y < jr_read r + n -> is_data b y = true) by (intros y Hy; destruct J; apply (data_segment b (jr_seg r)); lia).
  assert (C : forall k, Z.of_nat k <= n -> cnt b (jr_read r + Z.of_nat k) = o + Z.of_nat k).
  { induction k as [|k IH]; intros Hk; [rewrite !Z.add_0_r; apply (rj_cnt _ _ J)|]. rewrite Nat2Z.inj_succ, <- Z.add_1_r, Z.add_assoc, cnt_succ; [|assumption|destruct J; lia].
    rewrite IH, Dy by lia. lia. }
  specialize (C (Z.to_nat n) ltac:(lia)). rewrite Z2Nat.id in C by lia. split; [|exact C].
  pose proof (data_part b p f Hb F (jr_read r) (jr_read r + n) ltac:(destruct J; lia) L2) as D.
  rewrite data_from_all in D; [|intros y Hy; rewrite sub_length in Hy by (destruct J; lia); apply Dy; lia].
  rewrite D, C, (rj_cnt _ _ J). f_equal. lia.
Qed.
Lemma rj_move r o n i : rj r o -> 0 <= n -> jr_read r + n <= jr_limit r -> jr_read r + n <= zlen f ->
  in_rest i = skipn (Z.to_nat (jr_read r + n)) f -> in_minus i = minus -> rj (mkJR i (jr_b r) (jr_seg r) (jr_read r + n)) (o + n).
Proof.
  intros J Hn L1 L2 R M. destruct (take_data r o n J Hn L1 L2) as (_ & C). rewrite (limit_value r o J) in L1.
  destruct J. constructor; cbn [jr_in jr_b jr_seg jr_read]; try assumption; lia.
Qed.
Lemma at_end r o : rj r o -> jr_read r = zlen f -> o = zlen p /\ in_rest (jr_in r) = [] /\ skipn (Z.to_nat o) p = [].
Proof.
  intros J E. destruct (file_len b p f Hb F) as (_ & C). rewrite <- E, (rj_cnt _ _ J) in C. split; [exact C|]. split.
  - rewrite (rj_rest _ _ J), E. apply skipn_all2. unfold zlen. lia.
  - rewrite C. apply skipn_all2. unfold zlen. lia.
Qed.

(** ** read() *)
Lemma byte_ok r o : rj r o -> exists r1, jr_step r JNext = (r1, snd (jcursor_step p o JNext)) /\ rj r1 (fst (jcursor_step p o JNext)).
Proof.
  intros J. cbn [jr_step]. unfold jr_byte. destruct (pass_ok r o J) as (r1 & -> & J1 & _ & Q). destruct (Z.eq_dec (jr_read r1) (zlen f)) as [E|E].
  - destruct (at_end r1 o J1 E) as (Eo & Re & Sk). unfold in_byte. rewrite Re. cbn [jcursor_step]. rewrite Sk. cbn [fst snd]. eexists. split; [reflexivity|].
    destruct J1. constructor; cbn [jr_in jr_b jr_seg jr_read]; assumption.
  - assert (L : jr_read r1 < jr_limit r1) by (destruct Q; [assumption|contradiction]). pose proof (rj_pos _ _ J1) as Pp.
    destruct (take_data r1 o 1 J1 ltac:(lia) ltac:(lia) ltac:(lia)) as (T & _). unfold in_byte. rewrite (rj_rest _ _ J1).
    assert (Sk1 : skipn (Z.to_nat (jr_read r1 + 1)) f = tl (skipn (Z.to_nat (jr_read r1)) f)).
    { replace (Z.to_nat (jr_read r1 + 1)) with (Z.to_nat (jr_read r1) + 1)%nat by lia. rewrite <- skipn_skipn'. destruct (skipn (Z.to_nat (jr_read r1)) f); reflexivity. }
    unfold sub in T. replace (Z.to_nat (jr_read r1 + 1 - jr_read r1)) with 1%nat in T by lia. change (Z.to_nat 1) with 1%nat in T.
    destruct (skipn (Z.to_nat (jr_read r1)) f) as [|c rest] eqn:Ef.
    { exfalso. apply (f_equal (@length N)) in Ef. rewrite skipn_length in Ef. unfold zlen in *. cbn [length] in Ef. lia. }
    cbn [jcursor_step]. destruct (skipn (Z.to_nat o) p) as [|c' rest']; cbn [firstn] in T; [discriminate|]. assert (c' = c) by congruence. subst c'. cbn [fst snd].
    eexists. split; [reflexivity|]. apply (rj_move r1 o 1 _ J1); cbn [in_rest in_minus]; try lia; try apply (rj_minus _ _ J1). rewrite Sk1. reflexivity.
Qed.

(** ** read(byte[], int, int) *)
Definition answer (len left : Z) : Z := if 0 <? left then (if len =? left then -1 else len - left) else len.
Lemma in_read_some i n : in_rest i <> [] -> 1 <= n -> exists k, 1 <= k <= n /\ k <= zlen (in_rest i) /\
  exists i1, in_read i n = (i1, Some (firstn (Z.to_nat k) (in_rest i))) /\ in_rest i1 = skipn (Z.to_nat k) (in_rest i) /\ in_minus i1 = in_minus i.
Proof.
  intros Ne Hn. unfold in_read. destruct (in_rest i) as [|c rest] eqn:E; [contradiction|].
  set (k := match in_sizes i with [] => Z.to_nat n | s :: _ => Nat.min (Z.to_nat n) (Nat.max 1 s) end).
  assert (Hk : (1 <= k <= Z.to_nat n)%nat) by (unfold k; destruct (in_sizes i); lia).
  destruct (le_gt_dec k (length (c :: rest))) as [Q|Q].
  - exists (Z.of_nat k). rewrite Nat2Z.id. split; [lia|]. split; [unfold zlen; lia|]. eexists. split; [reflexivity|]. split; reflexivity.
  - exists (zlen (c :: rest)). split; [unfold zlen in *; cbn [length] in *; lia|]. split; [lia|]. unfold zlen. rewrite Nat2Z.id, firstn_all, skipn_all.
    rewrite firstn_all2, skipn_all2 by lia. eexists. split; [reflexivity|]. split; reflexivity.
Qed.
Lemma round_ok r1 o left : rj r1 o -> (jr_read r1 < jr_limit r1 \/ jr_read r1 = zlen f) -> jr_read r1 < zlen f -> 0 < left ->
  exists k i, 1 <= k <= left /\ o + k <= zlen p /\ in_read (jr_in r1) (Z.min left (jr_limit r1 - jr_read r1)) = (i, Some (firstn (Z.to_nat k) (skipn (Z.to_nat o) p))) /\
    zlen (firstn (Z.to_nat k) (skipn (Z.to_nat o) p)) = k /\ rj (mkJR i (jr_b r1) (jr_seg r1) (jr_read r1 + k)) (o + k).
Proof.
  intros J1 Q Lf Hl. assert (L : jr_read r1 < jr_limit r1) by (destruct Q; lia). pose proof (rj_pos _ _ J1) as Pp.
  assert (Re := rj_rest _ _ J1). destruct (in_read_some (jr_in r1) (Z.min left (jr_limit r1 - jr_read r1))) as (k & Hk & Lk & i & Ei & Ri & Mi).
  { rewrite Re. intros E0. apply (f_equal (@length N)) in E0. rewrite skipn_length in E0. unfold zlen in *. cbn [length] in E0. lia. }
  { lia. }
  rewrite Re in *. assert (Lz : k <= zlen f - jr_read r1) by (unfold zlen in *; rewrite skipn_length in Lk; lia).
  destruct (take_data r1 o k J1 ltac:(lia) ltac:(lia) ltac:(lia)) as (T & C). unfold sub in T. replace (Z.to_nat (jr_read r1 + k - jr_read r1)) with (Z.to_nat k) in T by lia.
  assert (Lx : zlen (firstn (Z.to_nat k) (skipn (Z.to_nat o) p)) = k). { rewrite <- T. unfold zlen in *. rewrite firstn_length. lia. }
  exists k, i. split; [lia|]. split.
  { destruct (file_len b p f Hb F) as (_ & Cf). rewrite <- Cf, <- C. apply cnt_mono; lia. }
  rewrite Ei, T. split; [reflexivity|]. split; [exact Lx|]. apply (rj_move r1 o k i J1); try lia; [|rewrite Mi; apply (rj_minus _ _ J1)].
  rewrite Ri, skipn_skipn'. f_equal. lia.
Qed.
Lemma o_nonneg r o : rj r o -> 0 <= o.
Proof. intros J. rewrite <- (rj_cnt _ _ J). rewrite <- (cnt_1 b Hb). apply cnt_mono; [assumption|]. destruct J. lia. Qed.
Lemma loop_ok len : forall fuel r o left got, rj r o -> 0 <= left -> left < Z.of_nat fuel ->
  (minus = true \/ zlen f mod 2 ^ b <> 0 \/ o + left <= zlen p) ->
  exists r1, jr_loop fuel r len left got =
    (r1, Ok (answer len (left - zlen (firstn (Z.to_nat left) (skipn (Z.to_nat o) p))), got ++ firstn (Z.to_nat left) (skipn (Z.to_nat o) p))) /\
    rj r1 (o + zlen (firstn (Z.to_nat left) (skipn (Z.to_nat o) p))).
Proof.
  pose proof (pow_big b Hb) as P. induction fuel as [|fuel IH]; intros r o left got J Hl Hf W; [lia|].
  cbn [jr_loop]. destruct (Z.ltb_spec 0 left) as [L0|L0].
  2:{ assert (left = 0) by lia. subst left. cbn [Z.to_nat firstn]. rewrite app_nil_r. exists r. split; [reflexivity|]. change (zlen (@nil N)) with 0. rewrite Z.add_0_r. exact J. }
  destruct (pass_ok r o J) as (r1 & -> & J1 & _ & Q). destruct (Z.eq_dec (jr_read r1) (zlen f)) as [E|E].
  - destruct (at_end r1 o J1 E) as (Eo & Re & Sk). rewrite Sk, firstn_nil, app_nil_r. change (zlen (@nil N)) with 0. rewrite Z.sub_0_r, Z.add_0_r.
    unfold in_read. rewrite Re.
    assert (R2 : rj (mkJR (jr_in r1) (jr_b r1) (jr_seg r1) (jr_read r1)) o) by (destruct J1; constructor; assumption).
    assert (A : answer len left = if len =? left then -1 else len - left) by (unfold answer; destruct (Z.ltb_spec 0 left); [reflexivity|lia]).
    destruct (Z.eqb_spec (Z.min left (jr_limit r1 - jr_read r1)) 0) as [M|M].
    + assert (jr_read r1 = jr_limit r1) by (rewrite (limit_value r1 o J1) in *; destruct J1; lia).
      assert (zlen f mod 2 ^ b = 0). { rewrite <- E, H, (limit_value r1 o J1). apply Z.mod_mul. lia. }
      rewrite (rj_minus _ _ J1). destruct W as [->|[W|W]]; [|contradiction|lia]. rewrite A. destruct (len =? left); eauto.
    + rewrite A. destruct (len =? left); eauto.
  - destruct (round_ok r1 o left J1 Q ltac:(destruct J1; lia) L0) as (k & i & Hk & Ok1 & -> & Lx & J2). rewrite Lx.
    destruct (IH _ (o + k) (left - k) (got ++ firstn (Z.to_nat k) (skipn (Z.to_nat o) p)) J2 ltac:(lia) ltac:(lia)) as (r3 & E3 & J3).
    { destruct W as [W|[W|W]]; [left|right; left|right; right]; try assumption; lia. }
    assert (Eq : firstn (Z.to_nat left) (skipn (Z.to_nat o) p) = firstn (Z.to_nat k) (skipn (Z.to_nat o) p) ++ firstn (Z.to_nat (left - k)) (skipn (Z.to_nat (o + k)) p)).
    { pose proof (o_nonneg r o J). replace (Z.to_nat (o + k)) with (Z.to_nat o + Z.to_nat k)%nat by lia. rewrite <- skipn_skipn'.
      replace (Z.to_nat left) with (Z.to_nat k + Z.to_nat (left - k))%nat by lia. generalize (skipn (Z.to_nat o) p) as l. intros l.
      rewrite <- (firstn_skipn (Z.to_nat k) l) at 1. rewrite firstn_app.
      rewrite (firstn_all2 (firstn (Z.to_nat k) l)) by (rewrite firstn_length; lia). f_equal.
      destruct (le_gt_dec (Z.to_nat k) (length l)) as [U|U].
      - f_equal. rewrite firstn_length. lia.
      - rewrite skipn_all2 by lia. rewrite !firstn_nil. reflexivity. }
    exists r3. rewrite E3, Eq, zlen_app, Lx, app_assoc. split.
    + f_equal. f_equal. f_equal. f_equal. lia.
    + rewrite Z.add_assoc. exact J3.
Qed.
Lemma loop_hangs len : minus = false -> zlen f mod 2 ^ b = 0 -> forall fuel r o left got, rj r o -> zlen p < o + left -> 0 < left ->
  snd (jr_loop fuel r len left got) = Err OutOfFuel.
Proof.
  intros Mi Z0. pose proof (pow_big b Hb) as P. induction fuel as [|fuel IH]; intros r o left got J Hl L0.
  { cbn [jr_loop]. destruct (Z.ltb_spec 0 left); [reflexivity|lia]. }
  cbn [jr_loop]. destruct (Z.ltb_spec 0 left) as [_|U]; [|lia].
  destruct (pass_ok r o J) as (r1 & -> & J1 & _ & Q). destruct (Z.eq_dec (jr_read r1) (zlen f)) as [E|E].
  - destruct (at_end r1 o J1 E) as (Eo & Re & Sk). unfold in_read. rewrite Re.
    assert (Lm : jr_limit r1 = jr_read r1).
    { rewrite (limit_value r1 o J1). apply Z.mod_divide in Z0; [|lia]. destruct Z0 as (q & Eq). rewrite E in *. destruct J1. rewrite E, Eq in *.
      assert (q <= jr_seg r1 + 1) by nia. assert (jr_seg r1 < q) by (destruct rj_low0; nia). f_equal. lia. }
    replace (Z.min left (jr_limit r1 - jr_read r1)) with 0 by lia. cbn [Z.eqb]. rewrite (rj_minus _ _ J1), Mi. change (zlen (@nil N)) with 0.
    apply (IH _ o); [|lia|lia]. rewrite Z.add_0_r. destruct J1. constructor; assumption.
  - destruct (round_ok r1 o left J1 Q ltac:(destruct J1; lia) L0) as (k & i & Hk & Ok1 & -> & Lx & J2). rewrite Lx. apply (IH _ (o + k)); [exact J2|lia|lia].
Qed.
Lemma step_ok r o c : rj r o -> ends_well b p f minus o c -> exists r1, jr_step r c = (r1, snd (jcursor_step p o c)) /\ rj r1 (fst (jcursor_step p o c)).
Proof.
  destruct c as [|len]; intros J W; [apply (byte_ok r o J)|]. destruct W as (Hl & W). cbn [jr_step jcursor_step fst snd]. unfold jr_read_bytes.
  destruct (loop_ok len (S (Z.to_nat len)) r o len [] J Hl ltac:(lia) W) as (r1 & E & J1). rewrite E. exists r1. split; [|exact J1].
  f_equal. f_equal. f_equal. cbn [app]. f_equal. set (x := firstn (Z.to_nat len) (skipn (Z.to_nat o) p)). assert (zlen x <= len) by (unfold x, zlen; rewrite firstn_length; lia).
  pose proof (zlen_nn x). unfold answer. destruct (Z.ltb_spec 0 (len - zlen x)), (Z.eqb_spec len (len - zlen x)), (Z.ltb_spec 0 len), (Z.eqb_spec (zlen x) 0); cbn [andb]; lia.
Qed.
Lemma ops_ok : forall cs r o, rj r o -> all_end_well b p f minus o cs -> jr_ops r cs = jcursor_ops p o cs.
Proof.
  induction cs as [|c cs IH]; intros r o J W; [reflexivity|]. destruct W as (W1 & W2). destruct (step_ok r o c J W1) as (r1 & E & J1).
  cbn [jr_ops jcursor_ops]. rewrite E. destruct (jcursor_step p o c) as (o1 & x). cbn [fst snd] in *. f_equal. apply (IH _ _ J1 W2).
Qed.
Lemma rj_open sizes : b <= 30 -> exists r, jr_open (mkIn f sizes minus) = Ok r /\ rj r 0.
Proof.
  intros Hb2. pose proof (pow_big b Hb) as P. destruct (file_cons b p f F) as (rest & E & D). destruct (file_len b p f Hb F) as (Lf & _). unfold jr_open, in_byte. cbn [in_rest]. rewrite E. cbn [in_sizes in_minus].
  rewrite Z2N.id by lia. destruct (Z.ltb_spec b 12); [lia|]. destruct (Z.ltb_spec 30 b); [lia|]. cbn [orb]. eexists. split; [reflexivity|].
  constructor; cbn [jr_in jr_b jr_seg jr_read in_rest in_minus]; try reflexivity; try lia.
  - rewrite E. reflexivity.
  - apply cnt_1. assumption.
Qed.
(** states reached by calls that end *)
Lemma runs_to : forall cs r o, rj r o -> all_end_well b p f minus o cs ->
  exists r1, fold_left (fun r c => fst (jr_step r c)) cs r = r1 /\ rj r1 (fold_left (fun o c => fst (jcursor_step p o c)) cs o).
Proof.
  induction cs as [|c cs IH]; intros r o J W; cbn [fold_left]; [eauto|]. destruct W as (W1 & W2). destruct (step_ok r o c J W1) as (r1 & E & J1). rewrite E. cbn [fst].
  apply (IH _ _ J1 W2).
Qed.
End Read.

Theorem java_reads b p f sizes minus : 12 <= b <= 30 -> boundary_file b p f ->
  exists r, jr_open (mkIn f sizes minus) = Ok r /\ forall cs, all_end_well b p f minus 0 cs -> jr_ops r cs = jcursor_ops p 0 cs.
Proof.
  intros Hb F. destruct (rj_open b p f minus ltac:(lia) F sizes ltac:(lia)) as (r & E & J). exists r. split; [exact E|]. intros cs W. apply (ops_ok b p f minus ltac:(lia) F cs r 0 J W).
Qed.
Theorem java_hangs b p f sizes cs len : 12 <= b <= 30 -> boundary_file b p f -> zlen f mod 2 ^ b = 0 -> all_end_well b p f false 0 cs ->
  zlen p < fold_left (fun o c => fst (jcursor_step p o c)) cs 0 + len -> 0 < len ->
  exists r, jr_open (mkIn f sizes false) = Ok r /\
    forall fuel, snd (jr_read_bytes fuel (fold_left (fun r c => fst (jr_step r c)) cs r) len) = Err OutOfFuel.
Proof.
  intros Hb F Z0 W L L0. destruct (rj_open b p f false ltac:(lia) F sizes ltac:(lia)) as (r & E & J). exists r. split; [exact E|]. intros fuel.
  destruct (runs_to b p f false ltac:(lia) F cs r 0 J W) as (r1 & -> & J1). apply (loop_hangs b p f false ltac:(lia) F len eq_refl Z0 fuel r1 _ len [] J1 L L0).
Qed.
(** ** computeLength *)
Lemma cnt_outside b x : 12 <= b -> outside_markers b x -> cnt b x = x - 1 - 4 * (x / 2 ^ b) + (if x =? x / 2 ^ b * 2 ^ b then 4 else 0).
Proof.
  intros Hb (H1 & H2). pose proof (pow_big b Hb) as P. destruct (quot (2 ^ b) x ltac:(lia) ltac:(lia)) as (q & Hq & Hr & D & M). unfold cnt. rewrite M in *. rewrite D in *. clear D M.
  destruct (Z.ltb_spec x (2 ^ b)).
  - assert (q = 0) by nia. subst q. destruct (Z.eqb_spec x (0 * 2 ^ b)); lia.
  - destruct (H2 ltac:(lia)) as [E|E]; destruct (Z.eqb_spec x (q * 2 ^ b)); lia.
Qed.
Theorem length_ok b start stop : 12 <= b <= 30 -> outside_markers b start -> outside_markers b stop -> start <= stop ->
  compute_length b start stop = data_below b stop - data_below b start.
Proof.
  intros Hb O1 O2 L. rewrite !data_below_cnt by (destruct O1, O2; lia). rewrite !cnt_outside by (lia || assumption). unfold compute_length.
  rewrite !shl, !shr by lia. destruct (Z.eqb_spec start (start / 2 ^ b * 2 ^ b)), (Z.eqb_spec stop (stop / 2 ^ b * 2 ^ b)); lia.
Qed.
(** ** available *)
Lemma before_limit b x : 12 <= b -> 1 < x -> x mod 2 ^ b = 0 -> before_marker b (cnt b x - 1).
Proof.
  intros Hb Hx M. pose proof (pow_big b Hb) as P. exists (x - 1). destruct (quot (2 ^ b) x ltac:(lia) ltac:(lia)) as (q & Hq & Hr & D & M1). rewrite M in M1. clear D.
  assert (1 <= q) by nia. assert (Dx : is_data b (x - 1) = true) by (apply (data_segment b (q - 1)); nia).
  split; [exact Dx|]. split; [|rewrite Z.sub_add; exact M].
  rewrite data_below_cnt by lia. replace x with (x - 1 + 1) at 2 by lia. rewrite cnt_succ, Dx by lia. lia.
Qed.
Theorem available_ok b p f sizes minus cs : 12 <= b <= 30 -> boundary_file b p f -> all_end_well b p f minus 0 cs ->
  let o := fold_left (fun o c => fst (jcursor_step p o c)) cs 0 in ~ before_marker b (o - 1) ->
  exists r, jr_open (mkIn f sizes minus) = Ok r /\ let a := jr_available (fold_left (fun r c => fst (jr_step r c)) cs r) in
    0 <= a /\ o + a <= zlen p /\ (o < zlen p -> 0 < a) /\ (o + a = zlen p \/ before_marker b (o + a - 1)).
Proof.
  intros Hb F W o Nb. destruct (rj_open b p f minus ltac:(lia) F sizes ltac:(lia)) as (r & E & J). exists r. split; [exact E|].
  destruct (runs_to b p f minus ltac:(lia) F cs r 0 J W) as (r1 & -> & J1). fold o in J1. cbn zeta. pose proof (pow_big b ltac:(lia)) as P.
  destruct (file_len b p f ltac:(lia) F) as (Lf & Cf). unfold jr_available. rewrite (limit_value b f minus ltac:(lia) r1 o J1).
  assert (Ll := limit_value b f minus ltac:(lia) r1 o J1).
  assert (Lr : zlen (in_rest (jr_in r1)) = zlen f - jr_read r1).
  { rewrite (rj_rest _ _ _ _ _ J1). unfold zlen. rewrite skipn_length. destruct J1. unfold zlen in *. lia. }
  rewrite Lr. destruct (Z.eqb_spec (jr_read r1) ((jr_seg r1 + 1) * 2 ^ b)) as [Q|Q].
  { exfalso. apply Nb. rewrite <- (rj_cnt _ _ _ _ _ J1). apply before_limit; [lia| |rewrite Q; apply Z.mod_mul; lia]. destruct J1. nia. }
  set (a := Z.min (jr_read r1 + (zlen f - jr_read r1)) ((jr_seg r1 + 1) * 2 ^ b) - jr_read r1).
  assert (Ha : 0 <= a) by (destruct J1; lia).
  destruct (take_data b p f minus ltac:(lia) F r1 o a J1 Ha ltac:(lia) ltac:(lia)) as (_ & C).
  split; [exact Ha|]. split; [rewrite <- Cf, <- C; apply cnt_mono; destruct J1; lia|]. split.
  - intros L. assert (jr_read r1 <> zlen f). { intros U. destruct (at_end b p f minus ltac:(lia) F r1 o J1 U). lia. } destruct J1. lia.
  - destruct (Z_le_gt_dec (zlen f) ((jr_seg r1 + 1) * 2 ^ b)) as [U|U].
    + left. rewrite <- C, <- Cf. f_equal. lia.
    + right. rewrite <- C. apply before_limit; [lia|destruct J1; lia|]. replace (jr_read r1 + a) with ((jr_seg r1 + 1) * 2 ^ b) by lia. apply Z.mod_mul. lia.
Qed.
