(** Proofs for C87: the Java writer. *)
From Verif Require Import PyBase PyBaseFacts Model_Msgpack Model_Collection Model_Boundary Model_JBoundary Spec_Boundary Spec_JBoundary Proof_Boundary.
Local Open Scope Z_scope.

(** ** the same file as in Python *)
Lemma jw_marker_same w w1 : bw_marker w = (w1, Ok tt) -> jw_marker w = w1.
Proof.
  unfold bw_marker, jw_marker. destruct (Z.shiftl (Z.shiftr (bw_written w) (bw_b w)) (bw_b w) =? bw_written w); [|discriminate].
  set (d := bw_last w - bw_written w).
  replace (if d <=? -2147483648 then -2147483648 else d) with (if d <? -2147483648 then -2147483648 else d)
    by (destruct (Z.ltb_spec d (-2147483648)), (Z.leb_spec d (-2147483648)); lia).
  set (e := if d <? -2147483648 then -2147483648 else d). unfold pack_i32, write_int.
  destruct ((-2147483648 <=? e) && (e <=? 2147483647)); [|discriminate]. intros E. congruence.
Qed.
Lemma jw_loop_same b xs data : 12 <= b -> forall fuel w p pos left, winv b w p xs -> 0 <= pos -> 0 < left -> pos + left = zlen data ->
  jw_loop fuel w data pos left (jw_max w left) = bw_loop fuel w data pos left (bw_max w left).
Proof.
  intros Hb. pose proof (pow_big b Hb) as P. change jw_max with bw_max. induction fuel as [|fuel IH]; intros w p pos left W Hp Hl E.
  { reflexivity. }
  cbn [jw_loop bw_loop]. replace (0 <? left) with true by (symmetry; apply Z.ltb_lt; lia). rewrite (max_value b w p xs) in * by assumption.
  assert (Hi := wi_high _ _ _ _ W). set (m := Z.min ((bw_seg w + 1) * 2 ^ b - bw_written w) left) in *. assert (Hm : 0 <= m <= left) by lia.
  rewrite py_slice_in by lia.
  assert (Ls : zlen (sub data pos (pos + m)) = m) by (rewrite sub_length; lia).
  pose proof (winv_data b w p xs (sub data pos (pos + m)) Hb W ltac:(lia)) as W1. rewrite Ls in W1.
  set (w1 := mkBW (bw_out w ++ sub data pos (pos + m)) (bw_b w) (bw_written w + m) (bw_last w) (bw_seg w)) in *.
  destruct (Z.ltb_spec 0 (left - m)) as [Q|Q]; [|reflexivity].
  assert (Em : m = (bw_seg w + 1) * 2 ^ b - bw_written w) by lia.
  destruct (winv_marker b w1 _ xs Hb W1) as (w2 & E2 & W2 & P2 & S2); [cbn [w1 bw_written bw_seg]; lia|]. rewrite E2, (jw_marker_same _ _ E2).
  apply (IH w2 _ _ _ W2); lia.
Qed.
Lemma jw_write_same b w p xs d : 12 <= b -> winv b w p xs -> jw_write w d = bw_write w d.
Proof.
  intros Hb W. unfold jw_write, bw_write. destruct d as [|c d]; [reflexivity|].
  apply (jw_loop_same b xs (c :: d) Hb _ w p); try assumption; unfold zlen; cbn [length]; lia.
Qed.
Lemma jw_run_same b : 12 <= b -> forall es w p xs, winv b w p xs -> tight b w -> no_single es -> jw_run w es = bw_run w (map in_python es).
Proof.
  intros Hb. induction es as [|e es IH]; intros w p xs W T NS; [reflexivity|].
  assert (NS1 : no_single es) by (intros c I; apply (NS c); right; exact I).
  destruct e as [d|c|]; cbn [jw_run bw_run map in_python].
  - rewrite (jw_write_same b w p xs d Hb W). destruct (bw_write_ok b w p xs d Hb W T) as (w1 & E1 & W1 & T1). rewrite E1. apply (IH w1 _ _ W1 T1 NS1).
  - exfalso. apply (NS c). left. reflexivity.
  - apply (IH (bw_split w) p _ (winv_split b w p xs Hb W) T NS1).
Qed.
Lemma jw_open_same b : jw_open b = bw_open b.
Proof.
  unfold jw_open, bw_open. change (0 + 1) with 1. destruct (Z.leb_spec 12 b), (Z.leb_spec b 30), (Z.ltb_spec b 12), (Z.ltb_spec 30 b); cbn; try reflexivity; lia.
Qed.
Theorem same_file b es : no_single es ->
  jw_open b = bw_open b /\ forall w, bw_open b = Ok w -> jw_run w es = bw_run w (map in_python es).
Proof.
  intros NS. split; [apply jw_open_same|]. intros w E. assert (Hb : 12 <= b <= 30).
  { unfold bw_open in E. destruct (Z.leb_spec 12 b); [|discriminate]. destruct (Z.leb_spec b 30); [|discriminate]. lia. }
  destruct (winv_open b Hb) as (w' & E' & W & T). assert (w' = w) by congruence. subst w'. apply (jw_run_same b ltac:(lia) es w [] [1] W T NS).
Qed.

(** ** single bytes *)
Record jinv (b : Z) (w : bwriter) (q : list N) : Prop := {
  ji_b : bw_b w = b;
  ji_first : nth_error (bw_out w) 0 = Some (Z.to_N b);
  ji_len : zlen (bw_out w) = bw_written w;
  ji_data : data_from b 0 (bw_out w) = q;
  ji_seg : 0 <= bw_seg w;
  ji_pos : 1 <= bw_written w;
  ji_low : bw_seg w = 0 \/ bw_seg w * 2 ^ b + 4 <= bw_written w;
  ji_high : bw_written w <= (bw_seg w + 1) * 2 ^ b;
  ji_le : bw_last w <= bw_written w }.
Lemma write_int_len d : zlen (write_int d) = 4.
Proof. reflexivity. Qed.
Lemma write_int_first d : -2147483648 <= d <= 0 -> exists m r, write_int d = m :: r /\ zlen r = 3 /\ (m = 0 \/ 128 <= m)%N.
Proof.
  intros H. unfold write_int. eexists _, _. split; [reflexivity|]. split; [reflexivity|].
  destruct (Z.eq_dec d 0) as [->|Q]; [left; reflexivity|right]. assert (E : d mod 4294967296 = d + 4294967296) by (symmetry; apply (Z.mod_unique_pos _ _ (-1)); lia).
  rewrite E. rewrite !Z.div_div by lia. change (256 * (256 * 256)) with 16777216. assert (128 <= (d + 4294967296) / 16777216 < 256).
  { split; [apply Z.div_le_lower_bound|apply Z.div_lt_upper_bound]; lia. }
  rewrite Z.mod_small by lia. lia.
Qed.
Lemma marker_value w : bw_last w <= bw_written w -> exists d, jw_marker w = mkBW (bw_out w ++ write_int d) (bw_b w) (bw_written w + 4) (bw_last w) (bw_seg w + 1) /\ -2147483648 <= d <= 0.
Proof.
  intros L. unfold jw_marker. eexists. split; [reflexivity|]. destruct (Z.ltb_spec (bw_last w - bw_written w) (-2147483648)); lia.
Qed.
Lemma jinv_first b w q (d : list N) : jinv b w q -> nth_error (bw_out w ++ d) 0 = Some (Z.to_N b).
Proof. intros J. rewrite nth_error_app1; [apply (ji_first _ _ _ J)|]. apply nth_error_Some. rewrite (ji_first _ _ _ J). discriminate. Qed.
Lemma jinv_data b w q d : 12 <= b -> jinv b w q -> bw_written w + zlen d <= (bw_seg w + 1) * 2 ^ b ->
  jinv b (mkBW (bw_out w ++ d) (bw_b w) (bw_written w + zlen d) (bw_last w) (bw_seg w)) (q ++ d).
Proof.
  intros Hb J L. assert (J' := J). pose proof (zlen_nn d) as Nd. destruct J. constructor; cbn [bw_out bw_b bw_written bw_last bw_seg]; try assumption; try lia.
  - apply (jinv_first b w q d J').
  - rewrite zlen_app. lia.
  - rewrite data_from_app, ji_data0. f_equal. rewrite ji_len0. apply data_from_all. intros y Hy. apply (data_segment b (bw_seg w)); lia.
Qed.
Lemma jinv_marker b w q : 12 <= b -> jinv b w q -> bw_written w = (bw_seg w + 1) * 2 ^ b -> jinv b (jw_marker w) q.
Proof.
  intros Hb J L. assert (J' := J). destruct (marker_value w (ji_le _ _ _ J)) as (d & -> & Hd). pose proof (pow_big b Hb). destruct J.
  constructor; cbn [bw_out bw_b bw_written bw_last bw_seg]; try assumption; try lia.
  - apply (jinv_first b w q _ J').
  - rewrite zlen_app, write_int_len. lia.
  - rewrite data_from_app, ji_data0, data_from_none, app_nil_r; [reflexivity|]. rewrite write_int_len. intros y Hy. apply (marker_segment b (bw_seg w + 1)); lia.
Qed.
Lemma jinv_count b w q : 12 <= b -> jinv b w q -> zlen q = cnt b (bw_written w).
Proof.
  intros Hb J. destruct J. destruct (bw_out w) as [|x out]; [discriminate|]. rewrite <- ji_data0. cbn [data_from].
  replace (is_data b 0) with false by reflexivity. rewrite data_from_length by lia. rewrite cnt_1 by assumption. rewrite <- ji_len0.
  unfold zlen. cbn [length]. replace (0 + 1 + Z.of_nat (length out)) with (Z.of_nat (S (length out))) by lia. rewrite Z.sub_0_r. reflexivity.
Qed.
Lemma jw_loop_jinv b data : 12 <= b -> forall fuel w q pos left, jinv b w q -> 0 <= pos -> 0 < left -> pos + left = zlen data ->
  left + (if jw_max w left =? 0 then 1 else 0) <= Z.of_nat fuel ->
  exists w1, jw_loop fuel w data pos left (jw_max w left) = (w1, Ok tt) /\ jinv b w1 (q ++ sub data pos (zlen data)).
Proof.
  intros Hb. pose proof (pow_big b Hb) as P. induction fuel as [|fuel IH]; intros w q pos left W Hp Hl E F.
  { destruct (jw_max w left =? 0); lia. }
  cbn [jw_loop]. replace (0 <? left) with true by (symmetry; apply Z.ltb_lt; lia).
  assert (MV : forall w q l, jinv b w q -> jw_max w l = Z.min ((bw_seg w + 1) * 2 ^ b - bw_written w) l).
  { intros w' q' l' J'. unfold jw_max. rewrite (ji_b _ _ _ J'), shl by lia. reflexivity. }
  rewrite (MV w q left W) in *.
  assert (Hi := ji_high _ _ _ W). set (m := Z.min ((bw_seg w + 1) * 2 ^ b - bw_written w) left) in *. assert (Hm : 0 <= m <= left) by lia.
  assert (Ls : zlen (sub data pos (pos + m)) = m) by (rewrite sub_length; lia).
  pose proof (jinv_data b w q (sub data pos (pos + m)) Hb W ltac:(lia)) as W1. rewrite Ls in W1.
  set (w1 := mkBW (bw_out w ++ sub data pos (pos + m)) (bw_b w) (bw_written w + m) (bw_last w) (bw_seg w)) in *.
  destruct (Z.ltb_spec 0 (left - m)) as [Q|Q].
  - assert (Em : m = (bw_seg w + 1) * 2 ^ b - bw_written w) by lia.
    pose proof (jinv_marker b w1 _ Hb W1 ltac:(cbn [w1 bw_written bw_seg]; lia)) as W2.
    assert (P2 : bw_written (jw_marker w1) = bw_seg (jw_marker w1) * 2 ^ b + 4) by (cbn [jw_marker bw_written bw_seg w1]; lia).
    destruct (IH (jw_marker w1) _ (pos + m) (left - m) W2) as (w3 & E3 & W3); [lia|lia|lia| |].
    { rewrite (MV _ _ (left - m) W2), P2. destruct (Z.eqb_spec (Z.min ((bw_seg (jw_marker w1) + 1) * 2 ^ b - (bw_seg (jw_marker w1) * 2 ^ b + 4)) (left - m)) 0); [lia|]. destruct (Z.eqb_spec m 0); lia. }
    cbv zeta. rewrite E3. exists w3. split; [reflexivity|]. rewrite <- app_assoc in W3. rewrite sub_app in W3 by lia. exact W3.
  - exists w1. split; [reflexivity|]. assert (Em : m = left) by lia. rewrite <- E, <- Em. exact W1.
Qed.
Lemma jw_write_jinv b w q d : 12 <= b -> jinv b w q -> exists w1, jw_write w d = (w1, Ok tt) /\ jinv b w1 (q ++ d).
Proof.
  intros Hb W. unfold jw_write. destruct d as [|c d].
  - cbn. exists w. rewrite app_nil_r. auto.
  - destruct (jw_loop_jinv b (c :: d) Hb (S (length (c :: d))) w q 0 (zlen (c :: d)) W) as (w1 & E1 & W1); try lia.
    + unfold zlen. cbn [length]. lia.
    + destruct (jw_max w (zlen (c :: d)) =? 0); unfold zlen; lia.
    + exists w1. rewrite sub_full in W1. auto.
Qed.
(** one byte: in its place, or in a marker *)
Lemma jw_byte_jinv b w q c : 12 <= b -> jinv b w q ->
  (exists m, (m = 0 \/ 128 <= m)%N /\ jinv b (jw_byte w c) (q ++ [m]) /\ before_marker b (zlen q)) \/
  (jinv b (jw_byte w c) (q ++ [c]) /\ ~ before_marker b (zlen q)).
Proof.
  intros Hb J. pose proof (pow_big b Hb) as P. assert (J' := J). unfold jw_byte. rewrite (ji_b _ _ _ J), shr by lia.
  pose proof (jinv_count b w q Hb J) as Cq.
  destruct (Z.ltb_spec (bw_seg w) ((bw_written w + 1) / 2 ^ b)) as [L|L].
  - assert (bw_seg w + 1 <= (bw_written w + 1) / 2 ^ b) by lia.
    assert (Lo : (bw_seg w + 1) * 2 ^ b <= bw_written w + 1). { pose proof (Z.mul_div_le (bw_written w + 1) (2 ^ b) ltac:(lia)). nia. }
    pose proof (ji_high _ _ _ J) as Hi. destruct (Z.eq_dec (bw_written w) ((bw_seg w + 1) * 2 ^ b)) as [E|E].
    + right. pose proof (jinv_marker b w q Hb J E) as J1. split.
      * refine (jinv_data b (jw_marker w) q [c] Hb J1 _).
        unfold zlen. cbn [length jw_marker bw_written bw_seg]. lia.
      * intros (x & Dx & Bx & Mx). assert (1 <= x) by (apply is_data_iff in Dx; lia). rewrite data_below_cnt in Bx by lia. rewrite Cq in Bx.
        assert (Eq : x = bw_written w + 4).
        { destruct (Z_lt_ge_dec x (bw_written w)) as [U|U].
          - pose proof (cnt_lt b x (bw_written w) Hb ltac:(lia) Dx). lia.
          - destruct (Z_lt_ge_dec x (bw_written w + 4)) as [V|V].
            + exfalso. rewrite (marker_segment b (bw_seg w + 1) x) in Dx; [discriminate|lia| |lia]. destruct J. lia.
            + destruct (Z.eq_dec x (bw_written w + 4)); [assumption|]. exfalso.
              assert (D4 : is_data b (bw_written w + 4) = true) by (apply (data_segment b (bw_seg w + 1)); destruct J; lia).
              pose proof (cnt_lt b (bw_written w + 4) x Hb ltac:(destruct J; lia) D4).
              pose proof (cnt_mono b (bw_written w) (bw_written w + 4) Hb ltac:(destruct J; lia)). lia. }
        rewrite Eq, E in Mx. replace ((bw_seg w + 1) * 2 ^ b + 4 + 1) with (5 + (bw_seg w + 1) * 2 ^ b) in Mx by lia. rewrite Z.mod_add, Z.mod_small in Mx by lia. lia.
    + left. assert (E1 : bw_written w = (bw_seg w + 1) * 2 ^ b - 1) by lia.
      destruct (marker_value w (ji_le _ _ _ J)) as (d & Ed & Hd). rewrite Ed. destruct (write_int_first d Hd) as (m & r & Em & Lr & Hm). exists m. split; [exact Hm|].
      assert (Dw : is_data b (bw_written w) = true). { apply (data_segment b (bw_seg w)); destruct J; try lia. }
      cbn [bw_out bw_b bw_written bw_last bw_seg]. split.
      * destruct J. constructor; cbn [bw_out bw_b bw_written bw_last bw_seg]; try assumption; try lia.
        -- rewrite <- app_assoc. apply (jinv_first b w q _ J').
        -- rewrite !zlen_app, write_int_len. unfold zlen at 2. cbn [length]. lia.
        -- rewrite <- app_assoc, data_from_app, ji_data0. f_equal. rewrite ji_len0, Em. cbn [app data_from].
           replace (0 + bw_written w) with (bw_written w) by lia. rewrite Dw. f_equal. apply data_from_none. rewrite zlen_app. unfold zlen at 2. cbn [length].
           intros y Hy. apply (marker_segment b (bw_seg w + 1)); lia.
      * exists (bw_written w). split; [exact Dw|]. split; [rewrite data_below_cnt by (destruct J; lia); symmetry; exact Cq|].
        rewrite E1. replace ((bw_seg w + 1) * 2 ^ b - 1 + 1) with ((bw_seg w + 1) * 2 ^ b) by lia. apply Z.mod_mul. lia.
  - right. assert (Hlt : bw_written w + 1 < (bw_seg w + 1) * 2 ^ b).
    { destruct (Z_lt_ge_dec (bw_written w + 1) ((bw_seg w + 1) * 2 ^ b)); [assumption|]. exfalso.
      assert (bw_seg w + 1 <= (bw_written w + 1) / 2 ^ b) by (apply Z.div_le_lower_bound; lia). lia. }
    split.
    + refine (jinv_data b w q [c] Hb J _). unfold zlen. cbn [length]. lia.
    + intros (x & Dx & Bx & Mx). assert (1 <= x) by (apply is_data_iff in Dx; lia). rewrite data_below_cnt in Bx by lia. rewrite Cq in Bx.
      assert (Dw : is_data b (bw_written w) = true). { apply (data_segment b (bw_seg w)); destruct J; try lia. }
      assert (Eq : x = bw_written w).
      { destruct (Z_lt_ge_dec x (bw_written w)) as [U|U].
        - pose proof (cnt_lt b x (bw_written w) Hb ltac:(lia) Dx). lia.
        - destruct (Z.eq_dec x (bw_written w)); [assumption|]. pose proof (cnt_lt b (bw_written w) x Hb ltac:(destruct J; lia) Dw). lia. }
      rewrite Eq in Mx. destruct J. destruct (div_between (2 ^ b) (bw_seg w) (bw_written w + 1)) as [_ M]; [lia|lia|]. rewrite M in Mx. lia.
Qed.
(** the file of a program: [p] is what was written, [q] what is in the file *)
Definition damage (b : Z) (fl : list bool) (p q : list N) : Prop :=
  length q = length p /\ length fl = length p /\
  forall i c, nth_error p i = Some c ->
    (nth_error fl i = Some true /\ before_marker b (Z.of_nat i) -> exists m, nth_error q i = Some m /\ (m = 0 \/ 128 <= m)%N) /\
    (~ (nth_error fl i = Some true /\ before_marker b (Z.of_nat i)) -> nth_error q i = Some c).
Lemma damage_app b fl p q fl2 p2 q2 : damage b fl p q -> length q2 = length p2 -> length fl2 = length p2 ->
  (forall i c, nth_error p2 i = Some c ->
    (nth_error fl2 i = Some true /\ before_marker b (Z.of_nat (length p + i)) -> exists m, nth_error q2 i = Some m /\ (m = 0 \/ 128 <= m)%N) /\
    (~ (nth_error fl2 i = Some true /\ before_marker b (Z.of_nat (length p + i))) -> nth_error q2 i = Some c)) ->
  damage b (fl ++ fl2) (p ++ p2) (q ++ q2).
Proof.
  intros (L1 & L2 & D) M1 M2 D2. split; [rewrite !app_length; lia|]. split; [rewrite !app_length; lia|]. intros i c Hi.
  destruct (lt_dec i (length p)) as [U|U].
  - rewrite nth_error_app1 in Hi by lia. rewrite !nth_error_app1 by lia. apply (D i c Hi).
  - rewrite nth_error_app2 in Hi by lia. rewrite !nth_error_app2 by lia. rewrite L1, L2. replace i with (length p + (i - length p))%nat at 2 4 by lia. apply (D2 _ c Hi).
Qed.
Lemma jw_run_jinv b : 12 <= b -> forall es w fl p q, jinv b w q -> damage b fl p q ->
  exists w1 q1, jw_run w es = (w1, Ok tt) /\ jinv b w1 q1 /\ damage b (fl ++ singly es) (p ++ jev_bytes es) q1.
Proof.
  intros Hb. induction es as [|e es IH]; intros w fl p q J D.
  - exists w, q. cbn. rewrite !app_nil_r. auto.
  - destruct e as [d|c|]; cbn [jw_run jev_bytes singly].
    + destruct (jw_write_jinv b w q d Hb J) as (w1 & E1 & J1). rewrite E1.
      destruct (IH w1 (fl ++ repeat false (length d)) (p ++ d) (q ++ d) J1) as (w2 & q2 & E2 & J2 & D2).
      { apply damage_app; [exact D|reflexivity|apply repeat_length|]. intros i c Hi. split.
        - intros [H _]. exfalso. apply nth_error_In, repeat_spec in H. discriminate.
        - intros _. exact Hi. }
      exists w2, q2. rewrite !app_assoc. auto.
    + assert (Lq : zlen q = Z.of_nat (length p + 0)) by (destruct D as (L & _); unfold zlen; lia).
      destruct (jw_byte_jinv b w q c Hb J) as [(m & Hm & J1 & B)|(J1 & B)].
      * destruct (IH (jw_byte w c) (fl ++ [true]) (p ++ [c]) (q ++ [m]) J1) as (w2 & q2 & E2 & J2 & D2).
        { apply damage_app; [exact D|reflexivity|reflexivity|]. intros [|i] c' Hi; [|destruct i; discriminate]. rewrite <- Lq. split.
          - intros _. exists m. split; [reflexivity|exact Hm].
          - intros H. exfalso. apply H. split; [reflexivity|exact B]. }
        exists w2, q2. rewrite <- !app_assoc in D2. auto.
      * destruct (IH (jw_byte w c) (fl ++ [true]) (p ++ [c]) (q ++ [c]) J1) as (w2 & q2 & E2 & J2 & D2).
        { apply damage_app; [exact D|reflexivity|reflexivity|]. intros [|i] c' Hi; [|destruct i; discriminate]. rewrite <- Lq. split.
          - intros [_ H]. contradiction.
          - intros _. exact Hi. }
        exists w2, q2. rewrite <- !app_assoc in D2. auto.
    + apply (IH (jw_split w) fl p q); [|exact D]. destruct J. constructor; cbn [jw_split bw_out bw_b bw_written bw_last bw_seg]; try assumption; lia.
Qed.
Theorem single_bytes b es : 12 <= b <= 30 -> exists w w1, jw_open b = Ok w /\ jw_run w es = (w1, Ok tt) /\
  nth_error (bw_out w1) 0 = Some (Z.to_N b) /\ length (data_from b 0 (bw_out w1)) = length (jev_bytes es) /\
  forall i c, nth_error (jev_bytes es) i = Some c ->
    (nth_error (singly es) i = Some true /\ before_marker b (Z.of_nat i) -> exists m, nth_error (data_from b 0 (bw_out w1)) i = Some m /\ (m = 0 \/ 128 <= m)%N) /\
    (~ (nth_error (singly es) i = Some true /\ before_marker b (Z.of_nat i)) -> nth_error (data_from b 0 (bw_out w1)) i = Some c).
Proof.
  intros Hb. rewrite jw_open_same. destruct (winv_open b Hb) as (w & E & W & T). exists w.
  assert (J : jinv b w []). { destruct W. constructor; assumption. }
  destruct (jw_run_jinv b ltac:(lia) es w [] [] [] J) as (w1 & q & E1 & J1 & (L1 & L2 & D)).
  { split; [reflexivity|]. split; [reflexivity|]. intros [|i] c H; discriminate. }
  exists w1. split; [exact E|]. split; [exact E1|]. split; [apply (ji_first _ _ _ J1)|]. rewrite (ji_data _ _ _ J1). split; [exact L1|exact D].
Qed.
