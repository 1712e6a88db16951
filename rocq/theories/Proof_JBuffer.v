(** The buffer of bytes collects what is written. *)
From Verif Require Import PyBase PyBaseFacts Model_JBuffer Spec_JBuffer Proof_Msgpack.
Local Open Scope Z_scope.

Record ob_ok (b : obuf) (c : list N) : Prop := {
  oo_size : 0 < ob_size b;
  oo_full : Forall (fun x => zlen x = ob_size b) (ob_full b);
  oo_cur : zlen (ob_cur b) = ob_size b;
  oo_pos : 0 <= ob_pos b <= ob_size b;
  oo_bytes : c = List.concat (ob_full b) ++ firstn (Z.to_nat (ob_pos b)) (ob_cur b);
  oo_written : ob_written b = wrap32 (zlen c) }.
Lemma zlen_app {A} (a b : list A) : zlen (a ++ b) = zlen a + zlen b.
Proof. unfold zlen. rewrite app_length. lia. Qed.
Lemma wrap32_id z : -2147483648 <= z < 2147483648 -> wrap32 z = z.
Proof. intros H. unfold wrap32. rewrite Z.mod_small by lia. lia. Qed.
Lemma wrap32_add a n : wrap32 (wrap32 a + n) = wrap32 (a + n).
Proof. unfold wrap32. replace ((a + 2147483648) mod 4294967296 - 2147483648 + n + 2147483648) with ((a + 2147483648) mod 4294967296 + n) by lia. rewrite Zplus_mod_idemp_l. do 2 f_equal. lia. Qed.
Lemma zlen_repeat {A} (x : A) n : 0 <= n -> zlen (repeat x (Z.to_nat n)) = n.
Proof. intros H. unfold zlen. rewrite repeat_length. lia. Qed.
Lemma zlen_firstn {A} n (l : list A) : 0 <= n <= zlen l -> zlen (firstn (Z.to_nat n) l) = n.
Proof. intros H. unfold zlen in *. rewrite firstn_length. lia. Qed.
Lemma zlen_skipn {A} n (l : list A) : 0 <= n <= zlen l -> zlen (skipn (Z.to_nat n) l) = zlen l - n.
Proof. intros H. unfold zlen in *. rewrite skipn_length. lia. Qed.
Lemma firstn_app_exact {A} (a b : list A) n : zlen a = n -> firstn (Z.to_nat n) (a ++ b) = a.
Proof. intros <-. unfold zlen. rewrite Nat2Z.id, firstn_app, firstn_all, Nat.sub_diag. cbn [firstn]. apply app_nil_r. Qed.
Lemma ob_new_ok n : 0 < n -> exists b, ob_new n = Ok b /\ ob_ok b [].
Proof.
  intros H. unfold ob_new, new_bytes. destruct (Z.ltb_spec n 0); [lia|]. cbn [rbind]. eexists. split; [reflexivity|]. split; cbn [ob_size ob_full ob_cur ob_pos ob_written]; try lia; try constructor; try reflexivity. apply zlen_repeat; lia.
Qed.
Lemma arraycopy_ok src so dst d0 n : 0 <= so -> 0 <= d0 -> 0 <= n -> so + n <= zlen src -> d0 + n <= zlen dst ->
  arraycopy src so dst d0 n = Ok (firstn (Z.to_nat d0) dst ++ firstn (Z.to_nat n) (skipn (Z.to_nat so) src) ++ skipn (Z.to_nat (d0 + n)) dst).
Proof.
  intros. unfold arraycopy. destruct (Z.ltb_spec so 0); [lia|]. destruct (Z.ltb_spec d0 0); [lia|]. destruct (Z.ltb_spec n 0); [lia|]. destruct (Z.ltb_spec (zlen src) (so + n)); [lia|]. destruct (Z.ltb_spec (zlen dst) (d0 + n)); [lia|]. reflexivity.
Qed.
Lemma ob_turn_ok b c : ob_ok b c -> ob_ok (ob_turn b) c /\ ob_pos (ob_turn b) < ob_size (ob_turn b) /\ ob_size (ob_turn b) = ob_size b.
Proof.
  intros [O1 O2 O3 O4 O5 O6]. unfold ob_turn. destruct (Z.eqb_spec (ob_pos b) (zlen (ob_cur b))) as [E|E].
  - split; [|cbn [ob_pos ob_size]; lia]. split; cbn [ob_size ob_full ob_cur ob_pos ob_written]; try assumption; try lia.
    + apply Forall_app. split; [assumption|]. constructor; [assumption|constructor].
    + apply zlen_repeat. lia.
    + rewrite O5, concat_app. cbn [List.concat firstn Z.to_nat]. rewrite E. unfold zlen. rewrite Nat2Z.id, firstn_all, !app_nil_r. reflexivity.
  - split; [split; assumption|]. lia.
Qed.
Lemma upd_nth_split {A} (l : list A) k x : (k < length l)%nat -> firstn (Datatypes.S k) (upd_nth l k x) = firstn k l ++ [x] /\ length (upd_nth l k x) = length l.
Proof.
  revert k. induction l as [|y l IH]; intros [|k] H; cbn [length upd_nth firstn app] in *; try lia; [split; reflexivity|]. destruct (IH k ltac:(lia)) as [I1 I2]. rewrite <- I1, I2. split; reflexivity.
Qed.
Lemma ob_write1_ok b c x : ob_ok b c -> exists b', ob_write1 b x = (b', Ok tt) /\ ob_ok b' (c ++ [Z.to_N (x mod 256)]) /\ ob_size b' = ob_size b.
Proof.
  intros H. destruct (ob_turn_ok b c H) as ([O1 O2 O3 O4 O5 O6] & P & Sz). unfold ob_write1. set (b1 := ob_turn b) in *. destruct (Z.leb_spec (zlen (ob_cur b1)) (ob_pos b1)); [lia|]. eexists. split; [reflexivity|].
  destruct (upd_nth_split (ob_cur b1) (Z.to_nat (ob_pos b1)) (Z.to_N (x mod 256))) as [U1 U2]; [unfold zlen in *; lia|].
  split; [|exact Sz]. split; cbn [ob_size ob_full ob_cur ob_pos ob_written]; try assumption; try lia.
  - unfold zlen in *. rewrite U2. assumption.
  - rewrite O5 at 1. rewrite <- app_assoc. f_equal. replace (Z.to_nat (ob_pos b1 + 1)) with (Datatypes.S (Z.to_nat (ob_pos b1))) by lia. symmetry. exact U1.
  - rewrite zlen_app, O6. apply wrap32_add.
Qed.
Lemma skipn_add {A} (l : list A) a b : skipn (b + a) l = skipn b (skipn a l).
Proof. revert l. induction a as [|a IH]; intros l; [rewrite Nat.add_0_r; reflexivity|]. rewrite <- plus_n_Sm. destruct l as [|x l]; [cbn [skipn]; destruct b; reflexivity|]. cbn [skipn]. apply IH. Qed.
Lemma firstn_skipn_join {A} (l : list A) a b c : 0 <= a -> 0 <= b -> 0 <= c -> firstn (Z.to_nat b) (skipn (Z.to_nat a) l) ++ firstn (Z.to_nat c) (skipn (Z.to_nat (a + b)) l) = firstn (Z.to_nat (b + c)) (skipn (Z.to_nat a) l).
Proof.
  intros Ha Hb Hc. rewrite !Z2Nat.inj_add by assumption. rewrite (Nat.add_comm (Z.to_nat a)), skipn_add. generalize (skipn (Z.to_nat a) l). intros q. generalize (Z.to_nat b), (Z.to_nat c). intros m n. revert q.
  induction m as [|m IH]; intros q; [reflexivity|]. destruct q as [|x q]; [rewrite skipn_nil, !firstn_nil; reflexivity|]. cbn [firstn skipn app Nat.add]. f_equal. apply IH.
Qed.
(** the loop: what is left is copied, or all that there is *)
Lemma ob_loop_ok fuel data offset len : 0 <= offset -> offset + len <= zlen data -> zlen data < 2147483648 -> forall left_ b c, 0 <= left_ <= len -> (Z.to_nat left_ <= fuel)%nat -> ob_ok b c -> (0 < left_ -> ob_pos b < ob_size b) ->
  exists b', ob_loop fuel data offset len left_ b = (b', Ok tt) /\ ob_ok b' (c ++ firstn (Z.to_nat left_) (skipn (Z.to_nat (offset + (len - left_))) data)) /\ ob_size b' = ob_size b.
Proof.
  intros Ho Hl Hd. induction fuel as [|fuel IH]; intros left_ b c Hleft Hf K Hp.
  - assert (left_ = 0) by lia. subst left_. cbn [ob_loop]. exists b. split; [reflexivity|]. cbn [Z.to_nat firstn]. rewrite app_nil_r. auto.
  - cbn [ob_loop]. destruct (Z.leb_spec left_ 0) as [L|L].
    + assert (left_ = 0) by lia. subst left_. exists b. split; [reflexivity|]. cbn [Z.to_nat firstn]. rewrite app_nil_r. auto.
    + specialize (Hp L). destruct K as [O1 O2 O3 O4 O5 O6]. set (n := Z.min (zlen (ob_cur b) - ob_pos b) left_). assert (Hn : 0 < n <= left_ /\ ob_pos b + n <= ob_size b) by (unfold n; lia).
      rewrite wrap32_id by lia. rewrite arraycopy_ok by lia. set (cur := firstn _ _ ++ _ ++ _). set (b1 := mkOB _ _ cur _ _).
      set (piece := firstn (Z.to_nat n) (skipn (Z.to_nat (offset + (len - left_))) data)).
      assert (Lp : zlen piece = n) by (unfold piece; apply zlen_firstn; rewrite zlen_skipn by lia; lia).
      assert (K1 : ob_ok b1 (c ++ piece)).
      { split; cbn [b1 ob_size ob_full ob_cur ob_pos ob_written]; try assumption; try lia.
        - unfold cur. fold piece. rewrite !zlen_app, Lp, zlen_firstn, zlen_skipn by lia. lia.
        - rewrite O5 at 1. rewrite <- app_assoc. f_equal. unfold cur. fold piece. rewrite app_assoc. symmetry. apply firstn_app_exact. rewrite zlen_app, Lp, zlen_firstn by lia. reflexivity.
        - rewrite zlen_app, Lp, O6. apply wrap32_add. }
      assert (R : exists b', ob_loop fuel data offset len (left_ - n) (if 0 <? left_ - n then ob_turn b1 else b1) = (b', Ok tt) /\ ob_ok b' ((c ++ piece) ++ firstn (Z.to_nat (left_ - n)) (skipn (Z.to_nat (offset + (len - (left_ - n)))) data)) /\ ob_size b' = ob_size b).
      { destruct (Z.ltb_spec 0 (left_ - n)).
        - destruct (ob_turn_ok b1 _ K1) as (T1 & T2 & T3). destruct (IH (left_ - n) (ob_turn b1) (c ++ piece)) as (b' & E & Kb & Sb); [lia|lia|exact T1|auto|]. exists b'. split; [exact E|]. split; [exact Kb|]. rewrite Sb, T3. reflexivity.
        - destruct (IH (left_ - n) b1 (c ++ piece)) as (b' & E & Kb & Sb); [lia|lia|exact K1|lia|]. exists b'. split; [exact E|]. split; [exact Kb|]. rewrite Sb. reflexivity. }
      destruct R as (b' & E & Kb & Sb). exists b'. split; [exact E|]. split; [|exact Sb].
      replace (c ++ firstn (Z.to_nat left_) (skipn (Z.to_nat (offset + (len - left_))) data)) with ((c ++ piece) ++ firstn (Z.to_nat (left_ - n)) (skipn (Z.to_nat (offset + (len - (left_ - n)))) data)); [exact Kb|].
      rewrite <- app_assoc. f_equal. unfold piece. replace (offset + (len - (left_ - n))) with ((offset + (len - left_)) + n) by lia. rewrite firstn_skipn_join by lia. replace (n + (left_ - n)) with left_ by lia. reflexivity.
Qed.
Lemma ob_write_ok b c data offset len : ob_ok b c -> len <= 0 \/ 0 <= offset /\ offset + len <= zlen data -> zlen data < 2147483648 ->
  exists b', ob_write b data offset len = (b', Ok tt) /\ ob_ok b' (c ++ firstn (Z.to_nat len) (skipn (Z.to_nat offset) data)) /\ ob_size b' = ob_size b.
Proof.
  intros K H Hd. destruct (ob_turn_ok b c K) as (T1 & T2 & T3). unfold ob_write, ob_write_fuel. destruct (Z.leb_spec len 0) as [L|L].
  - exists (ob_turn b). cbn [ob_loop]. destruct (Z.leb_spec len 0); [|lia]. split; [reflexivity|]. replace (Z.to_nat len) with 0%nat by lia. cbn [firstn]. rewrite app_nil_r. auto.
  - destruct H as [H|[H1 H2]]; [lia|]. destruct (ob_loop_ok (Datatypes.S (Z.to_nat len)) data offset len H1 H2 Hd len (ob_turn b) c) as (b' & E & Kb & Sb); [lia|lia|exact T1|auto|]. exists b'. split; [exact E|].
    replace (offset + (len - len)) with offset in Kb by lia. split; [exact Kb|congruence].
Qed.
(** reading *)
Lemma collect_ok bufs : forall out pos left_, 0 <= pos -> 0 <= left_ <= zlen (List.concat bufs) -> pos + left_ = zlen out -> ob_collect bufs out pos left_ = Ok (firstn (Z.to_nat pos) out ++ firstn (Z.to_nat left_) (List.concat bufs)).
Proof.
  induction bufs as [|x bufs IH]; intros out pos left_ Hp Hl He; cbn [ob_collect].
  - change (zlen (List.concat (@nil (list N)))) with 0 in Hl. assert (left_ = 0) by lia. subst left_. cbn [Z.leb]. cbn [Z.to_nat firstn]. rewrite app_nil_r. replace (Z.to_nat pos) with (length out) by (unfold zlen in He; lia). rewrite firstn_all. reflexivity.
  - destruct (Z.leb_spec left_ 0).
    + assert (left_ = 0) by lia. subst left_. cbn [Z.to_nat firstn]. rewrite app_nil_r. replace (Z.to_nat pos) with (length out) by (unfold zlen in He; lia). rewrite firstn_all. reflexivity.
    + cbn [List.concat] in Hl. rewrite zlen_app in Hl. set (n := Z.min (zlen x) left_). pose proof (zlen_nonneg x). assert (Hn : 0 <= n <= left_ /\ n <= zlen x) by (unfold n; lia).
      rewrite arraycopy_ok by lia. cbn [rbind Z.to_nat skipn]. set (out' := _ ++ _ ++ _).
      assert (Lo : zlen out' = zlen out) by (unfold out'; rewrite !zlen_app, !zlen_firstn, zlen_skipn by lia; lia).
      rewrite IH; [|lia|pose proof (zlen_nonneg (List.concat bufs)); unfold n; lia|lia]. f_equal. assert (E : firstn (Z.to_nat (pos + n)) out' = firstn (Z.to_nat pos) out ++ firstn (Z.to_nat n) x).
      { unfold out'. rewrite app_assoc. apply firstn_app_exact. rewrite zlen_app, !zlen_firstn by lia. reflexivity. }
      rewrite E, <- app_assoc. f_equal. cbn [List.concat]. rewrite firstn_app. unfold n. destruct (Z.min_spec (zlen x) left_) as [[M1 M2]|[M1 M2]]; rewrite M2.
      * f_equal; [unfold zlen; rewrite Nat2Z.id, firstn_all, firstn_all2 by (unfold zlen in *; lia); reflexivity|]. f_equal. unfold zlen in *. lia.
      * f_equal. replace (Z.to_nat (left_ - left_)) with 0%nat by lia. replace (Z.to_nat left_ - length x)%nat with 0%nat by (unfold zlen in *; lia). reflexivity.
Qed.
Lemma ob_holds b c : ob_ok b c -> zlen c < 2147483648 -> holds b c.
Proof.
  intros [O1 O2 O3 O4 O5 O6] O7. pose proof (zlen_nonneg c). rewrite wrap32_id in O6 by lia. split; [|exact O6]. unfold ob_array, new_bytes. rewrite O6. destruct (Z.ltb_spec (zlen c) 0); [lia|]. cbn [rbind].
  assert (Ec : List.concat (ob_full b ++ [ob_cur b]) = List.concat (ob_full b) ++ ob_cur b) by (rewrite concat_app; cbn [List.concat]; rewrite app_nil_r; reflexivity).
  assert (Ef : c = firstn (Z.to_nat (zlen c)) (List.concat (ob_full b) ++ ob_cur b)).
  { rewrite <- (firstn_skipn (Z.to_nat (ob_pos b)) (ob_cur b)), app_assoc, <- O5. symmetry. apply firstn_app_exact. reflexivity. }
  rewrite collect_ok.
  - cbn [Z.to_nat firstn app]. rewrite Ec. f_equal. symmetry. exact Ef.
  - lia.
  - rewrite Ec. split; [lia|]. rewrite zlen_app, O3. rewrite O5, zlen_app, zlen_firstn by lia. lia.
  - rewrite zlen_repeat by lia. lia.
Qed.
Lemma bop_run_ok b c o : ob_ok b c -> bop_ok o -> piece_ok o -> exists b', bop_run b o = (b', Ok tt) /\ ob_ok b' (c ++ bop_bytes o) /\ ob_size b' = ob_size b.
Proof.
  intros K Ho Hp. destruct o as [x|data|data offset len|]; cbn [bop_run bop_bytes bop_ok piece_ok] in *.
  - apply ob_write1_ok; assumption.
  - destruct (ob_write_ok b c data 0 (zlen data) K) as (b' & E & K' & S'); [right; lia|lia|]. exists b'. split; [exact E|]. unfold zlen in K' at 1. rewrite Nat2Z.id in K'. cbn [Z.to_nat skipn] in K'. rewrite firstn_all in K'. auto.
  - apply ob_write_ok; assumption.
  - exists b. rewrite app_nil_r. auto.
Qed.
Lemma bops_run_ok l : forall b c, ob_ok b c -> Forall bop_ok l -> Forall piece_ok l -> exists b', bops_run b l = (b', Ok tt) /\ ob_ok b' (c ++ List.concat (map bop_bytes l)).
Proof.
  induction l as [|o l IH]; intros b c K F P; cbn [bops_run map List.concat] in *.
  - exists b. rewrite app_nil_r. auto.
  - inversion F; inversion P; subst. destruct (bop_run_ok b c o K) as (b1 & E & K1 & _); [assumption|assumption|]. rewrite E.
    destruct (IH b1 (c ++ bop_bytes o) K1) as (b' & E' & K'); [assumption|assumption|]. exists b'. rewrite <- app_assoc in K'. auto.
Qed.
Theorem buffer_collects n l : 0 < n -> Forall bop_ok l -> Forall piece_ok l -> zlen (List.concat (map bop_bytes l)) < 2147483648 ->
  exists b0 b, ob_new n = Ok b0 /\ bops_run b0 l = (b, Ok tt) /\ holds b (List.concat (map bop_bytes l)).
Proof.
  intros Hn F P L. destruct (ob_new_ok n Hn) as (b0 & E0 & K0). destruct (bops_run_ok l b0 [] K0 F P) as (b & E & K). exists b0, b. split; [assumption|]. split; [assumption|]. apply ob_holds; assumption.
Qed.
(** a range outside the array *)
Lemma ob_loop_out fuel data offset len : 0 <= offset < 2147483648 -> zlen data < offset + len -> zlen data < 2147483648 -> forall left_ b c, 0 < left_ <= len -> offset + (len - left_) < 2147483648 -> (Z.to_nat left_ <= fuel)%nat -> ob_ok b c -> ob_pos b < ob_size b ->
  exists b' k, ob_loop fuel data offset len left_ b = (b', Err IndexError) /\ (k < Z.to_nat left_)%nat /\ ob_ok b' (c ++ firstn k (skipn (Z.to_nat (offset + (len - left_))) data)).
Proof.
  intros Ho Hl Hd. induction fuel as [|fuel IH]; intros left_ b c Hleft Hi Hf K Hp; [lia|].
  cbn [ob_loop]. destruct (Z.leb_spec left_ 0) as [L|L]; [lia|]. pose proof K as [O1 O2 O3 O4 O5 O6]. set (n := Z.min (zlen (ob_cur b) - ob_pos b) left_). assert (Hn : 0 < n <= left_ /\ ob_pos b + n <= ob_size b) by (unfold n; lia).
  rewrite wrap32_id by lia. destruct (Z.ltb_spec (zlen data) (offset + (len - left_) + n)) as [F|F].
  - exists b, 0%nat. split.
    + unfold arraycopy. destruct (Z.ltb_spec (zlen data) (offset + (len - left_) + n)); [|lia]. rewrite !Bool.orb_true_r. reflexivity.
    + split; [lia|]. cbn [firstn]. rewrite app_nil_r. exact K.
  - rewrite arraycopy_ok by lia. set (cur := firstn _ _ ++ _ ++ _). set (b1 := mkOB _ _ cur _ _).
    set (piece := firstn (Z.to_nat n) (skipn (Z.to_nat (offset + (len - left_))) data)).
    assert (Lp : zlen piece = n) by (unfold piece; apply zlen_firstn; rewrite zlen_skipn by lia; lia).
    assert (K1 : ob_ok b1 (c ++ piece)).
    { split; cbn [b1 ob_size ob_full ob_cur ob_pos ob_written]; try assumption; try lia.
      - unfold cur. fold piece. rewrite !zlen_app, Lp, zlen_firstn, zlen_skipn by lia. lia.
      - rewrite O5 at 1. rewrite <- app_assoc. f_equal. unfold cur. fold piece. rewrite app_assoc. symmetry. apply firstn_app_exact. rewrite zlen_app, Lp, zlen_firstn by lia. reflexivity.
      - rewrite zlen_app, Lp, O6. apply wrap32_add. }
    destruct (Z.ltb_spec 0 (left_ - n)); [|lia]. destruct (ob_turn_ok b1 _ K1) as (T1 & T2 & T3).
    destruct (IH (left_ - n) (ob_turn b1) (c ++ piece)) as (b' & k & E & Hk & Kb); [lia|lia|lia|exact T1|exact T2|].
    exists b', (Z.to_nat n + k)%nat. split; [exact E|]. split; [lia|].
    replace (c ++ firstn (Z.to_nat n + k) (skipn (Z.to_nat (offset + (len - left_))) data)) with ((c ++ piece) ++ firstn k (skipn (Z.to_nat (offset + (len - (left_ - n)))) data)); [exact Kb|].
    rewrite <- app_assoc. f_equal. unfold piece. replace (offset + (len - (left_ - n))) with ((offset + (len - left_)) + n) by lia. replace k with (Z.to_nat (Z.of_nat k)) by lia. rewrite firstn_skipn_join by lia. f_equal. lia.
Qed.
Lemma ob_write_out b c data offset len : ob_ok b c -> -2147483648 <= offset < 2147483648 -> 0 < len -> offset < 0 \/ zlen data < offset + len -> zlen data < 2147483648 ->
  exists b' k, ob_write b data offset len = (b', Err IndexError) /\ (k < Z.to_nat len)%nat /\ ob_ok b' (c ++ firstn k (skipn (Z.to_nat offset) data)).
Proof.
  intros K Ho Hl H Hd. destruct (ob_turn_ok b c K) as (T1 & T2 & T3). unfold ob_write, ob_write_fuel. destruct (Z.ltb_spec offset 0) as [L|L].
  - exists (ob_turn b), 0%nat. split; [|split; [lia|cbn [firstn]; rewrite app_nil_r; exact T1]]. cbn [ob_loop]. destruct (Z.leb_spec len 0); [lia|]. rewrite Z.sub_diag, Z.add_0_r, wrap32_id by lia. unfold arraycopy. destruct (Z.ltb_spec offset 0); [|lia]. reflexivity.
  - destruct H as [H|H]; [lia|]. destruct (ob_loop_out (Datatypes.S (Z.to_nat len)) data offset len ltac:(lia) H Hd len (ob_turn b) c) as (b' & k & E & Hk & Kb); [lia|lia|lia|exact T1|exact T2|].
    exists b', k. split; [exact E|]. split; [exact Hk|]. replace (offset + (len - len)) with offset in Kb by lia. exact Kb.
Qed.
Theorem buffer_outside n l data offset len : 0 < n -> Forall bop_ok l -> Forall piece_ok l -> -2147483648 <= offset < 2147483648 -> 0 < len -> offset < 0 \/ zlen data < offset + len -> zlen data < 2147483648 -> zlen (List.concat (map bop_bytes l)) + len < 2147483648 ->
  exists b0 b k, ob_new n = Ok b0 /\ bops_run b0 (l ++ [WSlice data offset len]) = (b, Err IndexError) /\ (k < Z.to_nat len)%nat /\ holds b (List.concat (map bop_bytes l) ++ firstn k (skipn (Z.to_nat offset) data)).
Proof.
  intros Hn F P Ho Hl H Hd L. destruct (ob_new_ok n Hn) as (b0 & E0 & K0). destruct (bops_run_ok l b0 [] K0 F P) as (b & E & K). destruct (ob_write_out b _ data offset len K Ho Hl H Hd) as (b' & k & E' & Hk & K').
  exists b0, b', k. split; [assumption|]. split; [|split; [assumption|apply ob_holds; [exact K'|]; cbn [app]; rewrite zlen_app; unfold zlen in *; rewrite firstn_length; lia]].
  clear - E E'. revert b0 E. induction l as [|o l IH]; intros b0 E; cbn [bops_run app] in *.
  - inversion E; subst. cbn [bop_run]. rewrite E'. reflexivity.
  - destruct (bop_run b0 o) as [b1 [u|e]]; [|discriminate E]. apply IH. exact E.
Qed.
(** buffers of no bytes *)
Theorem buffer_none fuel data : data <> [] -> exists b0, ob_new 0 = Ok b0 /\ snd (ob_write_fuel fuel b0 data 0 (zlen data)) = Err OutOfFuel.
Proof.
  intros H. exists (mkOB 0 [] [] 0 0). split; [reflexivity|]. unfold ob_write_fuel. change (ob_turn (mkOB 0 [] [] 0 0)) with (mkOB 0 [[]] [] 0 0).
  assert (P : 0 < zlen data) by (destruct data; [congruence|unfold zlen; cbn [length]; lia]). generalize [@nil N]. induction fuel as [|fuel IH]; intros full; cbn [ob_loop]; destruct (Z.leb_spec (zlen data) 0); try lia; [reflexivity|].
  cbn [ob_cur ob_pos ob_size ob_full ob_written]. change (zlen (@nil N) - 0) with 0. rewrite Z.min_l by lia. rewrite Z.sub_diag. change (wrap32 (0 + 0)) with 0. rewrite arraycopy_ok by (first [lia | vm_compute; discriminate]). cbn [Z.to_nat firstn skipn app Z.add]. rewrite Z.sub_0_r. destruct (Z.ltb_spec 0 (zlen data)); [|lia].
  unfold ob_turn. cbn [ob_cur ob_pos ob_size ob_full ob_written]. change (0 =? zlen (@nil N)) with true. cbn iota. cbn [Z.to_nat repeat]. change (wrap32 0) with 0. apply IH.
Qed.
(** DeflateCodec *)
Lemma write_piece b c out : ob_ok b c -> (length out <= 1024)%nat -> exists b', ob_write b (out ++ repeat 0%N (1024 - length out)) 0 (zlen out) = (b', Ok tt) /\ ob_ok b' (c ++ out).
Proof.
  intros K L. assert (Z : zlen (out ++ repeat 0%N (1024 - length out)) = 1024) by (unfold zlen; rewrite app_length, repeat_length; lia).
  destruct (ob_write_ok b c (out ++ repeat 0%N (1024 - length out)) 0 (zlen out) K) as (b' & E & K' & _); [right; unfold zlen in *; lia|lia|]. exists b'. split; [exact E|]. cbn [Z.to_nat skipn] in K'. rewrite firstn_app_exact in K' by reflexivity. exact K'.
Qed.
Lemma zcopy_ok {St} (step : St -> res (list N * St)) finished st l st' : zpieces step finished st l st' -> forall b c fuel, ob_ok b c ->
  exists b', ob_ok b' (c ++ List.concat l) /\ zcopy (length l + fuel) step finished st b = (if finished st' then ob_array b' else zcopy fuel step finished st' b').
Proof.
  induction 1 as [st out st1 E L|st out st1 l st' E L F Z IH]; intros b c fuel K; cbn [List.concat length Nat.add zcopy] in *; rewrite E.
  - destruct (write_piece b c out K L) as (b' & W & K'). rewrite W. exists b'. rewrite app_nil_r. auto.
  - destruct (write_piece b c out K L) as (b1 & W & K1). rewrite W, F. destruct (IH b1 (c ++ out) fuel K1) as (b' & K' & E'). exists b'. rewrite <- app_assoc in K'. auto.
Qed.
Theorem deflate_collects {St : Type} (step : St -> res (list N * St)) finished st l st' fuel : zpieces step finished st l st' -> finished st' = true -> zlen (List.concat l) < 2147483648 -> (length l <= fuel)%nat ->
  zrun fuel step finished st = Ok (List.concat l).
Proof.
  intros Z F L Hf. destruct (ob_new_ok 1024 ltac:(lia)) as (b0 & E0 & K0). unfold zrun. rewrite E0. cbn [rbind]. replace fuel with (length l + (fuel - length l))%nat by lia. destruct (zcopy_ok step finished st l st' Z b0 [] (fuel - length l)%nat K0) as (b' & K' & E'). rewrite E', F. apply (ob_holds b' _ K' L).
Qed.
Theorem deflate_stuck {St : Type} (step : St -> res (list N * St)) finished st l st' : zpieces step finished st l st' -> finished st' = false -> step st' = Ok ([], st') ->
  forall fuel, (length l <= fuel)%nat -> zrun fuel step finished st = Err OutOfFuel.
Proof.
  intros Z F Q fuel Hf. destruct (ob_new_ok 1024 ltac:(lia)) as (b0 & E0 & K0). unfold zrun. rewrite E0. cbn [rbind]. replace fuel with (length l + (fuel - length l))%nat by lia. destruct (zcopy_ok step finished st l st' Z b0 [] (fuel - length l)%nat K0) as (b' & K' & E'). rewrite E', F.
  generalize (fuel - length l)%nat. clear - Q F K'. cbn [app] in K'. intros n. revert b' K'. induction n as [|n IH]; intros b' K'; cbn [zcopy]; [reflexivity|]. rewrite Q.
  destruct (write_piece b' _ [] K') as (b2 & W & K2); [cbn; lia|]. rewrite W, F. apply IH. rewrite app_nil_r in K2. exact K2.
Qed.
Theorem deflate_broken {St : Type} (step : St -> res (list N * St)) finished st l st' e fuel : zpieces step finished st l st' -> finished st' = false -> step st' = Err e -> (length l < fuel)%nat ->
  zrun fuel step finished st = Err IOError.
Proof.
  intros Z F Q Hf. destruct (ob_new_ok 1024 ltac:(lia)) as (b0 & E0 & K0). unfold zrun. rewrite E0. cbn [rbind]. replace fuel with (length l + (fuel - length l))%nat by lia. destruct (zcopy_ok step finished st l st' Z b0 [] (fuel - length l)%nat K0) as (b' & K' & E'). rewrite E', F.
  destruct (fuel - length l)%nat eqn:D; [lia|]. cbn [zcopy]. rewrite Q. reflexivity.
Qed.
(** more than an int can count *)
Theorem buffer_too_much n l : 0 < n -> Forall bop_ok l -> Forall piece_ok l -> 2147483648 <= zlen (List.concat (map bop_bytes l)) < 4294967296 ->
  exists b0 b, ob_new n = Ok b0 /\ bops_run b0 l = (b, Ok tt) /\ ob_array b = Err ValueError /\ ob_length b < 0.
Proof.
  intros Hn F P L. destruct (ob_new_ok n Hn) as (b0 & E0 & K0). destruct (bops_run_ok l b0 [] K0 F P) as (b & E & K). exists b0, b. split; [assumption|]. split; [assumption|]. destruct K as [_ _ _ _ _ W]. cbn [app] in W.
  assert (B : ob_written b < 0). { rewrite W. unfold wrap32. set (z := zlen _) in *. replace ((z + 2147483648) mod 4294967296) with (z - 2147483648); [lia|]. rewrite <- (Z.mod_small (z - 2147483648) 4294967296) by lia. replace (z + 2147483648) with (z - 2147483648 + 1 * 4294967296) by lia. rewrite Z_mod_plus_full. reflexivity. }
  split; [|exact B]. unfold ob_array, new_bytes. destruct (Z.ltb_spec (ob_written b) 0); [reflexivity|lia].
Qed.
