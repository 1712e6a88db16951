(** Proofs about sequence_to_textspans. *)
From Verif Require Import PyBase PyBaseFacts Model_Heap Model_Layer Model_Text Spec_Text Proof_Text Model_Algorithm Spec_Algorithm.
From Coq Require Import Sorting.Sorted.
Local Open Scope Z_scope.

Lemma occurs_sub raw t p : 0 <= p -> occurs raw t p <-> p + zlen t <= zlen raw /\ sub raw p (p + zlen t) = t.
Proof.
  intros P. split.
  - intros (a & b & -> & E). pose proof (zlen_nonneg b) as B. unfold zlen in *. rewrite !app_length. split; [lia|].
    unfold sub. replace (Z.to_nat p) with (length a) by lia. rewrite skipn_app, skipn_all, Nat.sub_diag. simpl.
    replace (Z.to_nat (p + Z.of_nat (length t) - p)) with (length t) by lia. rewrite firstn_app, firstn_all, Nat.sub_diag. simpl. apply app_nil_r.
  - intros (B & E). exists (sub raw 0 p), (sub raw (p + zlen t) (zlen raw)). pose proof (zlen_nonneg t) as T. split.
    + rewrite <- E at 1. rewrite app_assoc. rewrite sub_app by lia. rewrite sub_app by lia. symmetry. apply sub_full.
    + rewrite sub_length by lia. lia.
Qed.
Lemma occurs_nonneg raw t p : occurs raw t p -> 0 <= p /\ p + zlen t <= zlen raw.
Proof. intros O. assert (0 <= p) by (destruct O as (a & b & _ & <-); apply zlen_nonneg). split; [auto|]. apply occurs_sub in O; tauto. Qed.

Section Find.
Variables (raw : pystr) (stop : option Z).
Let cut := py_slice raw None stop.
Lemma cut_eq : cut = sub raw 0 (slice_stop (zlen raw) stop).
Proof. unfold cut, py_slice. reflexivity. Qed.
Lemma lim_range : 0 <= slice_stop (zlen raw) stop <= zlen raw.
Proof. apply slice_stop_range. apply zlen_nonneg. Qed.
Lemma cut_len : zlen cut = slice_stop (zlen raw) stop.
Proof. rewrite cut_eq. pose proof lim_range. rewrite sub_length by lia. lia. Qed.
Lemma occurs_cut t p : 0 <= p -> occurs cut t p <-> p + zlen t <= slice_stop (zlen raw) stop /\ sub raw p (p + zlen t) = t.
Proof.
  intros P. rewrite occurs_sub by exact P. rewrite cut_len. pose proof lim_range as R. pose proof (zlen_nonneg t) as T.
  split; intros (B & E); (split; [exact B|]); rewrite <- E at 2; rewrite cut_eq; rewrite sub_sub by lia; f_equal; lia.
Qed.
Lemma find_go_spec t n : forall i, 0 <= i -> i + zlen t + Z.of_nat n - 1 = slice_stop (zlen raw) stop ->
  (find_go raw t n i = -1 /\ forall q, i <= q -> ~ occurs cut t q) \/
  (exists p, find_go raw t n i = p /\ first_at cut i t p).
Proof.
  induction n as [|n IH]; intros i Hi E.
  - left. split; [reflexivity|]. intros q Q O. apply occurs_cut in O; [|lia]. lia.
  - cbn [find_go]. destruct (str_eqb_spec (sub raw i (i + zlen t)) t) as [Eq|Ne].
    + right. exists i. split; [reflexivity|]. split; [lia|]. split; [apply occurs_cut; [lia|]; split; [lia|exact Eq]|]. intros q Q. lia.
    + destruct (IH (i + 1)) as [(F & N)|(p & F & P1 & P2 & P3)]; [lia|lia| |].
      * left. split; [exact F|]. intros q Q O. destruct (Z.eq_dec q i) as [->|Nq]; [|apply (N q); [lia|exact O]].
        apply occurs_cut in O; [tauto|lia].
      * right. exists p. split; [exact F|]. split; [lia|]. split; [exact P2|]. intros q Q O.
        destruct (Z.eq_dec q i) as [->|Nq]; [|apply (P3 q); [lia|exact O]]. apply occurs_cut in O; [tauto|lia].
Qed.
Lemma find_spec t pos : 0 <= pos ->
  (str_find raw t pos stop = -1 /\ forall q, pos <= q -> ~ occurs cut t q) \/ first_at cut pos t (str_find raw t pos stop).
Proof.
  intros P. unfold str_find. destruct (Z_le_gt_dec 0 (slice_stop (zlen raw) stop - zlen t - pos + 1)) as [G|L].
  - destruct (find_go_spec t (Z.to_nat (slice_stop (zlen raw) stop - zlen t - pos + 1)) pos P) as [H|(p & <- & H)]; [lia|left; exact H|right; exact H].
  - replace (Z.to_nat _) with 0%nat by lia. left. split; [reflexivity|]. intros q Q O. apply occurs_cut in O; [|lia]. lia.
Qed.
Lemma first_nonneg pos t p : first_at cut pos t p -> 0 <= p /\ p + zlen t <= zlen cut.
Proof. intros (_ & O & _). exact (occurs_nonneg _ _ _ O). Qed.
Lemma closer_spec pos loc ahead : forall j, 0 <= pos ->
  match closer raw stop pos loc j ahead with
  | None => Forall (not_before cut pos loc) ahead
  | Some (m, c, u) => exists a r, ahead = a ++ u :: r /\ m = (j + length a)%nat /\ Forall (not_before cut pos loc) a /\ first_at cut pos u c /\ c < loc
  end.
Proof.
  induction ahead as [|u r IH]; intros j P; [constructor|]. cbn [closer].
  destruct (find_spec u pos P) as [(E & N)|F].
  - rewrite E. simpl. specialize (IH (S j) P).
    assert (B : not_before cut pos loc u) by (intros q O Q; exfalso; exact (N q Q O)).
    destruct (closer raw stop pos loc (S j) r) as [[[m c] v]|].
    + destruct IH as (a & r' & -> & -> & Fa & F1 & L). exists (u :: a), r'. split; [reflexivity|]. split; [simpl; lia|]. split; [constructor; auto|auto].
    + constructor; auto.
  - pose proof (first_nonneg pos u _ F) as (Nn & _). set (c := str_find raw u pos stop) in *.
    destruct (Z.eqb_spec c (-1)) as [X|_]; [lia|]. simpl. destruct (Z.ltb_spec c loc) as [Lt|Ge].
    + exists [], r. split; [reflexivity|]. split; [simpl; lia|]. split; [constructor|auto].
    + specialize (IH (S j) P).
      assert (B : not_before cut pos loc u).
      { intros q O Q. destruct F as (_ & _ & F). destruct (Z_lt_dec q c) as [L|L]; [exfalso; apply (F q); [lia|exact O]|lia]. }
      destruct (closer raw stop pos loc (S j) r) as [[[m d] v]|].
      * destruct IH as (a & r' & -> & -> & Fa & F1 & L). exists (u :: a), r'. split; [reflexivity|]. split; [simpl; lia|]. split; [constructor; auto|auto].
      * constructor; auto.
Qed.
End Find.

Section Loop.
Variables (t : pystr) (start : Z) (stop : option Z) (k : Z).
Hypothesis start_ok : 0 <= start.
Let raw := py_slice t (Some start) stop.
Definition mk (p : Z * Z) : span := mkSpan t (Z.min (start + fst p) (zlen t)) (Z.min (start + snd p) (zlen t)).
Lemma slice_mk a b : 0 <= a <= b -> text_slice t (Some (start + a)) (Some (start + b)) = Ok (mk (a, b)).
Proof.
  intros H. pose proof (zlen_nonneg t) as T. unfold text_slice, slice_start, slice_stop, slice_norm.
  destruct (Z.ltb_spec (start + a) 0); [lia|]. destruct (Z.ltb_spec (start + b) 0); [lia|].
  destruct (Z.ltb_spec (Z.min (start + b) (zlen t)) (Z.min (start + a) (zlen t))); [lia|].
  destruct (Z.ltb_spec (zlen t) (Z.min (start + a) (zlen t))); [lia|]. destruct (Z.ltb_spec (zlen t) (Z.min (start + b) (zlen t))); [lia|].
  simpl. unfold new_span. destruct (Z.leb_spec (Z.min (start + a) (zlen t)) (Z.min (start + b) (zlen t))); [reflexivity|lia].
Qed.
Lemma empties_ok pos n : 0 <= pos -> empties t (start + pos) n = Ok (map mk (repeat (pos, pos) n)).
Proof. intros P. induction n as [|n IH]; [reflexivity|]. cbn [empties repeat map]. rewrite slice_mk by lia. cbn [rbind]. rewrite IH. reflexivity. Qed.
Lemma seq_loop_ok fuel : forall toks pos, (length toks <= fuel)%nat -> 0 <= pos ->
  exists out, seq_loop fuel t raw start stop k toks pos = Ok (map mk out) /\ aligned (py_slice raw None stop) (Z.to_nat k) pos toks out.
Proof.
  induction fuel as [|fuel IH]; intros [|tok rest] pos F P; try (simpl in F; lia).
  1,2: exists []; split; [reflexivity|constructor].
  cbn [seq_loop]. cbn [length] in F. destruct (find_spec raw stop tok pos P) as [(E & N)|Fi].
  - rewrite E. change (-1 =? -1) with true. cbv iota. rewrite slice_mk by lia. cbn [rbind].
    destruct (IH rest pos) as (out & E1 & A1); [lia|lia|]. rewrite E1. exists ((pos, pos) :: out). split; [reflexivity|]. constructor; assumption.
  - pose proof (first_nonneg _ _ _ _ _ Fi) as (Nn & Le). set (loc := str_find raw tok pos stop) in *.
    destruct (Z.eqb_spec loc (-1)) as [X|_]; [lia|]. pose proof (zlen_nonneg tok) as Tk.
    pose proof (closer_spec raw stop pos loc (firstn (Z.to_nat k) rest) 1 P) as C.
    destruct (closer raw stop pos loc 1 (firstn (Z.to_nat k) rest)) as [[[m c] u]|].
    + destruct C as (a & r' & Ea & -> & Fa & Fu & Lt). pose proof (first_nonneg _ _ _ _ _ Fu) as (Nu & _). pose proof (zlen_nonneg u) as Tu.
      assert (Er : rest = a ++ u :: skipn (1 + length a) rest).
      { rewrite <- (firstn_skipn (Z.to_nat k) rest). rewrite Ea. set (tl := skipn (Z.to_nat k) rest). clear. induction a as [|x a IHa]; [reflexivity|].
        cbn [app length]. f_equal. exact IHa. }
      assert (La : (length a < Z.to_nat k)%nat).
      { pose proof (firstn_le_length (Z.to_nat k) rest) as X. rewrite Ea, app_length in X. cbn [length] in X. lia. }
      rewrite empties_ok by exact P. cbn [rbind]. rewrite <- Z.add_assoc. rewrite slice_mk by lia. cbn [rbind].
      destruct (IH (skipn (1 + length a) rest) (c + zlen u)) as (out & E1 & A1); [rewrite skipn_length; lia|lia|].
      rewrite E1. cbn [rbind]. exists (repeat (pos, pos) (S (length a)) ++ (c, c + zlen u) :: out).
      split; [rewrite map_app; reflexivity|]. rewrite Er at 1. apply al_skip with loc; assumption.
    + rewrite <- Z.add_assoc. rewrite slice_mk by lia. cbn [rbind].
      destruct (IH rest (loc + zlen tok)) as (out & E1 & A1); [lia|lia|]. rewrite E1. exists ((loc, loc + zlen tok) :: out).
      split; [reflexivity|]. constructor; assumption.
Qed.
End Loop.

(** what alignment gives *)
Definition fits (raw tok : pystr) (p : Z * Z) : Prop := fst p = snd p \/ sub raw (fst p) (snd p) = tok.
Lemma aligned_facts raw k pos toks out : aligned raw k pos toks out -> 0 <= pos <= zlen raw ->
  Forall2 (fits raw) toks out /\ Forall (fun p => pos <= fst p /\ fst p <= snd p <= zlen raw) out /\ StronglySorted (fun p q => snd p <= fst q) out.
Proof.
  assert (Cons : forall (p : Z * Z) out, snd p <= zlen raw -> Forall (fun q => snd p <= fst q /\ fst q <= snd q <= zlen raw) out ->
    StronglySorted (fun p q => snd p <= fst q) out -> StronglySorted (fun p q => snd p <= fst q) (p :: out)).
  { intros p out0 _ F Hs. constructor; [exact Hs|]. eapply Forall_impl; [|exact F]. simpl. tauto. }
  assert (Wk : forall a b out, a <= b -> Forall (fun q : Z * Z => b <= fst q /\ fst q <= snd q <= zlen raw) out -> Forall (fun q => a <= fst q /\ fst q <= snd q <= zlen raw) out).
  { intros a b out0 L F. eapply Forall_impl; [|exact F]. simpl. intros q Q. lia. }
  induction 1 as [pos|pos t r out N A IH|pos t r p out F Fb A IH|pos t a u r p q out F La Fa Fu Lt A IH]; intros P.
  - repeat constructor.
  - destruct (IH P) as (I1 & I2 & I3). split; [constructor; [left; reflexivity|exact I1]|]. split; [constructor; [simpl; lia|exact I2]|].
    apply Cons; simpl; auto; lia.
  - destruct F as (F1 & F2 & F3). pose proof (occurs_nonneg _ _ _ F2) as (Nn & Le). pose proof (zlen_nonneg t) as T.
    destruct IH as (I1 & I2 & I3); [lia|]. split; [constructor; [|exact I1]|].
    + right. simpl. apply occurs_sub in F2; tauto.
    + split; [constructor; [simpl; lia|apply (Wk pos (p + zlen t)); [lia|exact I2]]|]. apply Cons; auto; simpl; lia.
  - destruct Fu as (F1 & F2 & F3). pose proof (occurs_nonneg _ _ _ F2) as (Nn & Le). pose proof (zlen_nonneg u) as T.
    destruct IH as (I1 & I2 & I3); [lia|].
    assert (J : Forall2 (fits raw) (u :: r) ((q, q + zlen u) :: out) /\ Forall (fun p => pos <= fst p /\ fst p <= snd p <= zlen raw) ((q, q + zlen u) :: out) /\
      StronglySorted (fun p q => snd p <= fst q) ((q, q + zlen u) :: out)).
    { split; [constructor; [right; simpl; apply occurs_sub in F2; tauto|exact I1]|].
      split; [constructor; [simpl; lia|apply (Wk pos (q + zlen u)); [lia|exact I2]]|]. apply Cons; auto; simpl; lia. }
    change (t :: a ++ u :: r) with ((t :: a) ++ u :: r). change (S (length a)) with (length (t :: a)). clear - J P Cons. induction (t :: a) as [|x l IHl]; [exact J|].
    destruct IHl as (J1 & J2 & J3). simpl. split; [constructor; [left; reflexivity|exact J1]|]. split; [constructor; [simpl; lia|exact J2]|].
    apply Cons; simpl; auto; lia.
Qed.

Lemma sequence_exact toks t start stop k : 0 <= start ->
  exists out, sequence_to_textspans toks t start stop k = Ok (map (mk t start) out) /\ aligned (searched t start stop) (Z.to_nat k) 0 toks out.
Proof. intros S0. apply seq_loop_ok; [exact S0|lia|lia]. Qed.
Lemma searched_window t start stop : 0 <= start -> match stop with Some e => 0 <= e | None => True end -> searched t start stop = py_slice t (Some start) stop.
Proof.
  intros S0 E0. unfold searched. set (r := py_slice t (Some start) stop). unfold py_slice. cbn [slice_start].
  assert (L : slice_stop (zlen r) stop = zlen r).
  { destruct stop as [e|]; [|reflexivity]. cbn [slice_stop]. unfold slice_norm. destruct (Z.ltb_spec e 0); [lia|].
    apply Z.min_r. unfold r, py_slice. cbn [slice_start slice_stop]. unfold slice_norm. destruct (Z.ltb_spec start 0); [lia|]. destruct (Z.ltb_spec e 0); [lia|].
    pose proof (zlen_nonneg t). destruct (Z_le_dec (Z.min start (zlen t)) (Z.min e (zlen t))); [rewrite sub_length by lia; lia|rewrite sub_nil by lia; unfold zlen; simpl; lia]. }
  rewrite L. apply sub_full.
Qed.
Lemma sequence_safe toks t start stop k : 0 <= start -> exists out, sequence_to_textspans toks t start stop k = Ok out /\
  Forall2 (fun tok x => sp_text x = t /\ window_lo t start <= sp_start x /\ sp_start x <= sp_stop x /\ sp_stop x <= window_hi t start stop /\
    (sp_start x = sp_stop x \/ span_str x = tok)) toks out /\
  StronglySorted (fun x y => sp_stop x <= sp_start y) out.
Proof.
  intros S0. destruct (sequence_exact toks t start stop k S0) as (out & E & A). exists (map (mk t start) out). split; [exact E|].
  pose proof (zlen_nonneg t) as T. set (raw := searched t start stop) in *.
  destruct (aligned_facts _ _ _ _ _ A) as (F1 & F2 & F3); [pose proof (zlen_nonneg raw); lia|].
  assert (Ss : slice_start (zlen t) (Some start) = window_lo t start).
  { cbn [slice_start]. unfold slice_norm, window_lo. destruct (Z.ltb_spec start 0); [lia|reflexivity]. }
  pose proof (slice_stop_range stop T) as Sr.
  assert (Rl : zlen raw <= Z.max 0 (slice_stop (zlen t) stop - window_lo t start)).
  { unfold raw, searched. rewrite cut_len. set (w := py_slice t (Some start) stop). pose proof (slice_stop_range stop (zlen_nonneg w)) as B.
    assert (W : zlen w <= Z.max 0 (slice_stop (zlen t) stop - window_lo t start)); [|lia].
    unfold w, py_slice. rewrite Ss. destruct (Z_le_dec (window_lo t start) (slice_stop (zlen t) stop)) as [L|L].
    - rewrite sub_length by (unfold window_lo in *; lia). lia.
    - rewrite sub_nil by lia. unfold zlen at 1. simpl. lia. }
  split.
  - rewrite Forall_forall in F2. clear F3 E A. induction F1 as [|tok [p q] toks out Ft F1 IH]; [constructor|].
    simpl. constructor; [|apply IH; intros; apply F2; right; assumption].
    specialize (F2 (p, q) (or_introl eq_refl)). simpl in F2. unfold mk. cbn [sp_text sp_start sp_stop fst snd].
    split; [reflexivity|]. split; [unfold window_lo in *; lia|]. split; [lia|]. split; [unfold window_hi, window_lo in *; lia|].
    destruct Ft as [Ft|Ft]; simpl in Ft; [left; lia|].
    destruct (Z_le_dec start (zlen t)) as [L|L]; [|left; unfold window_lo in *; lia].
    destruct (Z.eq_dec p q) as [->|Npq]; [left; reflexivity|]. right.
    assert (Lo : window_lo t start = start) by (unfold window_lo; lia). rewrite Lo in *.
    rewrite span_str_sub by (unfold in_bounds; simpl; lia). cbn [sp_text sp_start sp_stop].
    rewrite <- Ft. unfold raw, searched. rewrite (cut_eq (py_slice t (Some start) stop) stop).
    rewrite sub_sub; [|lia|lia|].
    + unfold py_slice. rewrite Ss. rewrite sub_sub; [|lia|lia|lia]. f_equal; lia.
    + rewrite <- cut_len. fold raw. unfold raw, searched in F2. lia.
  - clear - F3. induction F3 as [|[p q] out Hs IH F]; [constructor|]. simpl. constructor; [exact IH|].
    apply Forall_forall. intros x I. apply in_map_iff in I. destruct I as ([p' q'] & <- & I). rewrite Forall_forall in F. specialize (F _ I). simpl in *. lia.
Qed.
