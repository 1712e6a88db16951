(** Graph searches: proofs. *)
From Verif Require Import PyBase PyBaseFacts Model_Heap Model_Layer Model_Graph Spec_Graph.
Local Open Scope Z_scope.

Lemma memb_In x l : memb x l = true <-> In x l.
Proof.
  unfold memb. rewrite existsb_exists. split.
  - intros (y & I & E). apply Nat.eqb_eq in E. subst y. exact I.
  - intros I. exists x. split; [exact I|apply Nat.eqb_refl].
Qed.
Lemma memb_false x l : memb x l = false <-> ~ In x l.
Proof. rewrite <- memb_In. destruct (memb x l); split; congruence. Qed.

(** ** first occurrences *)
Lemma firsts_In : forall l v x, In x (firsts v l) <-> In x l /\ ~ In x v.
Proof.
  induction l as [|y l IH]; intros v x; cbn [firsts]; [simpl; tauto|].
  destruct (in_dec Nat.eq_dec y v) as [I|N].
  - rewrite IH. simpl. split; [tauto|]. intros [[->|H] Q]; tauto.
  - simpl. rewrite IH. simpl. split.
    + intros [->|[H Q]]; [tauto|]. tauto.
    + intros [[->|H] Q]; [tauto|]. destruct (Nat.eq_dec y x); [tauto|]. right. tauto.
Qed.
Lemma firsts_NoDup : forall l v, NoDup (firsts v l).
Proof.
  induction l as [|y l IH]; intros v; cbn [firsts]; [constructor|]. destruct (in_dec Nat.eq_dec y v); [apply IH|].
  constructor; [|apply IH]. rewrite firsts_In. simpl. tauto.
Qed.
Lemma firsts_ext : forall l v w, (forall x, In x v <-> In x w) -> firsts v l = firsts w l.
Proof.
  induction l as [|y l IH]; intros v w H; cbn [firsts]; [reflexivity|].
  destruct (in_dec Nat.eq_dec y v) as [I|N], (in_dec Nat.eq_dec y w) as [I'|N']; try (exfalso; rewrite H in *; tauto); [apply IH, H|].
  f_equal. apply IH. intros x. simpl. rewrite H. tauto.
Qed.
Lemma firsts_app : forall l v m, firsts v (l ++ m) = firsts v l ++ firsts (firsts v l ++ v) m.
Proof.
  induction l as [|y l IH]; intros v m; cbn [firsts app]; [reflexivity|]. destruct (in_dec Nat.eq_dec y v); [apply IH|].
  cbn [app]. f_equal. rewrite IH. f_equal. apply firsts_ext. intros x. rewrite in_app_iff. simpl. rewrite in_app_iff. tauto.
Qed.
(** candidates that were seen may be dropped *)
Lemma firsts_filter : forall l v w, (forall x, In x w -> In x v) -> firsts v (filter (fun c => negb (memb c w)) l) = firsts v l.
Proof.
  induction l as [|y l IH]; intros v w H; cbn [firsts filter]; [reflexivity|]. destruct (memb y w) eqn:E; cbn [negb].
  - apply memb_In in E. destruct (in_dec Nat.eq_dec y v); [apply IH, H|]. elim n. auto.
  - cbn [firsts]. destruct (in_dec Nat.eq_dec y v); [apply IH, H|]. f_equal. apply IH. intros x I. right. auto.
Qed.

(** ** breadth first *)
Section Bfs.
Variables (ch : nat -> list nat) (p : option (nat -> bool)).
Notation loop := (fun f => bfs_loop f (fun x => Ok (ch x)) p).
Definition shown (l : list (nat * nat)) : list (Z * nat) := map (fun dx => (Z.of_nat (fst dx), snd dx)) (filter (fun dx => wanted p (snd dx)) l).
Lemma shown_app a b : shown (a ++ b) = shown a ++ shown b.
Proof. unfold shown. rewrite filter_app, map_app. reflexivity. Qed.
Definition prefix {A B} (a : list A) (x : list A * B) : list A * B := (a ++ fst x, snd x).
(** one level: the candidates c are worked off, d are the candidates for the next level *)
Lemma one_level d : forall c v w q, (forall x, In x v <-> In x w) -> exists w1 q1 m, (forall x, In x w1 <-> In x (firsts v c ++ v)) /\
  (forall u, (forall x, In x (firsts v c ++ v) -> In x u) -> firsts u q1 = firsts u (flat_map ch (firsts v c))) /\ (m = length c) /\ (firsts v c = [] -> q1 = []) /\
  forall f, loop (m + f)%nat w (map (pair (Z.of_nat d)) c ++ map (pair (Z.of_nat (S d))) q) =
            prefix (shown (map (pair d) (firsts v c))) (loop f w1 (map (pair (Z.of_nat (S d))) (q ++ q1))).
Proof.
  induction c as [|y c IH]; intros v w q H.
  - exists w, [], 0%nat. cbn [firsts app map length flat_map]. split; [intros x; symmetry; apply H|]. split; [reflexivity|]. split; [reflexivity|]. split; [reflexivity|].
    intros f. rewrite app_nil_r. unfold prefix. cbn. destruct (bfs_loop f _ p w _); reflexivity.
  - cbn [firsts]. destruct (in_dec Nat.eq_dec y v) as [I|N].
    + destruct (IH v w q H) as (w1 & q1 & m & H1 & H2 & H3 & H5 & H4). exists w1, q1, (S m). split; [exact H1|]. split; [exact H2|]. split; [cbn [length]; congruence|]. split; [exact H5|].
      intros f. cbn [Nat.add map app bfs_loop]. replace (memb y w) with true by (symmetry; apply memb_In, H, I). apply H4.
    + destruct (IH (y :: v) (y :: w) (q ++ filter (fun c => negb (memb c (y :: w))) (ch y))) as (w1 & q1 & m & H1 & H2 & H3 & _ & H4); [intros x; simpl; rewrite H; tauto|].
      exists w1, (filter (fun c => negb (memb c (y :: w))) (ch y) ++ q1), (S m).
      assert (Q : forall x, In x (firsts (y :: v) c ++ y :: v) <-> In x ((y :: firsts (y :: v) c) ++ v)) by (intros x; simpl; rewrite !in_app_iff; simpl; tauto).
      split; [intros x; rewrite H1; apply Q|]. split.
      { intros u Hu. cbn [flat_map]. rewrite !firsts_app. rewrite firsts_filter.
        - f_equal. apply H2. intros x Hx. apply Q in Hx. apply in_or_app. right. auto.
        - intros x Hx. apply Hu. simpl. rewrite in_app_iff. simpl in Hx. rewrite <- H in Hx. tauto. }
      split; [cbn [length]; congruence|]. split; [discriminate|].
      intros f. cbn [Nat.add map app bfs_loop]. replace (memb y w) with false by (symmetry; apply memb_false; rewrite <- H; exact N).
      replace (Z.of_nat d + 1) with (Z.of_nat (S d)) by lia. rewrite <- app_assoc, <- map_app, H4, <- app_assoc.
      unfold prefix. cbn [fst snd]. change ((d, y) :: map (pair d) (firsts (y :: v) c)) with ([(d, y)] ++ map (pair d) (firsts (y :: v) c)). rewrite shown_app, <- app_assoc.
      f_equal. f_equal. unfold shown, emit, wanted. cbn. destruct p as [g|]; [destruct (g y)|]; reflexivity.
Qed.
Lemma bfs_levels d v c out : levels ch d v c out -> forall w c', (forall x, In x v <-> In x w) -> (forall u, (forall x, In x v -> In x u) -> firsts u c' = firsts u c) ->
  exists m, forall f, (m <= f)%nat -> loop f w (map (pair (Z.of_nat d)) c') = (shown out, Ok tt).
Proof.
  induction 1 as [d v c E|d v c out E L IH]; intros w c' H Hc.
  - destruct (one_level d c' v w [] H) as (w1 & q1 & m & H1 & H2 & H3 & H5 & H4). assert (Ec : firsts v c' = []) by (rewrite Hc; auto). rewrite (H5 Ec) in H4. rewrite Ec in *.
    exists m. intros f Lf. specialize (H4 (f - m)%nat). replace (m + (f - m))%nat with f in H4 by lia. cbn [map app] in H4. rewrite app_nil_r in H4. cbn beta in H4. rewrite H4.
    unfold prefix. destruct (f - m)%nat; reflexivity.
  - destruct (one_level d c' v w [] H) as (w1 & q1 & m & H1 & H2 & H3 & _ & H4). assert (Ec : firsts v c' = firsts v c) by (rewrite Hc; auto). rewrite Ec in *.
    destruct (IH w1 q1) as (m1 & M1); [intros x; symmetry; apply H1|exact H2|].
    exists (m + m1)%nat. intros f Lf. specialize (H4 (f - m)%nat). replace (m + (f - m))%nat with f in H4 by lia. cbn [map app] in H4. rewrite app_nil_r in H4. cbn beta in *. rewrite H4, M1 by lia.
    unfold prefix. cbn [fst snd]. rewrite shown_app. reflexivity.
Qed.
End Bfs.

(** ** what level order is *)
Definition room (U v : list nat) : nat := length (filter (fun x => negb (memb x v)) U).
Lemma filter_le {A} (f g : A -> bool) l : (forall x, In x l -> f x = true -> g x = true) -> (length (filter f l) <= length (filter g l))%nat.
Proof.
  induction l as [|x l IH]; intros H; cbn [filter]; [lia|]. assert (G : (length (filter f l) <= length (filter g l))%nat) by (apply IH; intros y I; apply H; right; exact I).
  destruct (f x) eqn:E; [rewrite (H x (or_introl eq_refl) E); simpl; lia|]. destruct (g x); simpl; lia.
Qed.
Lemma room_lt U v v' y : In y U -> ~ In y v -> In y v' -> (forall x, In x v -> In x v') -> (room U v' < room U v)%nat.
Proof.
  intros I N I' H. unfold room. induction U as [|z U IH]; [contradiction|]. cbn [filter].
  assert (G : (length (filter (fun x => negb (memb x v')) U) <= length (filter (fun x => negb (memb x v)) U))%nat).
  { apply filter_le. intros x _ E. apply negb_true_iff, memb_false. apply negb_true_iff, memb_false in E. auto. }
  destruct I as [->|I].
  - apply memb_false in N. apply memb_In in I'. rewrite N, I'. cbn [negb length]. lia.
  - specialize (IH I). destruct (memb z v) eqn:E1; cbn [negb].
    + apply memb_In in E1. apply H, memb_In in E1. rewrite E1. exact IH.
    + destruct (memb z v'); cbn [negb length]; lia.
Qed.
Section Levels.
Variables (ch : nat -> list nat) (s0 : nat).
Lemma reach_step x y : reach ch s0 x -> In y (ch x) -> reach ch s0 y.
Proof. intros [n W] I. exists (S n). econstructor; eauto. Qed.
Lemma levels_exist U : (forall y, reach ch s0 y -> In y U) -> forall k d v c, (room U v <= k)%nat -> (forall x, In x c -> reach ch s0 x) -> exists out, levels ch d v c out.
Proof.
  intros HU. induction k as [|k IH]; intros d v c R Hc; destruct (firsts v c) as [|y l] eqn:E; try (exists []; constructor; exact E).
  - assert (I : In y (firsts v c)) by (rewrite E; left; reflexivity). assert (Y := I). apply firsts_In in I. destruct I as [I N].
    pose proof (room_lt U v (firsts v c ++ v) y (HU _ (Hc _ I)) N (in_or_app _ _ _ (or_introl Y)) (fun x J => in_or_app _ _ _ (or_intror J))). lia.
  - assert (I : In y (firsts v c)) by (rewrite E; left; reflexivity). assert (Y := I). apply firsts_In in I. destruct I as [I N].
    pose proof (room_lt U v (firsts v c ++ v) y (HU _ (Hc _ I)) N (in_or_app _ _ _ (or_introl Y)) (fun x J => in_or_app _ _ _ (or_intror J))).
    destruct (IH (S d) (firsts v c ++ v) (flat_map ch (firsts v c))) as [out L]; [lia| |].
    + intros x J. apply in_flat_map in J. destruct J as (z & J1 & J2). apply firsts_In in J1. apply (reach_step z); [apply Hc|]; tauto.
    + exists (map (pair d) (firsts v c) ++ out). constructor; [rewrite E; discriminate|exact L].
Qed.
Lemma levels_spec d v c out : levels ch d v c out ->
  (forall x, In x v <-> exists m, (m < d)%nat /\ walk ch s0 m x) -> (forall x, In x c -> walk ch s0 d x) -> (forall x, walk ch s0 d x -> In x v \/ In x c) ->
  (forall k x, In (k, x) out -> (d <= k)%nat /\ distance ch s0 x k) /\ (forall x, reach ch s0 x -> In x v \/ exists k, In (k, x) out) /\ NoDup (map snd out) /\
  (forall x, In x v -> ~ In x (map snd out)) /\ Sorted le (map fst out).
Proof.
  induction 1 as [d v c E|d v c out E L IH]; intros Hv Hc1 Hc2.
  - split; [contradiction|]. split; [|split; [constructor|split; [tauto|constructor]]]. intros x [m W]. left.
    assert (G : forall m x, walk ch s0 m x -> In x v); [|eauto]. clear m x W.
    assert (G0 : forall m x, (m <= d)%nat -> walk ch s0 m x -> In x v).
    { intros m x Lm W. destruct (Nat.eq_dec m d) as [->|]; [|apply Hv; exists m; split; [lia|exact W]].
      destruct (in_dec Nat.eq_dec x v) as [I|N]; [exact I|]. exfalso. destruct (Hc2 x W) as [I|I]; [contradiction|].
      assert (J : In x (firsts v c)) by (apply firsts_In; auto). rewrite E in J. exact J. }
    induction m as [|m IHm]; intros x W; [apply (G0 0%nat); [lia|exact W]|]. inversion W as [|? ? y ? W1 I]; subst.
    apply IHm in W1. apply Hv in W1. destruct W1 as (m' & Lm & W'). apply (G0 (S m')); [lia|]. econstructor; eauto.
  - assert (Q1 : forall x, In x (firsts v c ++ v) <-> exists m, (m < S d)%nat /\ walk ch s0 m x).
    { intros x. rewrite in_app_iff, firsts_In. split.
      - intros [[I _]|I]; [exists d; split; [lia|apply Hc1, I]|]. apply Hv in I. destruct I as (m & Lm & W). exists m. split; [lia|exact W].
      - intros (m & Lm & W). destruct (in_dec Nat.eq_dec x v) as [I|N]; [auto|]. left. split; [|exact N]. destruct (Nat.eq_dec m d) as [->|].
        + destruct (Hc2 x W); [contradiction|assumption].
        + elim N. apply Hv. exists m. split; [lia|exact W]. }
    destruct IH as (A1 & A2 & A3 & A4 & A5); [exact Q1| | |].
    + intros x I. apply in_flat_map in I. destruct I as (y & I1 & I2). apply firsts_In in I1. econstructor; [apply Hc1; apply I1|exact I2].
    + intros x W. inversion W as [|? ? y ? W1 I]; subst. destruct (in_dec Nat.eq_dec y v) as [J|N].
      * left. apply Q1. apply Hv in J. destruct J as (m & Lm & Wm). exists (S m). split; [lia|]. econstructor; eauto.
      * right. apply in_flat_map. exists y. split; [|exact I]. apply firsts_In. split; [|exact N]. destruct (Hc2 y W1); [contradiction|assumption].
    + assert (M : map snd (map (pair d) (firsts v c)) = firsts v c) by (rewrite map_map; apply map_id).
      split; [|split; [|split; [|split]]].
      * intros k x I. apply in_app_or in I. destruct I as [I|I]; [|destruct (A1 k x I); split; [lia|assumption]].
        apply in_map_iff in I. destruct I as (y & Ey & I). injection Ey as <- <-. split; [lia|]. apply firsts_In in I. destruct I as [I N]. split; [apply Hc1, I|].
        intros m W. destruct (Nat.lt_ge_cases m d) as [Lm|]; [|assumption]. elim N. apply Hv. eauto.
      * intros x R. destruct (A2 x R) as [I|[k I]]; [|right; exists k; apply in_or_app; auto]. apply in_app_or in I. destruct I as [I|I]; [|auto].
        right. exists d. apply in_or_app. left. apply in_map_iff. eauto.
      * rewrite map_app, M. clear -A3 A4. assert (N := firsts_NoDup c v). revert N A4. generalize (firsts v c) as l. induction l as [|y l IH]; intros N A4; [exact A3|].
        cbn [app]. inversion N; subst. constructor; [|apply IH; [assumption|intros x I; apply A4; right; exact I]].
        rewrite in_app_iff. intros [I|I]; [contradiction|]. apply (A4 y); [left; reflexivity|exact I].
      * intros x I J. rewrite map_app, M, in_app_iff in J. destruct J as [J|J]; [apply firsts_In in J; tauto|]. apply (A4 x); [apply in_or_app; auto|exact J].
      * rewrite map_app. clear -A1 A5. assert (G : forall k, In k (map fst out) -> (d <= k)%nat).
        { intros k I. apply in_map_iff in I. destruct I as ([k' x] & <- & I). destruct (A1 k' x I). simpl. lia. }
        rewrite map_map. cbn [fst]. induction (firsts v c) as [|y l IH]; [exact A5|]. cbn [map app]. constructor; [exact IH|].
        destruct l as [|z l]; cbn [map app]; [|constructor; lia]. destruct (map fst out) as [|k r]; constructor. apply G. left. reflexivity.
Qed.
End Levels.
Theorem bfs_order ch s0 : finite_from ch s0 -> exists out, levels ch 0 [] [s0] out /\
  forall p, settles (fun f => bfs f s0 (fun x => Ok (ch x)) p) (map (fun dx => (Z.of_nat (fst dx), snd dx)) (filter (fun dx => wanted p (snd dx)) out), Ok tt).
Proof.
  intros [U HU]. destruct (levels_exist ch s0 U HU (room U []) 0 [] [s0]) as [out L]; [lia|intros x [->|[]]; exists 0%nat; constructor|].
  exists out. split; [exact L|]. intros p. destruct (bfs_levels ch p 0 [] [s0] out L [] [s0]) as (m & M); [tauto|reflexivity|]. exists m. intros k Lk. apply M, Lk.
Qed.
Theorem bfs_nodes ch s0 out : levels ch 0 [] [s0] out -> (forall x, reach ch s0 x <-> In x (map snd out)) /\ NoDup (map snd out) /\ Sorted le (map fst out) /\
  forall k x, In (k, x) out -> distance ch s0 x k.
Proof.
  intros L. destruct (levels_spec ch s0 0 [] [s0] out L) as (A1 & A2 & A3 & _ & A5).
  - intros x. split; [contradiction|]. intros (m & H & _). lia.
  - intros x [->|[]]. constructor.
  - intros x W. inversion W; subst. right. left. reflexivity.
  - split; [|split; [exact A3|split; [exact A5|intros k x I; apply (A1 k x I)]]]. intros x. split.
    + intros R. destruct (A2 x R) as [[]|[k I]]. apply in_map_iff. exists (k, x). auto.
    + intros I. apply in_map_iff in I. destruct I as ([k y] & <- & I). exists k. apply (A1 k y I).
Qed.

(** ** depth first *)
(** r' is r without some of the nodes in v *)
Inductive drops (v : list nat) : list nat -> list nat -> Prop :=
| drops_nil : drops v [] []
| drops_keep x r r' : drops v r r' -> drops v (x :: r) (x :: r')
| drops_skip x r r' : In x v -> drops v r r' -> drops v (x :: r) r'.
Lemma drops_refl v r : drops v r r.
Proof. induction r; constructor; auto. Qed.
Lemma drops_more v w r r' : (forall x, In x v -> In x w) -> drops v r r' -> drops w r r'.
Proof. intros H. induction 1; constructor; auto. Qed.
Lemma drops_filter v w r : (forall x, In x w -> In x v) -> drops v r (filter (fun c => negb (memb c w)) r).
Proof.
  intros H. induction r as [|x r IH]; cbn [filter]; [constructor|]. destruct (memb x w) eqn:E; cbn [negb]; constructor; auto. apply H, memb_In, E.
Qed.
Lemma pop_top x r : pop (rev (x :: r)) = Some (rev r, x).
Proof. unfold pop. rewrite rev_involutive. reflexivity. Qed.
Lemma push (kids r : list nat) : rev r ++ rev kids = rev (kids ++ r).
Proof. rewrite rev_app_distr. reflexivity. Qed.
Lemma filter_none (x : nat) w l : filter (fun c => negb (memb c w)) l = [] <-> (forall c, In c l -> In c w).
Proof.
  split.
  - intros E c I. destruct (memb c w) eqn:M; [apply memb_In, M|]. assert (J : In c (filter (fun c => negb (memb c w)) l)) by (apply filter_In; rewrite M; auto). rewrite E in J. contradiction.
  - intros H. destruct (filter _ l) as [|c r] eqn:E; [reflexivity|]. assert (J : In c (filter (fun c => negb (memb c w)) l)) by (rewrite E; left; reflexivity).
    apply filter_In in J. destruct J as [J1 J2]. apply H, memb_In in J1. rewrite J1 in J2. discriminate.
Qed.
Lemma forallb_ext {A} (f g : A -> bool) l : (forall x, f x = g x) -> forallb f l = forallb g l.
Proof. intros H. induction l as [|x l IH]; cbn; [reflexivity|]. rewrite H, IH. reflexivity. Qed.
Section Dfs.
Variables (ch : nat -> list nat).
Lemma pre_seen_iff v r v' o : preorder ch v r v' o -> forall x, In x v' <-> In x o \/ In x v.
Proof.
  induction 1 as [v|v x r v' o I P IH|v x r v1 o1 v2 o2 N P1 IH1 P2 IH2]; intros y; [simpl; tauto|apply IH|].
  rewrite IH2, IH1. simpl. rewrite in_app_iff. tauto.
Qed.
Lemma pre_NoDup v r v' o : preorder ch v r v' o -> NoDup o /\ forall x, In x o -> ~ In x v.
Proof.
  induction 1 as [v|v x r v' o I P IH|v x r v1 o1 v2 o2 N P1 [N1 D1] P2 [N2 D2]]; [split; [constructor|contradiction]|exact IH|].
  pose proof (pre_seen_iff _ _ _ _ P1) as S1. split.
  - constructor.
    + rewrite in_app_iff. intros [I|I]; [apply (D1 x I); left; reflexivity|apply (D2 x I); apply S1; right; left; reflexivity].
    + clear -N1 N2 D2 S1. assert (E : forall y, In y o1 -> ~ In y o2) by (intros y I J; apply (D2 y J); apply S1; auto). clear D2 S1.
      induction o1 as [|y o1 IH]; [exact N2|]. inversion N1; subst. cbn [app]. constructor; [|apply IH; [assumption|intros z I; apply E; right; exact I]].
      rewrite in_app_iff. intros [I|I]; [contradiction|]. apply (E y); [left; reflexivity|exact I].
  - intros y [->|I]; [exact N|]. apply in_app_or in I. destruct I as [I|I]; [specialize (D1 y I); simpl in D1; tauto|].
    specialize (D2 y I). rewrite S1 in D2. simpl in D2. tauto.
Qed.
Lemma pre_closed v r v' o : preorder ch v r v' o -> (forall x, In x r -> In x v') /\ forall x c, In x o -> In c (ch x) -> In c v'.
Proof.
  induction 1 as [v|v x r v' o I P [A B]|v x r v1 o1 v2 o2 N P1 [A1 B1] P2 [A2 B2]]; [split; contradiction| |].
  - split; [|exact B]. intros y [->|J]; [|auto]. apply (pre_seen_iff _ _ _ _ P). auto.
  - pose proof (pre_seen_iff _ _ _ _ P1) as S1. pose proof (pre_seen_iff _ _ _ _ P2) as S2. split.
    + intros y [->|J]; [|auto]. apply S2. right. apply S1. right. left. reflexivity.
    + intros y c [->|J] Ic; [apply S2; right; auto|]. apply in_app_or in J. destruct J as [J|J]; [apply S2; right; eauto|eauto].
Qed.
Lemma pre_reach s0 v r v' o : preorder ch v r v' o -> (forall x, In x r -> reach ch s0 x) -> forall x, In x o -> reach ch s0 x.
Proof.
  induction 1 as [v|v x r v' o I P IH|v x r v1 o1 v2 o2 N P1 IH1 P2 IH2]; intros H y J; [contradiction|apply IH; [intros z K; apply H; right; exact K|exact J]|].
  assert (R : reach ch s0 x) by (apply H; left; reflexivity).
  destruct J as [->|J]; [exact R|]. apply in_app_or in J. destruct J as [J|J].
  - apply IH1; [|exact J]. intros z K. eapply reach_step; eauto.
  - apply IH2; [|exact J]. intros z K. apply H. right. exact K.
Qed.
Lemma pre_exist s0 U : (forall y, reach ch s0 y -> In y U) -> forall k v r, (room U v <= k)%nat -> (forall x, In x r -> reach ch s0 x) -> exists v' o, preorder ch v r v' o.
Proof.
  intros HU. induction k as [|k IH].
  - intros v r R. induction r as [|x r IHr]; intros H; [exists v, []; constructor|]. destruct (in_dec Nat.eq_dec x v) as [I|N].
    + destruct IHr as (v' & o & P); [intros y J; apply H; right; exact J|]. exists v', o. constructor; assumption.
    + exfalso. pose proof (room_lt U v (x :: v) x (HU _ (H _ (or_introl eq_refl))) N (or_introl eq_refl) (fun y J => or_intror J)). lia.
  - intros v r. revert v. induction r as [|x r IHr]; intros v R H; [exists v, []; constructor|]. destruct (in_dec Nat.eq_dec x v) as [I|N].
    + destruct (IHr v R) as (v' & o & P); [intros y J; apply H; right; exact J|]. exists v', o. constructor; assumption.
    + assert (Rx : reach ch s0 x) by (apply H; left; reflexivity).
      pose proof (room_lt U v (x :: v) x (HU _ Rx) N (or_introl eq_refl) (fun y J => or_intror J)) as L.
      destruct (IH (x :: v) (ch x)) as (v1 & o1 & P1); [lia|intros y J; eapply reach_step; eauto|].
      assert (L1 : (room U v1 <= room U v)%nat).
      { unfold room. apply filter_le. intros y _ E. apply negb_true_iff, memb_false. apply negb_true_iff, memb_false in E. intros J. apply E. apply (pre_seen_iff _ _ _ _ P1). right. right. exact J. }
      destruct (IHr v1) as (v2 & o2 & P2); [lia|intros y J; apply H; right; exact J|].
      exists v2, (x :: o1 ++ o2). apply pre_visit with v1; assumption.
Qed.
Variable p : option (nat -> bool).
Notation loop := (fun f => dfs_loop f (fun x => Ok (ch x)) p).
Lemma dfs_pre v r v' o : preorder ch v r v' o -> forall r' w, drops v r r' -> (forall x, In x v <-> In x w) ->
  exists w' n, (forall x, In x v' <-> In x w') /\ forall f rest, loop (n + f)%nat w (rev (r' ++ rest)) = prefix (filter (wanted p) o) (loop f w' (rev rest)).
Proof.
  induction 1 as [v|v x r v' o I P IH|v x r v1 o1 v2 o2 N P1 IH1 P2 IH2]; intros r' w D H.
  - inversion D; subst. exists w, 0%nat. split; [exact H|]. intros f rest. unfold prefix. cbn. destruct (dfs_loop f _ p w _); reflexivity.
  - inversion D as [|? ? q D'|? ? ? J D']; subst.
    + destruct (IH q w D' H) as (w' & n & H1 & H2). exists w', (S n). split; [exact H1|]. intros f rest. cbn [Nat.add app dfs_loop]. rewrite pop_top.
      replace (memb x w) with true by (symmetry; apply memb_In, H, I). apply H2.
    + apply IH; assumption.
  - inversion D as [|? ? q D'|? ? ? J D']; subst; [|contradiction].
    destruct (IH1 (filter (fun c => negb (memb c (x :: w))) (ch x)) (x :: w)) as (w1 & n1 & A1 & A2).
    { apply drops_filter. intros y. simpl. rewrite H. tauto. }
    { intros y. simpl. rewrite H. tauto. }
    destruct (IH2 q w1) as (w2 & n2 & B1 & B2); [|exact A1|].
    { apply (drops_more v); [|exact D']. intros y J. apply (pre_seen_iff _ _ _ _ P1). right. right. exact J. }
    exists w2, (S (n1 + n2)). split; [exact B1|]. intros f rest. cbn [Nat.add app dfs_loop]. rewrite pop_top.
    replace (memb x w) with false by (symmetry; apply memb_false; rewrite <- H; exact N).
    rewrite push, <- Nat.add_assoc, A2, B2. unfold prefix. cbn [fst snd filter]. change (emit p x) with (wanted p x). rewrite filter_app. destruct (wanted p x); cbn [app]; rewrite <- ?app_assoc; reflexivity.
Qed.
Notation lloop := (fun f => leaves_loop f (fun x => Ok (ch x)) p).
Lemma closed_app v w o o2 : (forall x, In x w <-> In x o \/ In x v) -> closed_ones ch v (o ++ o2) = closed_ones ch v o ++ closed_ones ch w o2.
Proof.
  assert (G : forall o2 v w, (forall x, In x v <-> In x w) -> closed_ones ch v o2 = closed_ones ch w o2).
  { clear. induction o2 as [|x o2 IH]; intros v w H; cbn [closed_ones]; [reflexivity|]. f_equal; [|apply IH; intros y; simpl; rewrite H; tauto].
    erewrite forallb_ext; [reflexivity|]. intros c. cbn beta. destruct (in_dec Nat.eq_dec c (x :: v)) as [I|N], (in_dec Nat.eq_dec c (x :: w)) as [I'|N']; try reflexivity; simpl in *; rewrite H in *; tauto. }
  revert v. induction o as [|x o IH]; intros v H; cbn [app closed_ones]; [apply G; intros x; rewrite H; simpl; tauto|].
  rewrite <- app_assoc. f_equal. apply IH. intros y. rewrite H. simpl. tauto.
Qed.
Lemma leaves_pre v r v' o : preorder ch v r v' o -> forall r' w, drops v r r' -> (forall x, In x v <-> In x w) ->
  exists w' n, (forall x, In x v' <-> In x w') /\ forall f rest, lloop (n + f)%nat w (rev (r' ++ rest)) = prefix (filter (wanted p) (closed_ones ch v o)) (lloop f w' (rev rest)).
Proof.
  induction 1 as [v|v x r v' o I P IH|v x r v1 o1 v2 o2 N P1 IH1 P2 IH2]; intros r' w D H.
  - inversion D; subst. exists w, 0%nat. split; [exact H|]. intros f rest. unfold prefix. cbn. destruct (leaves_loop f _ p w _); reflexivity.
  - inversion D as [|? ? q D'|? ? ? J D']; subst.
    + destruct (IH q w D' H) as (w' & n & H1 & H2). exists w', (S n). split; [exact H1|]. intros f rest. cbn [Nat.add app leaves_loop]. rewrite pop_top.
      replace (memb x w) with true by (symmetry; apply memb_In, H, I). apply H2.
    + apply IH; assumption.
  - inversion D as [|? ? q D'|? ? ? J D']; subst; [|contradiction].
    destruct (IH1 (filter (fun c => negb (memb c (x :: w))) (ch x)) (x :: w)) as (w1 & n1 & A1 & A2).
    { apply drops_filter. intros y. simpl. rewrite H. tauto. }
    { intros y. simpl. rewrite H. tauto. }
    destruct (IH2 q w1) as (w2 & n2 & B1 & B2); [|exact A1|].
    { apply (drops_more v); [|exact D']. intros y J. apply (pre_seen_iff _ _ _ _ P1). right. right. exact J. }
    exists w2, (S (n1 + n2)). split; [exact B1|]. intros f rest. cbn [Nat.add app leaves_loop]. rewrite pop_top.
    replace (memb x w) with false by (symmetry; apply memb_false; rewrite <- H; exact N).
    rewrite push, <- Nat.add_assoc, A2, B2. unfold prefix. cbn [fst snd closed_ones]. rewrite (closed_app (x :: v) v1 o1 o2 (pre_seen_iff _ _ _ _ P1)), !filter_app, <- !app_assoc. f_equal.
    destruct (forallb (fun c => if in_dec Nat.eq_dec c (x :: v) then true else false) (ch x)) eqn:Fb.
    + assert (E : filter (fun c => negb (memb c (x :: w))) (ch x) = []).
      { apply (filter_none x). intros c Ic. rewrite forallb_forall in Fb. specialize (Fb c Ic). cbn beta in Fb. destruct (in_dec Nat.eq_dec c (x :: v)) as [J|]; [|discriminate]. simpl in *. rewrite <- H. exact J. }
      rewrite E. unfold emit, wanted. cbn. destruct p as [g|]; [destruct (g x)|]; reflexivity.
    + destruct (filter (fun c => negb (memb c (x :: w))) (ch x)) as [|c l] eqn:E; [|reflexivity]. exfalso. rewrite (filter_none x) in E.
      assert (Q : forallb (fun c => if in_dec Nat.eq_dec c (x :: v) then true else false) (ch x) = true); [|congruence].
      apply forallb_forall. intros c Ic. destruct (in_dec Nat.eq_dec c (x :: v)) as [|Nn]; [reflexivity|]. elim Nn. apply E in Ic. simpl in *. rewrite H. exact Ic.
Qed.
End Dfs.
Theorem dfs_order ch s0 : finite_from ch s0 -> exists v o, preorder ch [] [s0] v o /\
  (forall p, settles (fun f => dfs f s0 (fun x => Ok (ch x)) p) (filter (wanted p) o, Ok tt)) /\
  (forall p, settles (fun f => dfs_leaves f s0 (fun x => Ok (ch x)) p) (filter (wanted p) (closed_ones ch [] o), Ok tt)).
Proof.
  intros [U HU]. destruct (pre_exist ch s0 U HU (room U []) [] [s0]) as (v & o & P); [lia|intros x [->|[]]; exists 0%nat; constructor|].
  exists v, o. split; [exact P|]. split; intros p.
  - destruct (dfs_pre ch p _ _ _ _ P [s0] [] (drops_refl _ _)) as (w & n & _ & E); [tauto|]. exists n. intros k L. unfold dfs. specialize (E (k - n)%nat []). replace (n + (k - n))%nat with k in E by lia.
    cbn [app rev] in E. rewrite E. unfold prefix. destruct (k - n)%nat; cbn; rewrite app_nil_r; reflexivity.
  - destruct (leaves_pre ch p _ _ _ _ P [s0] [] (drops_refl _ _)) as (w & n & _ & E); [tauto|]. exists n. intros k L. unfold dfs_leaves. specialize (E (k - n)%nat []). replace (n + (k - n))%nat with k in E by lia.
    cbn [app rev] in E. rewrite E. unfold prefix. destruct (k - n)%nat; cbn; rewrite app_nil_r; reflexivity.
Qed.
Theorem dfs_nodes ch s0 v o : preorder ch [] [s0] v o -> NoDup o /\ forall x, In x o <-> reach ch s0 x.
Proof.
  intros P. destruct (pre_NoDup _ _ _ _ _ P) as [N _]. split; [exact N|]. destruct (pre_closed _ _ _ _ _ P) as [A B]. pose proof (pre_seen_iff _ _ _ _ _ P) as S.
  intros x. split.
  - apply (pre_reach ch s0 _ _ _ _ P). intros y [->|[]]. exists 0%nat. constructor.
  - intros [n W]. assert (G : In x v); [|apply S in G; destruct G as [G|[]]; exact G]. induction W as [|? ? ? ? W IH I].
    + apply A. left. reflexivity.
    + specialize (IH P A). apply S in IH. destruct IH as [IH|[]]. exact (B _ _ IH I).
Qed.
Lemma closed_ones_In ch : forall o seen x, In x (closed_ones ch seen o) <-> exists a b, o = a ++ x :: b /\ forall c, In c (ch x) -> In c (a ++ [x]) \/ In c seen.
Proof.
  induction o as [|y o IH]; intros seen x; cbn [closed_ones].
  - split; [contradiction|]. intros ([|? a] & b & E & _); discriminate.
  - rewrite in_app_iff. split.
    + intros [I|I].
      * destruct (forallb _ (ch y)) eqn:F; [|contradiction]. destruct I as [<-|[]]. exists [], o. split; [reflexivity|]. intros c Ic. rewrite forallb_forall in F. specialize (F c Ic). cbn beta in F.
        destruct (in_dec Nat.eq_dec c (y :: seen)) as [J|]; [|discriminate]. simpl in J |- *. tauto.
      * apply IH in I. destruct I as (a & b & -> & Q). exists (y :: a), b. split; [reflexivity|]. intros c Ic. destruct (Q c Ic) as [J|J]; simpl in *; tauto.
    + intros ([|z a] & b & E & Q).
      * injection E as -> ->. left. assert (F : forallb (fun c => if in_dec Nat.eq_dec c (x :: seen) then true else false) (ch x) = true).
        { apply forallb_forall. intros c Ic. destruct (in_dec Nat.eq_dec c (x :: seen)) as [|Nn]; [reflexivity|]. elim Nn. destruct (Q c Ic) as [J|J]; simpl in *; tauto. }
        rewrite F. left. reflexivity.
      * injection E as -> ->. right. apply IH. exists a, b. split; [reflexivity|]. intros c Ic. destruct (Q c Ic) as [J|J]; simpl in *; tauto.
Qed.
Lemma closed_NoDup ch : forall o seen, NoDup o -> NoDup (closed_ones ch seen o).
Proof.
  induction o as [|y o IH]; intros seen N; cbn [closed_ones]; [constructor|]. inversion N as [|? ? Ny No]; subst. specialize (IH (y :: seen) No).
  destruct (forallb _ (ch y)); [|exact IH]. cbn [app]. constructor; [|exact IH]. intros I. apply closed_ones_In in I. destruct I as (a & b & -> & _). apply Ny, in_elt.
Qed.
(** in a traversal every node but the first comes after one of its parents *)
Lemma pre_parents ch v r v' o : preorder ch v r v' o -> forall a x b, o = a ++ x :: b -> In x r \/ exists y, In y a /\ In x (ch y).
Proof.
  induction 1 as [v|v x r v' o I P IH|v x r v1 o1 v2 o2 N P1 IH1 P2 IH2]; intros a z b E.
  - destruct a; discriminate.
  - destruct (IH a z b E) as [J|J]; [left; right; exact J|right; exact J].
  - destruct a as [|y a]; [injection E as -> _; left; left; reflexivity|]. injection E as -> E. destruct (Nat.lt_ge_cases (length a) (length o1)) as [L|L].
    + assert (E1 : exists b1, o1 = a ++ z :: b1).
      { assert (Q : nth_error (o1 ++ o2) (length a) = Some z) by (rewrite E, nth_error_app2, Nat.sub_diag by lia; reflexivity). rewrite nth_error_app1 in Q by exact L.
        apply nth_error_split in Q. destruct Q as (l1 & l2 & Q & Ql). exists l2. rewrite Q. f_equal.
        assert (F : firstn (length a) (o1 ++ o2) = a) by (rewrite E, firstn_app, Nat.sub_diag, firstn_all; cbn; apply app_nil_r).
        rewrite Q, <- app_assoc, firstn_app, Ql, Nat.sub_diag in F. cbn in F. rewrite app_nil_r, <- Ql, firstn_all in F. exact F. }
      destruct E1 as (b1 & ->). destruct (IH1 a z b1 eq_refl) as [J|(w & J & K)]; right; [exists y; split; [left; reflexivity|exact J]|exists w; split; [right; exact J|exact K]].
    + assert (E2 : exists a2, o2 = a2 ++ z :: b /\ a = o1 ++ a2).
      { exists (skipn (length o1) a). assert (F : firstn (length o1) (o1 ++ o2) = firstn (length o1) (a ++ z :: b)) by (rewrite E; reflexivity).
        rewrite firstn_app, Nat.sub_diag, firstn_all, firstn_app in F. replace (length o1 - length a)%nat with 0%nat in F by lia. cbn in F. rewrite !app_nil_r in F.
        assert (G : skipn (length o1) (o1 ++ o2) = skipn (length o1) (a ++ z :: b)) by (rewrite E; reflexivity).
        rewrite skipn_app, Nat.sub_diag, skipn_all, skipn_app in G. replace (length o1 - length a)%nat with 0%nat in G by lia. cbn in G. split; [exact G|].
        rewrite F at 1. rewrite firstn_skipn. reflexivity. }
      destruct E2 as (a2 & -> & ->). destruct (IH2 a2 z b eq_refl) as [J|(w & J & K)]; [left; right; exact J|right; exists w; split; [right; apply in_or_app; right; exact J|exact K]].
Qed.
Theorem leaves_nodes ch s0 v o : preorder ch [] [s0] v o -> NoDup (closed_ones ch [] o) /\
  (forall x, In x (closed_ones ch [] o) <-> exists a b, o = a ++ x :: b /\ forall c, In c (ch x) -> In c (a ++ [x])) /\
  (forall x, reach ch s0 x -> ch x = [] -> In x (closed_ones ch [] o)) /\
  (tree_from ch s0 -> forall x, In x (closed_ones ch [] o) -> ch x = []).
Proof.
  intros P. destruct (dfs_nodes ch s0 v o P) as [N R]. split; [apply closed_NoDup, N|].
  assert (Q : forall x, In x (closed_ones ch [] o) <-> exists a b, o = a ++ x :: b /\ forall c, In c (ch x) -> In c (a ++ [x])).
  { intros x. rewrite closed_ones_In. split; intros (a & b & E & H); exists a, b; (split; [exact E|]); intros c I; [destruct (H c I) as [J|[]]; exact J|left; auto]. }
  split; [exact Q|]. split.
  - intros x Rx E. apply Q. apply R in Rx. apply in_split in Rx. destruct Rx as (a & b & ->). exists a, b. split; [reflexivity|]. rewrite E. contradiction.
  - intros (T1 & T2) x I. apply Q in I. destruct I as (a & b & E & H). destruct (ch x) as [|c l] eqn:Ec; [reflexivity|]. exfalso.
    assert (Rx : reach ch s0 x) by (apply R; rewrite E; apply in_elt). assert (Ic : In c (ch x)) by (rewrite Ec; left; reflexivity).
    specialize (H c (or_introl eq_refl)). assert (E2 : exists a1 b1, a ++ [x] = a1 ++ c :: b1) by (apply in_split; exact H). destruct E2 as (a1 & b1 & E2).
    assert (Eo : o = a1 ++ c :: (b1 ++ b)) by (rewrite E; change (x :: b) with ([x] ++ b); rewrite app_assoc, E2, <- app_assoc; reflexivity).
    destruct (pre_parents ch _ _ _ _ P _ _ _ Eo) as [[->|[]]|(y & Iy & Jy)]; [exact (T1 x Rx Ic)|].
    assert (Ry : reach ch s0 y) by (apply R; rewrite Eo; apply in_or_app; auto). assert (y = x) by (apply (T2 y x c); auto). subst y.
    (* x comes before c, and c no later than x *)
    apply in_split in Iy. destruct Iy as (a3 & a4 & ->). rewrite E in Eo. rewrite <- app_assoc in Eo. cbn [app] in Eo.
    assert (L : a = a3).
    { clear -N E Eo. rewrite E in N. revert Eo. generalize (a4 ++ c :: b1 ++ b) as q. intros q. revert N a3. clear. induction a as [|z a IH]; intros N a3 Eo; destruct a3 as [|w a3]; [reflexivity| | |]; cbn [app] in *.
      - exfalso. apply NoDup_cons_iff in N. injection Eo as E1 E2. apply (proj1 N). rewrite E2. apply in_elt.
      - exfalso. apply NoDup_cons_iff in N. injection Eo as E1 E2. apply (proj1 N). rewrite E1. apply in_elt.
      - apply NoDup_cons_iff in N. injection Eo as E1 E2. subst w. f_equal. apply IH; [apply N|exact E2]. }
    subst a3. assert (El : length (a ++ [x]) = length ((a ++ x :: a4) ++ c :: b1)) by (rewrite E2; reflexivity). repeat (rewrite app_length in El; cbn [length] in El). lia.
Qed.

(** ** children_of *)
Lemma yielder_node fields f t h n : dget fields f = Some t -> dt_name t = TNodeRef -> (forall v, dget (n_fields (h_node h n)) f = Some v -> exists m, v = VNode m) ->
  exists y, yielder_of fields f = Ok y /\ y h (VNode n) = Ok (referred h n f).
Proof.
  intros T N V. unfold yielder_of, dgetE. rewrite T. cbn [rbind]. rewrite N. eexists. split; [reflexivity|]. unfold node_iter, field_in, referred, n_fieldsof. cbn [rbind].
  destruct (dget (n_fields (h_node h n)) f) as [v|] eqn:E; [|reflexivity]. destruct (V v eq_refl) as [m ->]. reflexivity.
Qed.
Lemma yielder_many fields f t h n : dget fields f = Some t -> dt_name t = TNodeRefMany -> (forall v, dget (n_fields (h_node h n)) f = Some v -> exists l, v = VNodeList l) ->
  exists y, yielder_of fields f = Ok y /\ y h (VNode n) = Ok (referred h n f).
Proof.
  intros T N V. unfold yielder_of, dgetE. rewrite T. cbn [rbind]. rewrite N. eexists. split; [reflexivity|]. unfold node_array_iter, field_in, referred, n_fieldsof. cbn [rbind].
  destruct (dget (n_fields (h_node h n)) f) as [v|] eqn:E; [|reflexivity]. destruct (V v eq_refl) as [l ->]. reflexivity.
Qed.
Lemma yielder_fits fields h n f : field_fits fields h n f -> exists y, yielder_of fields f = Ok y /\ y h (VNode n) = Ok (referred h n f).
Proof. intros (t & T & [[N V]|[N V]]); [exact (yielder_node _ _ _ _ _ T N V)|exact (yielder_many _ _ _ _ _ T N V)]. Qed.
Theorem one_field fields h n f : field_fits fields h n f -> exists y, children_of fields [f] = Ok y /\ y h (VNode n) = Ok (referred h n f).
Proof. apply yielder_fits. Qed.
(** several fields, only the last of which the node fills *)
Theorem last_field fields h n : forall fs f, (forall g, In g (fs ++ [f]) -> field_fits fields h n g) -> (forall g, In g fs -> referred h n g = []) ->
  exists y, children_of fields (fs ++ [f]) = Ok y /\ y h (VNode n) = Ok (flat_map (referred h n) (fs ++ [f])).
Proof.
  intros fs f F E.
  assert (M : exists ys, mapM (yielder_of fields) (fs ++ [f]) = Ok ys /\ compose h ys (VNode n) = Ok (flat_map (referred h n) (fs ++ [f]))).
  { induction fs as [|g fs IH]; cbn [app mapM flat_map].
    - destruct (yielder_fits fields h n f (F f (or_introl eq_refl))) as (y & -> & Y). cbn [rbind]. exists [y]. split; [reflexivity|]. cbn [compose]. rewrite Y. cbn [rbind]. rewrite app_nil_r. reflexivity.
    - destruct (yielder_fits fields h n g (F g (or_introl eq_refl))) as (y & -> & Y). cbn [rbind].
      destruct IH as (ys & -> & C); [intros x I; apply F; right; exact I|intros x I; apply E; right; exact I|]. cbn [rbind]. exists (y :: ys). split; [reflexivity|].
      cbn [compose]. rewrite Y. cbn [rbind]. rewrite (E g (or_introl eq_refl)). cbn [last app]. rewrite C. reflexivity. }
  destruct M as (ys & M & C). destruct fs as [|g fs].
  - cbn [app] in *. unfold children_of. cbn [mapM] in M. destruct (yielder_of fields f) as [y|]; [|discriminate]. cbn [rbind] in M. injection M as <-. exists y. split; [reflexivity|].
    cbn [compose] in C. destruct (y h (VNode n)) as [l|]; [|discriminate]. cbn [rbind] in C. rewrite app_nil_r in C. exact C.
  - cbn [app] in *. unfold children_of. assert (Q : exists a b, fs ++ [f] = a :: b) by (destruct fs; cbn; eauto). destruct Q as (a & b & Q). rewrite Q in *. rewrite M. cbn [rbind]. exists (fun h => compose h ys). auto.
Qed.
Theorem no_children fields f : (forall t, dget fields f = Some t -> dt_name t <> TNodeRef /\ dt_name t <> TNodeRefMany) ->
  children_of fields [f] = Err (if dmem fields f then ValueError else KeyError).
Proof.
  intros H. cbn. unfold yielder_of, dgetE, dmem. destruct (dget fields f) as [t|]; [|reflexivity]. destruct (H t eq_refl) as [A B]. cbn [rbind]. destruct (dt_name t); try reflexivity; congruence.
Qed.
