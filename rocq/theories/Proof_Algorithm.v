(** Proofs about dominant_right. *)
From Verif Require Import PyBase PyBaseFacts Model_Heap Model_Layer Model_Text Model_Algorithm Spec_Algorithm.
From Coq Require Import Sorting.Sorted Sorting.Permutation.
Local Open Scope Z_scope.

(** A stable sort of a list whose elements stand in R keeps R between elements of equal key. *)
Section Sorted2.
Context {A K : Type} (key : A -> K) (leb : K -> K -> bool).
Hypothesis leb_total : forall x y, leb x y = true \/ leb y x = true.
Hypothesis leb_trans : forall x y z, leb x y = true -> leb y z = true -> leb x z = true.
Variable R : A -> A -> Prop.
Definition le2 (a b : A) : Prop := leb (key a) (key b) = true /\ (leb (key b) (key a) = true -> R a b).
Lemma sinsert_sorted2 x l : StronglySorted le2 l -> Forall (R x) l -> StronglySorted le2 (sinsert key leb x l).
Proof.
  induction l as [|y l IH]; simpl; intros H F; [repeat constructor|].
  inversion H as [|? ? Hs Hf]; subst. inversion F as [|? ? F1 F2]; subst.
  destruct (leb (key x) (key y)) eqn:E.
  - constructor; [assumption|]. constructor; [split; auto|].
    rewrite Forall_forall in *. intros a Ia. split; [|auto]. eapply leb_trans; [exact E|]. apply Hf. exact Ia.
  - constructor; [auto|]. eapply Permutation_Forall; [apply sinsert_perm|]. constructor; [|assumption].
    split; [destruct (leb_total (key x) (key y)); congruence|congruence].
Qed.
Lemma ssort_sorted2 l : StronglySorted R l -> StronglySorted le2 (ssort key leb l).
Proof.
  induction 1 as [|x l Hs IH F]; [constructor|]. apply sinsert_sorted2; [exact IH|].
  rewrite Forall_forall in *. intros y I. apply F. eapply Permutation_in; [symmetry; apply (ssort_perm key leb)|exact I].
Qed.
End Sorted2.

Section Dominant.
Context {A : Type}.
Variable segs : list (seg A).
Hypothesis proper : forall x, In x segs -> sg_start x <= sg_stop x.
Notation has i x := (nth_error segs i = Some x).
Definition ext (x : seg A) : Z * Z := fst x.
Definition last_of (x : seg A) : Z := if negb (sg_start x =? sg_stop x) then sg_stop x - 1 else sg_stop x.
Definition ev := ((Z * Z) * (nat * seg A))%type.
Definition start_ev (i : nat) (x : seg A) : ev := ((sg_start x, 0), (i, x)).
Definition stop_ev (i : nat) (x : seg A) : ev := ((last_of x, 1), (i, x)).
Lemma dr_events_eq l : forall i, dr_events i l = match l with [] => [] | x :: r => start_ev i x :: stop_ev i x :: dr_events (S i) r end.
Proof. destruct l as [|x r]; intros i; [reflexivity|]. unfold stop_ev, last_of. simpl. destruct (negb _); reflexivity. Qed.
Lemma dr_events_in l : forall i e, In e (dr_events i l) <-> exists k x, nth_error l k = Some x /\ (e = start_ev (i + k) x \/ e = stop_ev (i + k) x).
Proof.
  induction l as [|x r IH]; intros i e; rewrite dr_events_eq.
  - split; [intros []|]. intros ([|k] & x & H & _); discriminate H.
  - simpl. rewrite IH. split.
    + intros [H|[H|(k & y & H & E)]].
      * exists 0%nat, x. rewrite Nat.add_0_r. auto.
      * exists 0%nat, x. rewrite Nat.add_0_r. auto.
      * exists (S k), y. rewrite Nat.add_succ_r. auto.
    + intros ([|k] & y & H & E); simpl in H.
      * injection H as <-. rewrite Nat.add_0_r in E. destruct E; auto.
      * right. right. exists k, y. rewrite Nat.add_succ_r in E. auto.
Qed.
(** the order of equal events: by place in the list *)
Definition idx (e : ev) : nat := fst (snd e).
Definition raw_before (a b : ev) : Prop := (idx a < idx b)%nat \/ (idx a = idx b /\ snd (fst a) < snd (fst b)).
Lemma dr_events_order l : forall i, StronglySorted raw_before (dr_events i l) /\ Forall (fun e => (i <= idx e)%nat) (dr_events i l).
Proof.
  induction l as [|x r IH]; intros i; rewrite dr_events_eq; [split; constructor|].
  destruct (IH (S i)) as (Hs & F). split.
  - constructor; [constructor; [exact Hs|]|].
    + eapply Forall_impl; [|exact F]. intros e He. left. cbv beta in He. change (i < idx e)%nat. lia.
    + constructor; [right; split; [reflexivity|simpl; lia]|]. eapply Forall_impl; [|exact F]. intros e He. left. cbv beta in He. change (i < idx e)%nat. lia.
  - constructor; [reflexivity|]. constructor; [reflexivity|]. eapply Forall_impl; [|exact F]. simpl. intros; lia.
Qed.
Definition T (a b : ev) : Prop :=
  fst (fst a) < fst (fst b) \/ (fst (fst a) = fst (fst b) /\ (snd (fst a) < snd (fst b) \/ (snd (fst a) = snd (fst b) /\ (idx a < idx b)%nat))).
Definition L : list ev := ssort fst lex_leb (dr_events 0 segs).
Lemma L_sorted : StronglySorted T L.
Proof.
  assert (H : StronglySorted (le2 fst lex_leb raw_before) L).
  { apply ssort_sorted2; [exact lex_total|exact lex_trans|]. apply dr_events_order. }
  induction H as [|a l Hs IH F]; constructor; [exact IH|]. eapply Forall_impl; [|exact F].
  intros b [H1 H2]. rewrite lex_leb_iff in H1, H2. unfold T, raw_before in *. lia.
Qed.
Lemma L_in e : In e L <-> exists i x, has i x /\ (e = start_ev i x \/ e = stop_ev i x).
Proof.
  rewrite <- (dr_events_in segs 0 e). unfold L. pose proof (@ssort_perm ev (Z * Z) fst lex_leb (dr_events 0 segs)) as P.
  split; apply Permutation_in; [symmetry|]; exact P.
Qed.
Lemma sorted_split (a b : list ev) x : L = a ++ x :: b -> (forall e, In e a -> T e x) /\ (forall e, In e b -> T x e).
Proof.
  intros E. pose proof L_sorted as H. rewrite E in H. clear E. induction a as [|y a IH]; simpl in *.
  - inversion H as [|? ? _ F]; subst. split; [intros e []|]. rewrite Forall_forall in F. exact F.
  - inversion H as [|? ? Hs F]; subst. destruct (IH Hs) as (I1 & I2). split; [|exact I2].
    intros e [<-|I]; [|auto]. rewrite Forall_forall in F. apply F, in_or_app. right. left. reflexivity.
Qed.
Lemma has_proper i x : has i x -> sg_start x <= last_of x.
Proof. intros H. apply nth_error_In, proper in H. unfold last_of. destruct (Z.eqb_spec (sg_start x) (sg_stop x)); simpl; lia. Qed.
Lemma on_ext i x q : has i x -> on (ext x) q <-> sg_start x <= q <= last_of x.
Proof.
  intros H. apply nth_error_In, proper in H. unfold on, ext, last_of, sg_start, sg_stop in *.
  destruct (Z.eqb_spec (fst (fst x)) (snd (fst x))); simpl; lia.
Qed.
Lemma start_in i x : has i x -> In (start_ev i x) L.
Proof. intros H. apply L_in. exists i, x. auto. Qed.
Lemma stop_in i x : has i x -> In (stop_ev i x) L.
Proof. intros H. apply L_in. exists i, x. auto. Qed.
Lemma start_stop i x : has i x -> T (start_ev i x) (stop_ev i x).
Proof. intros H. apply has_proper in H. unfold T, start_ev, stop_ev, idx. simpl. lia. Qed.
Definition beaten (j : nat) (y : seg A) : Prop := exists i x, has i x /\ shares (ext x) (ext y) /\ beats i (ext x) j (ext y).

Lemma loop_ok todo : forall done open, L = done ++ todo ->
  (forall i x, open = Some (i, x) -> has i x /\ In (start_ev i x) done /\ In (stop_ev i x) todo) ->
  (forall j y, has j y -> In (start_ev j y) done -> In (stop_ev j y) todo -> open <> Some (j, y) -> beaten j y) ->
  exists l, dr_loop open todo = map (fun p => sg_item (snd p)) l /\
    (forall i x, In (i, x) l -> has i x /\ (open = Some (i, x) \/ In (start_ev i x) todo)) /\
    StronglySorted (fun a b => last_of (snd a) < sg_start (snd b)) l /\
    (forall j y, has j y -> In (stop_ev j y) todo -> In (j, y) l \/ beaten j y).
Proof.
  induction todo as [|e todo IH]; intros done open EL Ho Hd.
  { exists []. split; [reflexivity|]. split; [intros i x []|]. split; [constructor|]. intros j y _ []. }
  destruct (sorted_split _ _ _ EL) as (Bef & Aft).
  assert (EL' : L = (done ++ [e]) ++ todo) by (rewrite <- app_assoc; exact EL).
  assert (Ie : In e L) by (rewrite EL; apply in_or_app; right; left; reflexivity).
  apply L_in in Ie. destruct Ie as (i & x & Hi & Ee).
  assert (NT : forall a b : ev, T a b -> T b a -> False) by (unfold T; intros; lia).
  destruct Ee as [->| ->].
  - (* a segment starts *)
    assert (Sto : In (stop_ev i x) todo).
    { pose proof (stop_in i x Hi) as I. rewrite EL in I. apply in_app_or in I. destruct I as [I|[I|I]]; [|discriminate I|exact I].
      exfalso. eapply NT; [apply Bef; exact I|apply start_stop; exact Hi]. }
    assert (Nx : forall j y, In (start_ev j y) (start_ev i x :: todo) -> In (start_ev j y) done -> False).
    { intros j y I1 I2. apply Bef in I2. destruct I1 as [I1|I1]; [rewrite <- I1 in I2; unfold T in I2; lia|].
      eapply NT; [exact I2|apply Aft; exact I1]. }
    assert (Inew : forall j y, In (start_ev j y) (done ++ [start_ev i x]) -> In (start_ev j y) done \/ (j = i /\ y = x)).
    { intros j y I. apply in_app_or in I. destruct I as [I|[I|[]]]; [auto|]. injection I. intros -> -> _. auto. }
    assert (Istop : forall j y, In (stop_ev j y) (start_ev i x :: todo) -> In (stop_ev j y) todo).
    { intros j y [I|I]; [discriminate I|exact I]. }
    assert (Step : forall open', (open' = Some (i, x) \/ (open' = open /\ open <> None)) ->
      (forall j y, has j y -> In (start_ev j y) done \/ (j, y) = (i, x) -> In (stop_ev j y) todo -> open' <> Some (j, y) -> beaten j y) ->
      exists l, dr_loop open' todo = map (fun p => sg_item (snd p)) l /\
        (forall i0 x0, In (i0, x0) l -> has i0 x0 /\ (open = Some (i0, x0) \/ In (start_ev i0 x0) (start_ev i x :: todo))) /\
        StronglySorted (fun a b => last_of (snd a) < sg_start (snd b)) l /\
        (forall j y, has j y -> In (stop_ev j y) (start_ev i x :: todo) -> In (j, y) l \/ beaten j y)).
    { intros open' Op Hb. destruct (IH (done ++ [start_ev i x]) open' EL') as (l & E1 & E2 & E3 & E4).
      - intros i0 x0 E. destruct Op as [-> |[-> _]].
        + injection E as <- <-. split; [exact Hi|]. split; [apply in_or_app; right; left; reflexivity|exact Sto].
        + destruct (Ho i0 x0 E) as (O1 & O2 & O3). split; [exact O1|]. split; [apply in_or_app; auto|auto].
      - intros j y Hj I1 I2 N. apply Hb; auto. destruct (Inew j y I1) as [I|[-> ->]]; auto.
      - exists l. split; [exact E1|]. split; [|split; [exact E3|]].
        + intros i0 x0 I0. destruct (E2 i0 x0 I0) as (H0 & [O|I]); split; auto; [|right; right; exact I].
          destruct Op as [-> |[-> _]]; [injection O as <- <-; right; left; reflexivity|auto].
        + intros j y Hj I. apply E4; auto. }
    unfold start_ev at 1. cbn [dr_loop]. change (0 =? 0) with true. cbn [dr_loop]. cbv iota.
    destruct open as [[o y]|].
    + destruct (Ho o y eq_refl) as (O1 & O2 & O3). apply Istop in O3. pose proof (Bef _ O2) as B1. pose proof (Aft _ O3) as A1.
      pose proof (has_proper i x Hi) as P1. unfold T, start_ev, stop_ev, idx in B1, A1. simpl in B1, A1.
      assert (Sh : on (ext x) (sg_start x) /\ on (ext y) (sg_start x)).
      { rewrite (on_ext i x) by exact Hi. rewrite (on_ext o y) by exact O1. lia. }
      destruct (Z.leb_spec (sg_stop y - sg_start y) (sg_stop x - sg_start x)) as [Le|Gt].
      * apply Step; [left; reflexivity|]. intros j z Hj [I|E] I2 N; [|congruence].
        destruct (Nat.eq_dec j o) as [->|Nj].
        -- assert (z = y) by congruence. subst z. exists i, x. split; [exact Hi|]. split; [exists (sg_start x); exact Sh|].
           unfold beats, ext, sg_start, sg_stop in *. lia.
        -- apply (Hd j z Hj I); [right; exact I2|]. intros E. injection E. intros; congruence.
      * apply Step; [right; split; [reflexivity|discriminate]|]. intros j z Hj [I|E] I2 N.
        -- apply (Hd j z Hj I); [right; exact I2|exact N].
        -- injection E as -> ->. exists o, y. split; [exact O1|]. split; [exists (sg_start x); tauto|].
           unfold beats, ext, sg_start, sg_stop in *. lia.
    + apply Step; [left; reflexivity|]. intros j z Hj [I|E] I2 N; [|congruence].
      apply (Hd j z Hj I); [right; exact I2|discriminate].
  - (* a segment stops *)
    assert (Sta : In (start_ev i x) done).
    { pose proof (start_in i x Hi) as I. rewrite EL in I. apply in_app_or in I. destruct I as [I|[I|I]]; [exact I|discriminate I|].
      exfalso. eapply NT; [apply Aft; exact I|apply start_stop; exact Hi]. }
    assert (Rest : forall j y, In (stop_ev j y) (stop_ev i x :: todo) -> (j, y) <> (i, x) -> In (stop_ev j y) todo).
    { intros j y [I|I] N; [|exact I]. injection I. intros -> -> _. congruence. }
    assert (Nst : forall j y, In (start_ev j y) (done ++ [stop_ev i x]) -> In (start_ev j y) done).
    { intros j y I. apply in_app_or in I. destruct I as [I|[I|[]]]; [exact I|discriminate I]. }
    unfold stop_ev at 1. cbn [dr_loop]. change (1 =? 0) with false. cbv iota.
    destruct open as [[o y]|]; [destruct (Nat.eqb_spec o i) as [->|No]|].
    + destruct (Ho i y eq_refl) as (O1 & _ & _). assert (y = x) by congruence. subst y.
      destruct (IH (done ++ [stop_ev i x]) None EL') as (l & E1 & E2 & E3 & E4).
      * discriminate.
      * intros j z Hj I1 I2 _. assert ((j, z) <> (i, x)).
        { intros E. injection E as -> ->. pose proof (Aft _ I2) as X. unfold T in X. lia. }
        apply (Hd j z Hj (Nst j z I1)); [right; exact I2|congruence].
      * exists ((i, x) :: l). split; [simpl; rewrite E1; reflexivity|]. split; [|split].
        -- intros i0 x0 [E|I0]; [injection E as <- <-; auto|]. destruct (E2 i0 x0 I0) as (H0 & [O|I]); [discriminate O|].
           split; [exact H0|right; right; exact I].
        -- constructor; [exact E3|]. rewrite Forall_forall. intros [j z] I. destruct (E2 j z I) as (H0 & [O|I']); [discriminate O|].
           pose proof (Aft _ I') as X. unfold T, stop_ev, start_ev, idx in X. simpl in X. simpl. lia.
        -- intros j z Hj I. destruct (Nat.eq_dec j i) as [->|Nj]; [left; left; congruence|].
           destruct (E4 j z Hj) as [I1|B]; [apply Rest; [exact I|congruence]|left; right; exact I1|right; exact B].
    + destruct (IH (done ++ [stop_ev i x]) (Some (o, y)) EL') as (l & E1 & E2 & E3 & E4).
      * intros i0 x0 E. destruct (Ho i0 x0 E) as (O1 & O2 & O3). split; [exact O1|]. split; [apply in_or_app; auto|].
        apply Rest; [exact O3|congruence].
      * intros j z Hj I1 I2 N. apply (Hd j z Hj (Nst j z I1)); [right; exact I2|exact N].
      * exists l. split; [exact E1|]. split; [|split; [exact E3|]].
        -- intros i0 x0 I0. destruct (E2 i0 x0 I0) as (H0 & [O|I]); split; auto. right. right. exact I.
        -- intros j z Hj I. destruct (Nat.eq_dec j i) as [->|Nj]; [|apply E4; [exact Hj|]; apply Rest; [exact I|congruence]].
           right. assert (z = x) by congruence. subst z. apply (Hd i x Hi Sta); [left; reflexivity|congruence].
    + destruct (IH (done ++ [stop_ev i x]) None EL') as (l & E1 & E2 & E3 & E4).
      * discriminate.
      * intros j z Hj I1 I2 N. apply (Hd j z Hj (Nst j z I1)); [right; exact I2|exact N].
      * exists l. split; [exact E1|]. split; [|split; [exact E3|]].
        -- intros i0 x0 I0. destruct (E2 i0 x0 I0) as (H0 & [O|I]); split; auto. right. right. exact I.
        -- intros j z Hj I. destruct (Nat.eq_dec j i) as [->|Nj]; [|apply E4; [exact Hj|]; apply Rest; [exact I|congruence]].
           right. assert (z = x) by congruence. subst z. apply (Hd i x Hi Sta); [left; reflexivity|congruence].
Qed.

Lemma beats_asym i x j y : beats i x j y -> beats j y i x -> False.
Proof. unfold beats. lia. Qed.
Lemma dominant_right_ok : exists l, dominant_right segs = map (fun p => sg_item (snd p)) l /\
  (forall i x, In (i, x) l -> has i x) /\
  StronglySorted (fun a b => before (ext (snd a)) (ext (snd b))) l /\
  (forall j y, has j y -> In (j, y) l \/ beaten j y) /\
  (forall j y, has j y -> (forall i x, has i x -> i <> j -> shares (ext x) (ext y) -> beats j (ext y) i (ext x)) -> In (j, y) l).
Proof.
  destruct (loop_ok L [] None eq_refl) as (l & E1 & E2 & E3 & E4); [discriminate|intros j y _ []|].
  assert (D : forall j y, has j y -> In (j, y) l \/ beaten j y) by (intros j y H; apply E4; [exact H|apply stop_in; exact H]).
  exists l. split; [exact E1|]. split; [intros i x I; apply E2 in I; tauto|]. split; [|split; [exact D|]].
  - assert (V : Forall (fun p => has (fst p) (snd p)) l) by (apply Forall_forall; intros [i x] I; apply E2 in I; tauto). clear E1 E2 E4 D.
    induction E3 as [|[i x] l Hs IH F]; [constructor|]. inversion V as [|? ? V1 V2]; subst. constructor; [auto|].
    rewrite Forall_forall in *. intros [j y] I p q Hp Hq. specialize (F _ I). specialize (V2 _ I). simpl in *.
    rewrite (on_ext i x) in Hp by exact V1. rewrite (on_ext j y) in Hq by exact V2. lia.
  - intros j y H Dom. destruct (D j y H) as [I|(i & x & Hi & Sh & B)]; [exact I|]. exfalso.
    destruct (Nat.eq_dec i j) as [->|N]; [assert (x = y) by congruence; subst; eapply beats_asym; exact B|].
    eapply beats_asym; [exact B|]. apply Dom; auto.
Qed.
End Dominant.
