(** The index: equality of keys, the dictionaries. *)
From Coq Require Import QArith Qpower Sorted.
From Verif Require Import PyBase PyBaseFacts Model_Text Model_Heap Model_Layer Model_Types Model_Msgpack Model_Document Model_Codec Model_Lazy Model_Collection Model_Index
  Spec_Layer Spec_Msgpack Spec_Codec Spec_Lazy Spec_Collection Spec_Index.
Local Open Scope Z_scope.

(** ** numbers *)
Definition nval (m e : Z) : Q := (inject_Z m * 2 ^ e)%Q.
Lemma two_pos k : (0 < 2 ^ k)%Q.
Proof. apply Qpower_0_lt. reflexivity. Qed.
Lemma two_split a b : (2 ^ (a + b) == 2 ^ a * 2 ^ b)%Q.
Proof. apply Qpower_plus. discriminate. Qed.
Lemma nval_scale m e k : k <= e -> (nval m e == inject_Z (m * 2 ^ (e - k)) * 2 ^ k)%Q.
Proof.
  intros L. unfold nval. rewrite inject_Z_mult, Zpower_Qpower by lia. replace e with (e - k + k) at 1 by lia. rewrite two_split. change (inject_Z 2) with 2%Q. ring.
Qed.
Lemma num_eqb_spec m e m' e' : num_eqb (Num m e) (Num m' e') = true <-> (nval m e == nval m' e')%Q.
Proof.
  cbn. set (k := Z.min e e'). rewrite (nval_scale m e k) by lia. rewrite (nval_scale m' e' k) by lia. rewrite Z.eqb_eq. split.
  - intros ->. reflexivity.
  - intros H. apply Qmult_inj_r in H; [apply inject_Z_injective, H|]. intros C. pose proof (two_pos k) as P. rewrite C in P. discriminate.
Qed.
Lemma exponent_range b : 0 <= exponent b < 2048.
Proof. apply Z.mod_pos_bound. reflexivity. Qed.
Lemma float_finite b : exponent b <> 2047 -> exists m e, float_num b = Num m e /\
  (negative b /\ (nval m e == - magnitude b)%Q \/ ~ negative b /\ (nval m e == magnitude b)%Q).
Proof.
  intros E. unfold float_num. fold (exponent b). fold (fraction b). change 2048 with (2 ^ 11). fold (exponent b). rewrite (proj2 (Z.eqb_neq _ _) E). cbv zeta.
  pose proof (exponent_range b) as R.
  assert (M : forall v, v = (if exponent b =? 0 then fraction b else fraction b + 2 ^ 52) -> (nval v (Z.max (exponent b) 1 - 1075) == magnitude b)%Q).
  { intros v ->. unfold magnitude, nval. destruct (Z.eqb_spec (exponent b) 0) as [Z0|Z0].
    - rewrite Z0. change (Z.max 0 1 - 1075) with (-52 + -1022). rewrite two_split. change (2 ^ (-52))%Q with (/ 2 ^ 52)%Q. unfold Qdiv. ring.
    - replace (Z.max (exponent b) 1 - 1075) with (-52 + (exponent b - 1023)) by lia. rewrite two_split, inject_Z_plus. change (2 ^ (-52))%Q with (/ 2 ^ 52)%Q. change (inject_Z (2 ^ 52)) with (2 ^ 52)%Q.
      set (P := (2 ^ (exponent b - 1023))%Q). unfold Qdiv. field. }
  eexists _, _. split; [reflexivity|]. destruct (Z.leb_spec (2 ^ 63) (Z.of_N b)) as [L|L].
  - left. split; [exact L|]. rewrite <- (M _ eq_refl). unfold nval. rewrite inject_Z_opp. ring.
  - right. split; [unfold negative; lia|]. apply M. reflexivity.
Qed.
Lemma float_special b : exponent b = 2047 -> float_num b = if fraction b =? 0 then NInf (2 ^ 63 <=? Z.of_N b) else NNaN.
Proof. intros E. unfold float_num. change 2048 with (2 ^ 11). fold (exponent b). fold (fraction b). rewrite E. reflexivity. Qed.
Lemma number_fun o p q : is_number o p -> is_number o q -> (p == q)%Q.
Proof. intros A B. destruct A; inversion B; subst; try reflexivity; contradiction. Qed.
Lemma as_number_spec o : match as_number o with
  | Some (Num m e) => exists q, is_number o q /\ (nval m e == q)%Q
  | Some (NInf n) => exists b, o = MFloat b /\ exponent b = 2047 /\ fraction b = 0 /\ (n = true <-> negative b)
  | Some NNaN => exists b, o = MFloat b /\ exponent b = 2047 /\ fraction b <> 0
  | None => forall q, ~ is_number o q
  end.
Proof.
  destruct o; try (intros q H; inversion H; fail); cbn [as_number].
  - exists (if b then 1 else 0)%Q. split; [constructor|]. unfold nval. destruct b; reflexivity.
  - exists (inject_Z i). split; [constructor|]. unfold nval. change (2 ^ 0)%Q with 1%Q. ring.
  - destruct (Z.eq_dec (exponent bits) 2047) as [E|E].
    + rewrite (float_special _ E). destruct (Z.eqb_spec (fraction bits) 0); exists bits; repeat split; auto; unfold negative; apply Z.leb_le.
    + destruct (float_finite _ E) as (m & e & -> & [[S H]|[S H]]); eexists; (split; [|exact H]); constructor; auto.
Qed.
Lemma number_none o : as_number o = None -> match o with MNil | MStr _ | MBin _ | MArr _ | MMap _ => True | _ => False end.
Proof. destruct o; try discriminate; auto. Qed.
Lemma key_eqb_spec a b : key_eqb a b = true <-> py_equal a b.
Proof.
  unfold key_eqb. pose proof (as_number_spec a) as A. pose proof (as_number_spec b) as B.
  destruct (as_number a) as [x|] eqn:Ea, (as_number b) as [y|] eqn:Eb.
  - destruct x as [m e|n|], y as [m' e'|n'|].
    + destruct A as (p & A & Ap), B as (q & B & Bq). rewrite num_eqb_spec, Ap, Bq. split.
      * intros H. exact (pe_num a b p q A B H).
      * intros H. inversion H; subst; try (inversion A; fail); try (inversion B; fail).
        { rewrite (number_fun _ _ _ A H0), (number_fun _ _ _ B H1). assumption. }
        { inversion A; contradiction. }
    + split; [discriminate|]. intros H. exfalso. destruct A as (p & A & Ap), B as (y & -> & B1 & B2 & B3). inversion H; subst.
      * inversion H1; subst; contradiction.
      * inversion A; subst; contradiction.
    + split; [discriminate|]. intros H. exfalso. destruct A as (p & A & Ap), B as (y & -> & B1 & B2). inversion H; subst.
      * inversion H1; subst; contradiction.
      * inversion A; subst; contradiction.
    + split; [discriminate|]. intros H. exfalso. destruct A as (y & -> & A1 & A2 & A3), B as (p & B & Bq). inversion H; subst.
      * inversion H0; subst; contradiction.
      * inversion B; subst; contradiction.
    + destruct A as (y & -> & A1 & A2 & A3), B as (z & -> & B1 & B2 & B3). cbn [num_eqb]. rewrite Bool.eqb_true_iff. split.
      * intros ->. apply pe_inf; auto. tauto.
      * intros H. inversion H; subst.
        { inversion H0; subst; contradiction. }
        { destruct n, n'; auto; exfalso; intuition congruence. }
    + split; [discriminate|]. intros H. exfalso. destruct A as (y & -> & A1 & A2 & A3), B as (z & -> & B1 & B2). inversion H; subst.
      * inversion H0; subst; contradiction.
      * contradiction.
    + split; [discriminate|]. intros H. exfalso. destruct A as (y & -> & A1 & A2), B as (p & B & Bq). inversion H; subst.
      * inversion H0; subst; contradiction.
      * inversion B; subst; contradiction.
    + split; [discriminate|]. intros H. exfalso. destruct A as (y & -> & A1 & A2), B as (z & -> & B1 & B2 & _). inversion H; subst.
      * inversion H0; subst; contradiction.
      * contradiction.
    + split; [discriminate|]. intros H. exfalso. destruct A as (y & -> & A1 & A2), B as (z & -> & B1 & B2). inversion H; subst.
      * inversion H0; subst; contradiction.
      * contradiction.
  - split; [discriminate|]. intros H. exfalso. inversion H; subst; try discriminate. exact (B q H1).
  - split; [discriminate|]. intros H. exfalso. inversion H; subst; try discriminate. exact (A p H0).
  - split.
    + pose proof (number_none _ Ea) as Ya; pose proof (number_none _ Eb) as Yb. destruct a, b; try contradiction; try discriminate; intros H.
      * constructor.
      * apply str_eqb_eq in H. subst. constructor.
      * match type of H with list_eqb _ ?p ?q = _ => destruct (list_eqb_spec N.eqb N.eqb_spec p q) in H; [subst; constructor|discriminate] end.
    + intros H. destruct H.
      * reflexivity.
      * apply str_eqb_refl.
      * destruct (list_eqb_spec N.eqb N.eqb_spec x x); congruence.
      * exfalso. exact (A p H).
      * discriminate.
Qed.
Lemma equal_sym a b : py_equal a b -> py_equal b a.
Proof.
  intros H. destruct H; try constructor; auto; try tauto. apply (pe_num b a q p); auto. symmetry. assumption.
Qed.
Lemma equal_trans a b c : py_equal a b -> py_equal b c -> py_equal a c.
Proof.
  intros H K. destruct H.
  - exact K.
  - exact K.
  - exact K.
  - inversion K; subst; try (inversion H0; fail).
    + apply (pe_num a c p q0); auto. rewrite H1, (number_fun _ _ _ H0 H2). assumption.
    + inversion H0; subst; contradiction.
  - inversion K; subst.
    + inversion H4; subst; contradiction.
    + constructor; auto. tauto.
Qed.
Lemma key_sym a b : key_eqb a b = true -> key_eqb b a = true.
Proof. rewrite !key_eqb_spec. apply equal_sym. Qed.
Lemma key_trans a b c : key_eqb a b = true -> key_eqb b c = true -> key_eqb a c = true.
Proof. rewrite !key_eqb_spec. apply equal_trans. Qed.
Lemma key_hashable a b : key_eqb a b = true -> hashable a = true /\ hashable b = true.
Proof.
  rewrite key_eqb_spec. intros H. destruct H; auto. split; [destruct H|destruct H0]; reflexivity.
Qed.
Lemma hashable_container v : hashable v = true <-> ~ container v.
Proof.
  destruct v; cbn; split; intros H; try (intros C; inversion C; fail); try reflexivity; try discriminate; exfalso; apply H; constructor.
Qed.

(** ** the dictionaries *)
Lemma vget_add d v n w i : In i (vget (vadd d v n) w) <-> In i (vget d w) \/ (i = n /\ key_eqb w v = true).
Proof.
  induction d as [|[k l] d IH]; cbn [vadd vget].
  - destruct (key_eqb w v) eqn:E; cbn [In]; intuition (try discriminate; auto).
  - destruct (key_eqb v k) eqn:Vk; cbn [vget].
    + destruct (key_eqb w k) eqn:Wk.
      * assert (E : key_eqb w v = true) by exact (key_trans _ _ _ Wk (key_sym _ _ Vk)). rewrite E, in_app_iff. cbn [In]. intuition.
      * assert (E : key_eqb w v = false) by (destruct (key_eqb w v) eqn:E; [rewrite (key_trans _ _ _ E Vk) in Wk; discriminate|reflexivity]). rewrite E. intuition discriminate.
    + destruct (key_eqb w k) eqn:Wk.
      * assert (E : key_eqb w v = false) by (destruct (key_eqb w v) eqn:E; [rewrite (key_trans _ _ _ (key_sym _ _ E) Wk) in Vk; discriminate|reflexivity]). rewrite E. intuition discriminate.
      * exact IH.
Qed.
Definition has (props : dict mobj) (p : pystr) (w : mobj) : Prop := exists v, dget props p = Some v /\ key_eqb w v = true.
Lemma index_doc_spec names props n : forall ix, (forall p, In p names -> exists d, dget ix p = Some d) ->
  (forall p v, In p names -> dget props p = Some v -> hashable v = true) ->
  exists ix', index_doc names props n ix = Ok ix' /\
    forall p, match dget ix p with
              | None => dget ix' p = None
              | Some d => exists d', dget ix' p = Some d' /\ forall w i, In i (vget d' w) <-> In i (vget d w) \/ (i = n /\ In p names /\ has props p w)
              end.
Proof.
  induction names as [|q names IH]; intros ix D Hs; cbn [index_doc].
  - exists ix. split; [reflexivity|]. intros p. destruct (dget ix p) as [d|]; [|reflexivity]. exists d. split; [reflexivity|]. intros w i. cbn [In]. tauto.
  - assert (SKIP : dget props q = None -> exists ix', index_doc names props n ix = Ok ix' /\
      forall p, match dget ix p with
              | None => dget ix' p = None
              | Some d => exists d', dget ix' p = Some d' /\ forall w i, In i (vget d' w) <-> In i (vget d w) \/ (i = n /\ In p (q :: names) /\ has props p w)
              end).
    { intros Q. destruct (IH ix) as (ix' & E & F); [intros p I; apply D; right; exact I|intros p v I; apply Hs; right; exact I|]. exists ix'. split; [exact E|].
      intros p. specialize (F p). destruct (dget ix p) as [d|]; [|exact F]. destruct F as (d' & G & F). exists d'. split; [exact G|]. intros w i. rewrite F.
      split; [intros [A|(A & B & C)]; [left; exact A|right; repeat split; auto; right; exact B]|].
      intros [A|(A & [<-|B] & C)]; [left; exact A| |right; auto]. destruct C as (v & C & _). congruence. }
    destruct (dget props q) as [v|] eqn:Q; [|apply SKIP; reflexivity]. clear SKIP.
    destruct (D q (or_introl eq_refl)) as (dq & Dq). unfold dgetE. rewrite Dq. cbn [rbind]. rewrite (Hs q v (or_introl eq_refl) Q).
    destruct (IH (dset ix q (vadd dq v n))) as (ix' & E & F).
    { intros p I. destruct (str_eqb_spec p q) as [->|NE]; [rewrite dget_dset_same; eauto|]. rewrite dget_dset_other by congruence. apply D. right. exact I. }
    { intros p w I. apply Hs. right. exact I. }
    exists ix'. split; [exact E|]. intros p. specialize (F p). destruct (str_eqb_spec p q) as [->|NE].
    + rewrite dget_dset_same in F. rewrite Dq. destruct F as (d' & G & F). exists d'. split; [exact G|]. intros w i. rewrite F, vget_add. split.
      * intros [[A|[A B]]|(A & B & C)]; [left; exact A| |right; repeat split; auto; right; exact B]. right. repeat split; auto; [left; reflexivity|]. exists v. auto.
      * intros [A|(A & _ & (v' & C & Cv))]; [left; left; exact A|]. left. right. split; [exact A|]. congruence.
    + rewrite dget_dset_other in F by congruence. destruct (dget ix p) as [d|]; [|exact F]. destruct F as (d' & G & F). exists d'. split; [exact G|]. intros w i. rewrite F.
      split; [intros [A|(A & B & C)]; [left; exact A|right; repeat split; auto; right; exact B]|].
      intros [A|(A & [B|B] & C)]; [left; exact A|congruence|right; auto].
Qed.
Lemma index_doc_bad names props n p v : forall ix, (forall q, In q names -> exists d, dget ix q = Some d) ->
  In p names -> dget props p = Some v -> hashable v = false -> index_doc names props n ix = Err TypeError.
Proof.
  induction names as [|q names IH]; intros ix D I Pv Hv; [contradiction|]. cbn [index_doc].
  destruct (D q (or_introl eq_refl)) as (dq & Dq).
  assert (D' : forall w, forall q0, In q0 names -> exists d, dget (dset ix q (vadd dq w n)) q0 = Some d).
  { intros w q0 I0. destruct (str_eqb_spec q0 q) as [->|NE]; [rewrite dget_dset_same; eauto|]. rewrite dget_dset_other by congruence. apply D. right. exact I0. }
  destruct (dget props q) as [w|] eqn:Q.
  - unfold dgetE. rewrite Dq. cbn [rbind]. destruct (hashable w) eqn:Hw; [|reflexivity]. destruct I as [->|I]; [congruence|]. apply IH; auto.
  - destruct I as [->|I]; [congruence|]. apply IH; auto. intros q0 I0. apply D. right. exact I0.
Qed.
