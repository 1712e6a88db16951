(** Facts about the Python basics. *)
From Verif Require Import PyBase.
Set Implicit Arguments.

Lemma list_eqb_spec {A} (eqb : A -> A -> bool) :
  (forall x y, reflect (x = y) (eqb x y)) ->
  forall a b, reflect (a = b) (list_eqb eqb a b).
Proof.
  intros He a; induction a as [|x a IH]; intros [|y b]; simpl; try (constructor; congruence).
  destruct (He x y) as [->|Hn]; simpl.
  - destruct (IH b) as [->|Hn]; constructor; congruence.
  - constructor; congruence.
Qed.

Lemma str_eqb_spec a b : reflect (a = b) (str_eqb a b).
Proof. apply list_eqb_spec; intros; apply N.eqb_spec. Qed.

Lemma str_eqb_refl a : str_eqb a a = true.
Proof. destruct (str_eqb_spec a a); congruence. Qed.

Lemma str_eqb_eq a b : str_eqb a b = true -> a = b.
Proof. destruct (str_eqb_spec a b); [auto|discriminate]. Qed.
Lemma str_eqb_neq a b : a <> b -> str_eqb a b = false.
Proof. destruct (str_eqb_spec a b); congruence. Qed.


Section Dict.
Context {A : Type}.
Implicit Types d : dict A.

Lemma dget_dset d k v k' : dget (dset d k v) k' = if str_eqb k' k then Some v else dget d k'.
Proof.
  induction d as [|[k0 v0] d IH]; simpl.
  - reflexivity.
  - destruct (str_eqb_spec k k0) as [->|Hn]; simpl.
    + destruct (str_eqb_spec k' k0); reflexivity.
    + rewrite IH. destruct (str_eqb_spec k' k0) as [->|]; [|reflexivity].
      rewrite str_eqb_neq by congruence. reflexivity.
Qed.

Lemma dget_dset_same d k v : dget (dset d k v) k = Some v.
Proof. rewrite dget_dset, str_eqb_refl. reflexivity. Qed.

Lemma dget_dset_other d k v k' : k' <> k -> dget (dset d k v) k' = dget d k'.
Proof. intros; rewrite dget_dset, str_eqb_neq by assumption. reflexivity. Qed.

Lemma dget_In d k v : dget d k = Some v -> In (k, v) d.
Proof.
  induction d as [|[k0 v0] d IH]; simpl; [discriminate|].
  destruct (str_eqb_spec k k0) as [->|]; intros H; [injection H as ->; left; reflexivity|right; auto].
Qed.

Lemma dget_None d k : dget d k = None <-> ~ In k (dkeys d).
Proof.
  induction d as [|[k0 v0] d IH]; simpl; [tauto|].
  destruct (str_eqb_spec k k0) as [->|Hn].
  - split; [discriminate|intros H; exfalso; apply H; left; reflexivity].
  - rewrite IH. split; intros H; [intros [?|?]; congruence|tauto].
Qed.

Lemma dmem_In d k : dmem d k = true <-> In k (dkeys d).
Proof.
  unfold dmem. destruct (dget d k) eqn:E.
  - split; [intros _|reflexivity]. apply dget_In in E. apply (in_map fst) in E. exact E.
  - apply dget_None in E. split; [discriminate|tauto].
Qed.

Lemma dget_nodup d k v : NoDup (dkeys d) -> In (k, v) d -> dget d k = Some v.
Proof.
  induction d as [|[k0 v0] d IH]; simpl; [tauto|].
  intros Hnd [E|Hin].
  - injection E as -> ->. rewrite str_eqb_refl. reflexivity.
  - inversion Hnd as [|? ? Hni Hnd']; subst.
    destruct (str_eqb_spec k k0) as [->|].
    + exfalso; apply Hni. apply (in_map fst) in Hin. exact Hin.
    + auto.
Qed.

Lemma dkeys_dset d k v : dkeys (dset d k v) = if dmem d k then dkeys d else dkeys d ++ [k].
Proof.
  unfold dmem. induction d as [|[k0 v0] d IH]; simpl; [reflexivity|].
  destruct (str_eqb_spec k k0) as [->|Hn]; simpl; [reflexivity|].
  rewrite IH. destruct (dget d k); reflexivity.
Qed.

Lemma NoDup_snoc {B} (l : list B) x : NoDup l -> ~ In x l -> NoDup (l ++ [x]).
Proof.
  intros Hnd Hni. apply NoDup_Add with (a := x) (l := l).
  - rewrite <- (app_nil_r l) at 1. apply Add_app.
  - split; assumption.
Qed.

Lemma NoDup_dset d k v : NoDup (dkeys d) -> NoDup (dkeys (dset d k v)).
Proof.
  intros H. rewrite dkeys_dset. destruct (dmem d k) eqn:E; [assumption|].
  apply NoDup_snoc; [assumption|]. intros Hin. apply dmem_In in Hin. congruence.
Qed.

Lemma dset_absent d k v : dget d k = None -> dset d k v = d ++ [(k, v)].
Proof.
  induction d as [|[k0 v0] d IH]; simpl; [reflexivity|].
  destruct (str_eqb_spec k k0) as [->|]; [discriminate|]. intros H. rewrite IH by assumption. reflexivity.
Qed.

Lemma dget_ddel_other d k k' : k' <> k -> dget (ddel d k) k' = dget d k'.
Proof.
  intros Hn. induction d as [|[k0 v0] d IH]; simpl; [reflexivity|].
  destruct (str_eqb_spec k k0) as [->|]; simpl.
  - rewrite str_eqb_neq by assumption. reflexivity.
  - rewrite IH. reflexivity.
Qed.

Lemma dkeys_ddel_incl d k k' : In k' (dkeys (ddel d k)) -> In k' (dkeys d).
Proof.
  induction d as [|[k0 v0] d IH]; simpl; [tauto|].
  destruct (str_eqb k k0); simpl; [tauto|]. intros [?|?]; [left; assumption|right; auto].
Qed.

Lemma NoDup_ddel d k : NoDup (dkeys d) -> NoDup (dkeys (ddel d k)).
Proof.
  induction d as [|[k0 v0] d IH]; simpl; [tauto|].
  intros H. inversion H as [|? ? Hni Hnd]; subst.
  destruct (str_eqb k k0); simpl; [assumption|].
  constructor; [|auto]. intros Hin. apply Hni. eapply dkeys_ddel_incl; eassumption.
Qed.

Lemma dget_ddel_same d k : NoDup (dkeys d) -> dget (ddel d k) k = None.
Proof.
  induction d as [|[k0 v0] d IH]; simpl; [reflexivity|].
  intros H. inversion H as [|? ? Hni Hnd]; subst.
  destruct (str_eqb_spec k k0) as [->|Hn]; simpl.
  - apply dget_None. assumption.
  - rewrite str_eqb_neq by assumption. auto.
Qed.

Lemma ddel_absent d k : dget d k = None -> ddel d k = d.
Proof.
  induction d as [|[k0 v0] d IH]; simpl; [reflexivity|].
  destruct (str_eqb k k0); [discriminate|]. intros H; rewrite IH by assumption; reflexivity.
Qed.

Lemma ddel_app_absent d k v : dget d k = None -> ddel (d ++ [(k, v)]) k = d.
Proof.
  induction d as [|[k0 v0] d IH]; simpl.
  - rewrite str_eqb_refl. reflexivity.
  - destruct (str_eqb k k0); [discriminate|]. intros H; rewrite IH by assumption; reflexivity.
Qed.

Lemma dget_app d e k : dget (d ++ e) k = match dget d k with Some v => Some v | None => dget e k end.
Proof.
  induction d as [|[k0 v0] d IH]; simpl; [reflexivity|].
  destruct (str_eqb k k0); [reflexivity|assumption].
Qed.

Lemma dget_dupdate e : forall d k, NoDup (dkeys e) ->
  dget (dupdate d e) k = match dget e k with Some v => Some v | None => dget d k end.
Proof.
  unfold dupdate. induction e as [|[k0 v0] e IH]; intros d k Hnd; simpl; [reflexivity|].
  inversion Hnd as [|? ? Hni Hnd']; subst. rewrite IH by assumption. rewrite dget_dset.
  destruct (str_eqb_spec k k0) as [->|].
  - apply dget_None in Hni. rewrite Hni. reflexivity.
  - reflexivity.
Qed.

Lemma NoDup_dupdate e : forall d, NoDup (dkeys d) -> NoDup (dkeys (dupdate d e)).
Proof.
  unfold dupdate. induction e as [|[k0 v0] e IH]; intros d H; simpl; [assumption|].
  apply IH. apply NoDup_dset. assumption.
Qed.
End Dict.

(** Indexing *)
Section Idx.
Context {A : Type}.
Implicit Types l : list A.

Lemma zlen_nonneg l : (0 <= zlen l)%Z.
Proof. unfold zlen; lia. Qed.

Lemma upd_nth_length l : forall k x, length (upd_nth l k x) = length l.
Proof. induction l as [|y l IH]; intros [|k] x; simpl; auto. Qed.

Lemma nth_error_upd_same l : forall k x, (k < length l)%nat -> nth_error (upd_nth l k x) k = Some x.
Proof. induction l as [|y l IH]; intros [|k] x H; simpl in *; try lia; [reflexivity|]. apply IH. lia. Qed.

Lemma nth_error_upd_other l : forall k j x, k <> j -> nth_error (upd_nth l k x) j = nth_error l j.
Proof.
  induction l as [|y l IH]; intros [|k] [|j] x H; simpl; try reflexivity; try lia.
  apply IH. lia.
Qed.

Lemma py_index_nonneg len i : (0 <= i < len)%Z -> py_index len i = Some (Z.to_nat i).
Proof.
  intros H. unfold py_index. destruct (Z.ltb_spec i 0); [lia|]. destruct (Z.ltb_spec i len); [reflexivity|lia].
Qed.

Lemma py_getitem_nat l k : py_getitem l (Z.of_nat k) = match nth_error l k with Some x => Ok x | None => Err IndexError end.
Proof.
  unfold py_getitem, py_index, zlen.
  destruct (Z.ltb_spec (Z.of_nat k) 0); [lia|].
  destruct (Z.ltb_spec (Z.of_nat k) (Z.of_nat (length l))).
  - rewrite Nat2Z.id. reflexivity.
  - destruct (nth_error l k) eqn:E; [|reflexivity].
    assert (k < length l)%nat by (apply nth_error_Some; congruence). lia.
Qed.

Lemma py_setitem_nat l k x : (k < length l)%nat -> py_setitem l (Z.of_nat k) x = Ok (upd_nth l k x).
Proof.
  intros H. unfold py_setitem. rewrite py_index_nonneg by (unfold zlen; lia). rewrite Nat2Z.id. reflexivity.
Qed.
End Idx.

(** [sub] *)
Section Sub.
Context {A : Type}.
Implicit Types l : list A.

Lemma sub_full l : sub l 0 (zlen l) = l.
Proof.
  unfold sub, zlen. simpl. replace (Z.of_nat (length l) - 0)%Z with (Z.of_nat (length l)) by lia.
  rewrite Nat2Z.id. apply firstn_all.
Qed.

Lemma sub_length l a b : (0 <= a <= b)%Z -> (b <= zlen l)%Z -> zlen (sub l a b) = (b - a)%Z.
Proof.
  unfold sub, zlen. intros H1 H2. rewrite firstn_length, skipn_length. lia.
Qed.

Lemma sub_nil l a b : (b <= a)%Z -> sub l a b = [].
Proof. intros H. unfold sub. replace (Z.to_nat (b - a)) with O by lia. reflexivity. Qed.

Lemma skipn_skipn' (n m : nat) l : skipn n (skipn m l) = skipn (m + n) l.
Proof.
  revert l; induction m as [|m IH]; intros l; simpl; [reflexivity|].
  destruct l as [|x l]; [apply skipn_nil|]. apply IH.
Qed.

Lemma firstn_skipn_comm' (n m : nat) l : firstn n (skipn m l) = skipn m (firstn (m + n) l).
Proof.
  revert l; induction m as [|m IH]; intros l; simpl; [reflexivity|].
  destruct l as [|x l]; [rewrite firstn_nil; reflexivity|]. apply IH.
Qed.

Lemma sub_sub l a b c d : (0 <= a)%Z -> (0 <= c)%Z -> (d <= b - a)%Z ->
  sub (sub l a b) c d = sub l (a + c) (a + d).
Proof.
  intros Ha Hc Hd. unfold sub.
  destruct (Z_le_gt_dec d c) as [Hdc|Hdc].
  - replace (Z.to_nat (d - c)) with O by lia. replace (Z.to_nat (a + d - (a + c))) with O by lia. reflexivity.
  - rewrite firstn_skipn_comm'. rewrite firstn_firstn.
    replace (Init.Nat.min (Z.to_nat c + Z.to_nat (d - c)) (Z.to_nat (b - a))) with (Z.to_nat c + Z.to_nat (d - c))%nat by lia.
    rewrite <- firstn_skipn_comm'. rewrite skipn_skipn'.
    f_equal; [lia|]. f_equal. lia.
Qed.

Lemma sub_app l a b c : (0 <= a <= b)%Z -> (b <= c)%Z -> sub l a b ++ sub l b c = sub l a c.
Proof.
  intros H1 H2. unfold sub.
  replace (Z.to_nat (c - a)) with (Z.to_nat (b - a) + Z.to_nat (c - b))%nat by lia.
  replace (Z.to_nat b) with (Z.to_nat a + Z.to_nat (b - a))%nat by lia.
  rewrite <- skipn_skipn'. generalize (skipn (Z.to_nat a) l) as m. clear.
  generalize (Z.to_nat (b - a)) as n, (Z.to_nat (c - b)) as k. clear.
  intros n k m. revert n; induction m as [|x m IH]; intros [|n]; simpl; rewrite ?firstn_nil; try reflexivity.
  f_equal. apply IH.
Qed.

Lemma nth_error_skipn' l : forall m n, nth_error (skipn m l) n = nth_error l (m + n).
Proof.
  induction l as [|x l IH]; intros m n.
  - rewrite skipn_nil. destruct n, (m + _)%nat; reflexivity.
  - destruct m; simpl; [reflexivity|]. apply IH.
Qed.

Lemma nth_error_firstn' l : forall m n, (n < m)%nat -> nth_error (firstn m l) n = nth_error l n.
Proof.
  induction l as [|x l IH]; intros [|m] n H; simpl; try lia; [reflexivity|].
  destruct n; simpl; [reflexivity|]. apply IH. lia.
Qed.

Lemma nth_error_sub l a b k : (0 <= a)%Z -> (0 <= k < b - a)%Z ->
  nth_error (sub l a b) (Z.to_nat k) = nth_error l (Z.to_nat (a + k)).
Proof.
  intros Ha Hk. unfold sub. rewrite nth_error_firstn' by lia. rewrite nth_error_skipn'. f_equal. lia.
Qed.
End Sub.

Lemma slice_norm_range len i : (0 <= len)%Z -> (0 <= slice_norm len i <= len)%Z.
Proof. intros H. unfold slice_norm. destruct (Z.ltb_spec i 0); lia. Qed.
Lemma slice_start_range len a : (0 <= len)%Z -> (0 <= slice_start len a <= len)%Z.
Proof. intros H. destruct a; simpl; [apply slice_norm_range; assumption|lia]. Qed.
Lemma slice_stop_range len a : (0 <= len)%Z -> (0 <= slice_stop len a <= len)%Z.
Proof. intros H. destruct a; simpl; [apply slice_norm_range; assumption|lia]. Qed.

(** Stable sort *)
Section SortFacts.
Context {A K : Type} (key : A -> K) (leb : K -> K -> bool).
Hypothesis leb_total : forall a b, leb a b = true \/ leb b a = true.
Hypothesis leb_trans : forall a b c, leb a b = true -> leb b c = true -> leb a c = true.

Notation le x y := (leb (key x) (key y) = true).
Notation sinsert := (sinsert key leb).
Notation ssort := (ssort key leb).

Lemma sinsert_perm x l : Permutation (x :: l) (sinsert x l).
Proof.
  induction l as [|y l IH]; simpl; [reflexivity|].
  destruct (leb (key x) (key y)); [reflexivity|].
  rewrite perm_swap. constructor. assumption.
Qed.

Lemma ssort_perm l : Permutation l (ssort l).
Proof.
  induction l as [|x l IH]; simpl; [constructor|].
  unfold ssort in *; simpl. rewrite <- sinsert_perm. constructor. assumption.
Qed.

Lemma sinsert_sorted x l : StronglySorted (fun a b => le a b) l -> StronglySorted (fun a b => le a b) (sinsert x l).
Proof.
  induction l as [|y l IH]; simpl; intros H.
  - repeat constructor.
  - inversion H as [|? ? Hs Hf]; subst.
    destruct (leb (key x) (key y)) eqn:E.
    + constructor; [assumption|]. constructor; [assumption|].
      eapply Forall_impl; [|exact Hf]. simpl. intros a Ha. eapply leb_trans; eassumption.
    + constructor; [auto|].
      eapply Permutation_Forall; [apply sinsert_perm|].
      constructor; [|assumption]. destruct (leb_total (key x) (key y)); congruence.
Qed.

Lemma ssort_sorted l : StronglySorted (fun a b => le a b) (ssort l).
Proof.
  induction l as [|x l IH]; [constructor|]. apply sinsert_sorted. assumption.
Qed.
End SortFacts.

Lemma lex_total a b : lex_leb a b = true \/ lex_leb b a = true.
Proof.
  unfold lex_leb. destruct a as [a1 a2], b as [b1 b2]; simpl.
  destruct (Z.ltb_spec a1 b1), (Z.eqb_spec a1 b1), (Z.leb_spec a2 b2), (Z.ltb_spec b1 a1), (Z.eqb_spec b1 a1), (Z.leb_spec b2 a2);
    simpl; auto; lia.
Qed.

Lemma lex_leb_iff a b : lex_leb a b = true <-> (fst a < fst b \/ (fst a = fst b /\ snd a <= snd b))%Z.
Proof.
  unfold lex_leb. rewrite orb_true_iff, andb_true_iff, Z.ltb_lt, Z.eqb_eq, Z.leb_le. tauto.
Qed.

Lemma lex_trans a b c : lex_leb a b = true -> lex_leb b c = true -> lex_leb a c = true.
Proof. rewrite !lex_leb_iff. lia. Qed.

Lemma mapM_Ok_length {A B} (f : A -> res B) l r : mapM f l = Ok r -> length r = length l.
Proof.
  revert r; induction l as [|x l IH]; simpl; intros r H; [injection H as <-; reflexivity|].
  destruct (f x); simpl in H; [|discriminate].
  destruct (mapM f l) eqn:E; simpl in H; [|discriminate].
  injection H as <-. simpl. f_equal. apply IH. reflexivity.
Qed.

Lemma mapM_ok_all {A B} (f : A -> res B) (g : A -> B) l :
  (forall x, In x l -> f x = Ok (g x)) -> mapM f l = Ok (map g l).
Proof.
  induction l as [|x l IH]; simpl; intros H; [reflexivity|].
  rewrite H by (left; reflexivity). simpl. rewrite IH by (intros; apply H; right; assumption). reflexivity.
Qed.

(** Stability of the sort: elements equivalent to any given one keep their order. *)
Section Stable.
Context {A K : Type} (key : A -> K) (leb : K -> K -> bool).
Hypothesis leb_total : forall x y, leb x y = true \/ leb y x = true.
Hypothesis leb_trans : forall x y z, leb x y = true -> leb y z = true -> leb x z = true.
Definition same_key (z x : A) : bool := leb (key z) (key x) && leb (key x) (key z).
Lemma sinsert_stable z x l : filter (same_key z) (sinsert key leb x l) = filter (same_key z) (x :: l).
Proof.
  induction l as [|y l IH]; [reflexivity|]. cbn [sinsert]. destruct (leb (key x) (key y)) eqn:E; [reflexivity|].
  cbn [filter]. rewrite IH. cbn [filter].
  destruct (same_key z y) eqn:Ey, (same_key z x) eqn:Ex; try reflexivity.
  unfold same_key in *. apply andb_true_iff in Ey, Ex. destruct Ey as [Y1 Y2], Ex as [X1 X2].
  rewrite (leb_trans X2 Y1) in E. discriminate.
Qed.
Lemma ssort_stable z l : filter (same_key z) (ssort key leb l) = filter (same_key z) l.
Proof.
  induction l as [|x l IH]; [reflexivity|]. unfold ssort in *. cbn [fold_right]. rewrite sinsert_stable.
  cbn [filter]. rewrite IH. reflexivity.
Qed.
End Stable.

Lemma ssort_map {A B K} (kb : B -> K) (ka : A -> K) leb (f : A -> B) (l : list A) :
  (forall x, kb (f x) = ka x) -> ssort kb leb (map f l) = map f (ssort ka leb l).
Proof.
  intros H. assert (Hi : forall x r, sinsert kb leb (f x) (map f r) = map f (sinsert ka leb x r)).
  { intros x. induction r as [|y r IH]; [reflexivity|]. simpl. rewrite !H. destruct (leb (ka x) (ka y)); [reflexivity|].
    simpl. f_equal. exact IH. }
  induction l as [|x l IH]; [reflexivity|]. unfold ssort in *. simpl. rewrite IH. apply Hi.
Qed.
