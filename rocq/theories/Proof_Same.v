(** Proofs about equality and hashing. *)
From Verif Require Import PyBase PyBaseFacts Model_Text Model_Heap Model_Layer Model_Types Model_Query Model_Repr Model_Nodes Model_Same
  Spec_Text Spec_Errors Spec_Same Proof_Text Proof_Query Proof_Repr Proof_Nodes Proof_Errors2.
Local Open Scope Z_scope.

(** pairs *)
Lemma span_pair_reach x a b : in_bounds x -> 0 <= sp_start x + a -> sp_start x + a <= zlen (sp_text x) -> 0 <= sp_start x + b <= zlen (sp_text x) ->
  span_pair x a b = if b <? a then Err DataValidationError else Ok (mkSpan (sp_text x) (sp_start x + a) (sp_start x + b)).
Proof.
  intros (A & B & C) Ha Ha' Hb. unfold span_pair. rewrite text_slice_spec. cbn [slice_start slice_stop]. rewrite !slice_norm_id by lia.
  destruct (Z.ltb_spec b a), (Z.ltb_spec (b + sp_start x) (a + sp_start x)); try lia; [reflexivity|]. do 2 f_equal; lia.
Qed.
Lemma span_pair_inside x a b : in_bounds x -> 0 <= a <= b -> b <= zlen (span_str x) ->
  exists y, span_pair x a b = Ok y /\ inside y x /\ in_bounds y /\ sp_start y = sp_start x + a /\ span_str y = doc_slice (span_str x) (Some a) (Some b).
Proof.
  intros Hx Ha Hb. pose proof Hx as (A & B & C). rewrite span_len_str in Hb by exact Hx. unfold span_len in Hb.
  rewrite span_pair_reach; [|exact Hx|lia|lia|lia]. destruct (Z.ltb_spec b a); [lia|]. eexists. split; [reflexivity|].
  split; [unfold inside; cbn; repeat split; lia|]. assert (I : in_bounds (mkSpan (sp_text x) (sp_start x + a) (sp_start x + b))) by (unfold in_bounds; cbn; lia).
  split; [exact I|]. split; [reflexivity|]. rewrite doc_slice_py. rewrite (span_str_sub _ I), (span_str_sub _ Hx). cbn [sp_text sp_start sp_stop].
  unfold py_slice. rewrite sub_length by lia. cbn [slice_start slice_stop]. rewrite !slice_norm_id by lia. rewrite sub_sub by lia. f_equal; lia.
Qed.

(** spans *)
Lemma span_eq_iff a b : span_eq a b = true <-> sp_start a = sp_start b /\ sp_stop a = sp_stop b.
Proof. unfold span_eq. rewrite andb_true_iff, !Z.eqb_eq. tauto. Qed.
Lemma span_key_iff i j a b : span_key i a = span_key j b <-> i = j /\ span_eq a b = true.
Proof. rewrite span_eq_iff. unfold span_key. split; [intros [= -> -> ->]; auto|intros (-> & -> & ->); reflexivity]. Qed.
Lemma span_eq_one_text a b : sp_text a = sp_text b -> span_eq a b = true -> a = b /\ span_str a = span_str b.
Proof. destruct a as [t p q], b as [t' p' q']. cbn. intros -> H. apply span_eq_iff in H. cbn in H. destruct H as [-> ->]. auto. Qed.

(** data types *)
Lemma opts_match (eqv : value -> value -> bool) a b : NoDup (dkeys a) -> NoDup (dkeys b) ->
  ((zlen a =? zlen b) && forallb (fun kv => match dget b (fst kv) with Some v => eqv (snd kv) v | None => false end) a = true <->
   options_match (fun x y => eqv x y = true) a b).
Proof.
  intros Na Nb. unfold options_match. rewrite andb_true_iff, Z.eqb_eq, forallb_forall. split.
  - intros [L F] k. assert (I : incl (dkeys a) (dkeys b)).
    { intros q Hq. unfold dkeys in Hq. apply in_map_iff in Hq. destruct Hq as ([q' v] & <- & Hq). specialize (F _ Hq). cbn [fst snd] in *. destruct (dget b q') eqn:E; [|discriminate]. apply dmem_In. unfold dmem. rewrite E. reflexivity. }
    destruct (dget a k) as [x|] eqn:Ea.
    + apply dget_In in Ea. specialize (F _ Ea). cbn [fst snd] in F. destruct (dget b k); [exact F|discriminate].
    + apply dget_none_iff in Ea. destruct (dget b k) as [y|] eqn:Eb; [|exact Logic.I]. apply Ea. apply (nodup_incl_len a b Na Nb L I). apply dmem_In. unfold dmem. rewrite Eb. reflexivity.
  - intros F. split.
    + assert (I1 : incl (dkeys a) (dkeys b)). { intros k Hk. specialize (F k). apply dmem_In. apply dmem_In in Hk. unfold dmem in *. destruct (dget a k); [|discriminate]. destruct (dget b k); [reflexivity|destruct F]. }
      assert (I2 : incl (dkeys b) (dkeys a)). { intros k Hk. specialize (F k). apply dmem_In. apply dmem_In in Hk. unfold dmem in *. destruct (dget b k); [|discriminate]. destruct (dget a k); [reflexivity|destruct F]. }
      apply NoDup_incl_length in I1, I2; auto. unfold dkeys, zlen in *. rewrite !map_length in *. lia.
    + intros [k v] I. specialize (F k). rewrite (dget_nodup _ _ _ Na I) in F. cbn [fst snd]. destruct (dget b k); [exact F|destruct F].
Qed.
Lemma match_impl (R Q : value -> value -> Prop) a b : (forall x y, R x y -> Q x y) -> options_match R a b -> options_match Q a b.
Proof. intros H M k. specialize (M k). destruct (dget a k), (dget b k); auto. Qed.
Lemma dtype_eq_iff same a b : options_ok a -> options_ok b ->
  (dtype_eq same a b = true <-> dt_name a = dt_name b /\ options_match (same_value same) (dt_opts a) (dt_opts b)).
Proof.
  intros A B. unfold dtype_eq, dict_eqb. rewrite andb_true_iff, tname_eqb_eq, (opts_match (val_same same) _ _ A B).
  split; intros [E M]; (split; [exact E|]); eapply match_impl; try exact M; intros; apply val_same_iff; assumption.
Qed.
Lemma dt_same_iff same a b : options_ok a -> options_ok b ->
  (dt_same same a b = true <-> dt_name a = dt_name b /\ options_match (fun x y => hash_eq same x y = true) (dt_opts a) (dt_opts b)).
Proof. intros A B. unfold dt_same. rewrite <- andb_assoc, andb_true_iff, tname_eqb_eq, (opts_match (hash_eq same) _ _ A B). tauto. Qed.

(** sorted by key, the items of matching options match in order *)
Lemma match_keys R a b : options_match R a b -> forall k, In k (dkeys a) <-> In k (dkeys b).
Proof. intros M k. specialize (M k). rewrite <- !dmem_In. unfold dmem. destruct (dget a k), (dget b k); try tauto; split; congruence. Qed.
Lemma str_leb_anti a b : str_leb a b = true -> str_leb b a = true -> a = b.
Proof.
  unfold str_leb. rewrite (str_cmp_anti a b). destruct (str_cmp a b) eqn:E; cbn; try discriminate. intros _ _. apply str_cmp_eq. exact E.
Qed.
Lemma sorted_same (a : list (pystr * value)) : forall b, StronglySorted (fun x y : pystr * value => str_leb (fst x) (fst y) = true) a -> StronglySorted (fun x y : pystr * value => str_leb (fst x) (fst y) = true) b ->
  NoDup (map fst a) -> NoDup (map fst b) -> (forall k, In k (map fst a) <-> In k (map fst b)) -> map fst a = map fst b.
Proof.
  induction a as [|[k v] a IH]; intros [|[q w] b] Sa Sb Na Nb M; cbn [map fst] in *.
  - reflexivity.
  - destruct (proj2 (M q)); left; reflexivity.
  - destruct (proj1 (M k)); left; reflexivity.
  - apply StronglySorted_inv in Sa, Sb. destruct Sa as [Sa Fa], Sb as [Sb Fb]. inversion Na as [|? ? Na1 Na2]; subst. inversion Nb as [|? ? Nb1 Nb2]; subst.
    rewrite Forall_forall in Fa, Fb. cbn [fst] in *.
    assert (E : k = q).
    { destruct (proj1 (M k) (or_introl eq_refl)) as [E|E]; [congruence|]. destruct (proj2 (M q) (or_introl eq_refl)) as [E'|E']; [congruence|].
      apply in_map_iff in E, E'. destruct E as (y & <- & E), E' as (y' & <- & E'). apply str_leb_anti; [exact (Fa _ E')|exact (Fb _ E)]. }
    subst q. f_equal. apply IH; auto. intros q. split; intros H.
    + destruct (proj1 (M q) (or_intror H)) as [<-|H']; [contradiction|exact H'].
    + destruct (proj2 (M q) (or_intror H)) as [<-|H']; [contradiction|exact H'].
Qed.
Lemma sorted_items R a b : NoDup (dkeys a) -> NoDup (dkeys b) -> options_match R a b ->
  Forall2 (fun x y : pystr * value => fst x = fst y /\ R (snd x) (snd y)) (ssort fst str_leb a) (ssort fst str_leb b).
Proof.
  intros Na Nb M. pose proof (ssort_perm (@fst pystr value) str_leb a) as Pa. pose proof (ssort_perm (@fst pystr value) str_leb b) as Pb.
  assert (E : map fst (ssort fst str_leb a) = map fst (ssort fst str_leb b)).
  { apply sorted_same.
    - apply ssort_sorted; [apply str_leb_total|apply str_leb_trans].
    - apply ssort_sorted; [apply str_leb_total|apply str_leb_trans].
    - eapply Permutation_NoDup; [apply Permutation_map, Pa|exact Na].
    - eapply Permutation_NoDup; [apply Permutation_map, Pb|exact Nb].
    - intros k. pose proof (match_keys R a b M k) as K. unfold dkeys in K. split; intros H.
      + eapply Permutation_in; [apply Permutation_map, Pb|]. apply K. eapply Permutation_in; [apply Permutation_sym, Permutation_map, Pa|exact H].
      + eapply Permutation_in; [apply Permutation_map, Pa|]. apply K. eapply Permutation_in; [apply Permutation_sym, Permutation_map, Pb|exact H]. }
  assert (Ga : forall x, In x (ssort fst str_leb a) -> dget a (fst x) = Some (snd x)) by (intros [k v] I; apply dget_nodup; [exact Na|]; eapply Permutation_in; [apply Permutation_sym, Pa|exact I]).
  assert (Gb : forall x, In x (ssort fst str_leb b) -> dget b (fst x) = Some (snd x)) by (intros [k v] I; apply dget_nodup; [exact Nb|]; eapply Permutation_in; [apply Permutation_sym, Pb|exact I]).
  clear Pa Pb. revert E Ga Gb. generalize (ssort fst str_leb a) (ssort fst str_leb b). intros l. induction l as [|x l IH]; intros [|y m] E Ga Gb; try discriminate; constructor.
  - cbn [map] in E. assert (E1 : fst x = fst y) by congruence. split; [exact E1|]. specialize (M (fst x)). rewrite (Ga x (or_introl eq_refl)) in M. rewrite E1, (Gb y (or_introl eq_refl)) in M. exact M.
  - apply IH; [cbn [map] in E; congruence|intros z I; apply Ga; right; exact I|intros z I; apply Gb; right; exact I].
Qed.
Lemma dtype_key_ok same a b : options_ok a -> options_ok b -> dtype_eq same a b = true ->
  fst (dtype_key a) = fst (dtype_key b) /\ Forall2 (fun x y : pystr * value => fst x = fst y /\ same_value same (snd x) (snd y)) (snd (dtype_key a)) (snd (dtype_key b)).
Proof. intros A B H. apply dtype_eq_iff in H; auto. destruct H as [E M]. split; [exact E|]. apply sorted_items; assumption. Qed.
Lemma dtype_key_back same a b : options_ok a -> options_ok b -> dtype_key a = dtype_key b -> (forall k v, In (k, v) (dt_opts a) -> same_value same v v) -> dtype_eq same a b = true.
Proof.
  intros A B H R. apply dtype_eq_iff; auto. unfold dtype_key in H. assert (H1 : dt_name a = dt_name b) by congruence. assert (H2 : ssort fst str_leb (dt_opts a) = ssort fst str_leb (dt_opts b)) by congruence.
  split; [exact H1|]. assert (P : Permutation (dt_opts a) (dt_opts b)).
  { eapply Permutation_trans; [apply (ssort_perm fst str_leb)|]. rewrite H2. apply Permutation_sym, ssort_perm. }
  intros k. destruct (dget (dt_opts a) k) as [v|] eqn:Ea.
  - apply dget_In in Ea. rewrite (dget_nodup _ _ _ B (Permutation_in _ P Ea)). eapply R; exact Ea.
  - destruct (dget (dt_opts b) k) as [v|] eqn:Eb; [|exact Logic.I]. apply dget_In in Eb. rewrite (dget_nodup _ _ _ A (Permutation_in _ (Permutation_sym P) Eb)) in Ea. discriminate.
Qed.

(** lists of nodes *)
Lemma list_eqb_iff a : forall b, list_eqb (map Some a) (map Some b) = true <-> a = b.
Proof.
  induction a as [|x a IH]; intros [|y b]; cbn [map list_eqb]; split; try congruence.
  - intros H. apply andb_true_iff in H. destruct H as [H1 H2]. apply Nat.eqb_eq in H1. apply IH in H2. congruence.
  - intros H. injection H as -> ->. rewrite Nat.eqb_refl. apply IH. reflexivity.
Qed.
Lemma node_lists_eq same a b : py_eq same (VNodeList (map Some a)) (VNodeList (map Some b)) = true <-> a = b.
Proof.
  unfold py_eq. cbn [num_of]. assert (E : existsb (fun o : option nid => match o with None => true | _ => false end) (map Some a ++ map Some b) = false).
  { rewrite <- map_app. induction (a ++ b) as [|n r IH]; [reflexivity|exact IH]. }
  rewrite E. apply list_eqb_iff.
Qed.

(** options that are no strings *)
Lemma opt_no_string d key v name : dget (dt_opts d) key = Some v -> (forall x, v <> VStr x) -> (forall n t a b, v <> VSpan n t a b) -> opt_is d key name = Ok false.
Proof. intros E A B. unfold opt_is, dgetE. rewrite E. cbn [rbind]. destruct v; try reflexivity; [exfalso; eapply A; reflexivity|exfalso; eapply B; reflexivity]. Qed.
Lemma no_string_option h d v key w : dget (dt_opts d) key = Some w -> (forall x, w <> VStr x) -> (forall n t a b, w <> VSpan n t a b) ->
  (dt_class d = KTextspan /\ key = s "context" \/ (dt_class d = KNoderef \/ dt_class d = KNodespan) /\ key = s "layer") -> is_valid h d v = Ok false.
Proof.
  intros E A B H. unfold is_valid. destruct H as [[-> ->]|[[->| ->] ->]].
  - destruct v; try reflexivity. eapply opt_no_string; eassumption.
  - destruct v; try reflexivity. unfold coll_is. destruct (n_collof h n); [|reflexivity]. eapply opt_no_string; eassumption.
  - destruct v as [| | | | | | | |fa la0| | |]; try reflexivity. destruct (n_collof h fa) as [la|]; [|reflexivity]. destruct (n_collof h la0) as [lb|]; [|reflexivity].
    rewrite (opt_no_string _ _ _ _ E A B). reflexivity.
Qed.
Lemma span_option h d key n t a b name : dget (dt_opts d) key = Some (VSpan n t a b) -> dt_class d = KTextspan -> key = s "context" ->
  forall name' t' a' b', name' = name -> is_valid h d (VSpan name' t' a' b') = Ok (str_eqb name (span_str (mkSpan t a b))).
Proof. intros E C -> name' t' a' b' ->. unfold is_valid. rewrite C. unfold opt_is, dgetE. rewrite E. reflexivity. Qed.
(** constructors *)
Lemma float_defaults x : dt_default (T_float64 (VFloat x)) = Some (if (x =? 0)%N || (x =? 0x8000000000000000)%N then VInt 0 else VFloat 0).
Proof. unfold T_float64. cbn [value_is_zero]. destruct ((x =? 0)%N || (x =? 0x8000000000000000)%N); reflexivity. Qed.
Lemma named_types x : (forall k, dget (dt_opts (T_ext x)) k = if str_eqb k (s "type") then Some (VStr x) else None) /\
  (forall k, dget (dt_opts (T_span x)) k = if str_eqb k (s "context") then Some (VStr x) else None) /\
  forall d, In d [T_noderef x; T_noderef_many x; T_nodespan x] -> forall k, dget (dt_opts d) k = if str_eqb k (s "layer") then Some (VStr x) else None.
Proof. split; [|split]; [reflexivity|reflexivity|]. intros d [<-|[<-|[<-|[]]]]; reflexivity. Qed.
Lemma validate_layer h l : coll_validate h (CLayer l) = Err TypeError.
Proof. reflexivity. Qed.
