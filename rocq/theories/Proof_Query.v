(** Proofs about predicates and queries. *)
From Verif Require Import PyBase PyBaseFacts Model_Heap Model_Layer Model_Text Model_Types Model_Query Spec_Layer Spec_Query.
From Verif Require Proof_Layer4.
From Coq Require Import QArith Qpower Lqa.
Local Open Scope Z_scope.

(** ** numbers *)
Lemma pow2_pos e : (0 < pow2 e)%Q.
Proof. apply Qpower_0_lt. reflexivity. Qed.
Lemma scale m e k : k <= e -> (inject_Z m * pow2 e == inject_Z (m * 2 ^ (e - k)) * pow2 k)%Q.
Proof.
  intros L. replace e with ((e - k) + k) at 1 by lia. unfold pow2. rewrite Qpower_plus by discriminate. rewrite inject_Z_mult.
  rewrite (Zpower_Qpower 2 (e - k)) by lia. change (inject_Z 2) with (2 # 1)%Q. ring.
Qed.
Lemma num_cmp_fin m e m' e' : exists c, num_cmp (DFin m e) (DFin m' e') = Some c /\ c = (inject_Z m * pow2 e ?= inject_Z m' * pow2 e')%Q.
Proof.
  cbn [num_cmp]. set (k := Z.min e e'). eexists. split; [reflexivity|].
  assert (E1 := scale m e k ltac:(lia)). assert (E2 := scale m' e' k ltac:(lia)). rewrite E1, E2. pose proof (pow2_pos k) as P.
  set (a := m * 2 ^ (e - k)). set (b := m' * 2 ^ (e' - k)). clearbody a b. clear E1 E2. symmetry.
  destruct (Z.compare_spec a b) as [->|L|L].
  - apply Qeq_alt. reflexivity.
  - rewrite <- Qlt_alt. apply Qmult_lt_r; [exact P|]. rewrite <- Zlt_Qlt. exact L.
  - rewrite <- Qgt_alt. apply Qmult_lt_r; [exact P|]. rewrite <- Zlt_Qlt. exact L.
Qed.
Lemma bits_parts g ex fr b : (g = 0 \/ g = 1) -> 0 <= ex < 2048 -> 0 <= fr < 2 ^ 52 -> b = (g * 2048 + ex) * 2 ^ 52 + fr ->
  Z.testbit b 63 = negb (g =? 0) /\ Z.land (Z.shiftr b 52) 2047 = ex /\ Z.land b (2 ^ 52 - 1) = fr.
Proof.
  intros Hg He Hf ->. assert (P : 0 < 2 ^ 52) by reflexivity. split; [|split].
  - assert (X : Z.b2z (Z.testbit ((g * 2048 + ex) * 2 ^ 52 + fr) 63) = g).
    { rewrite Z.testbit_spec' by lia. replace (2 ^ 63) with (2 ^ 52 * 2048) by reflexivity. rewrite <- Z.div_div by lia.
      rewrite Z.add_comm, Z.div_add by lia. rewrite (Z.div_small fr) by lia. rewrite Z.add_0_l, Z.add_comm, Z.div_add by lia. rewrite (Z.div_small ex) by lia.
      rewrite Z.add_0_l. apply Z.mod_small. lia. }
    destruct (Z.testbit _ _); cbn [Z.b2z] in X; subst g; reflexivity.
  - rewrite Z.shiftr_div_pow2 by lia. rewrite Z.add_comm, Z.div_add by lia. rewrite (Z.div_small fr) by lia. rewrite Z.add_0_l.
    change 2047 with (Z.ones 11). rewrite Z.land_ones by lia. change (2 ^ 11) with 2048. rewrite Z.add_comm, Z.mod_add by lia. apply Z.mod_small. lia.
  - replace (2 ^ 52 - 1) with (Z.ones 52) by reflexivity. rewrite Z.land_ones by lia. rewrite Z.add_comm, Z.mod_add by lia. apply Z.mod_small. lia.
Qed.
Lemma number_num v x : number v x -> exists m e, num_of v = Some (DFin m e) /\ (x == inject_Z m * pow2 e)%Q.
Proof.
  assert (One : forall i, (inject_Z i == inject_Z i * pow2 0)%Q) by (intros i; unfold pow2; cbn; ring).
  intros H. destruct H as [i| | |g ex fr bits Hg He Hf E|g fr bits Hg Hf E].
  - exists i, 0. split; [reflexivity|apply One].
  - exists 1, 0. split; [reflexivity|apply One].
  - exists 0, 0. split; [reflexivity|apply One].
  - destruct (bits_parts g ex fr _ Hg ltac:(lia) Hf E) as (B1 & B2 & B3). cbn [num_of]. unfold dbl_of. cbv zeta. rewrite B1, B2, B3.
    destruct (Z.eqb_spec ex 2047); [lia|]. destruct (Z.eqb_spec ex 0); [lia|]. do 2 eexists. split; [reflexivity|].
    destruct (g =? 0); reflexivity.
  - destruct (bits_parts g 0 fr (Z.of_N bits) Hg ltac:(lia) Hf) as (B1 & B2 & B3); [rewrite E; ring|]. cbn [num_of]. unfold dbl_of. cbv zeta. rewrite B1, B2, B3.
    change (0 =? 2047) with false. change (0 =? 0) with true. cbv iota. do 2 eexists. split; [reflexivity|]. destruct (g =? 0); reflexivity.
Qed.
Lemma ord_of_num o x y : ord_of o (x ?= y)%Q = true <-> ord_num o x y.
Proof.
  destruct (Qcompare_spec x y) as [E|L|L]; destruct o; simpl; split; intros H; try discriminate H; try reflexivity; try lra.
Qed.
Lemma cmp_number a b x y : number a x -> number b y -> exists p q, num_of a = Some p /\ num_of b = Some q /\ num_cmp p q = Some (x ?= y)%Q.
Proof.
  intros Hx Hy. apply number_num in Hx, Hy. destruct Hx as (m & e & E1 & Q1), Hy as (m' & e' & E2 & Q2). exists (DFin m e), (DFin m' e').
  split; [exact E1|]. split; [exact E2|]. destruct (num_cmp_fin m e m' e') as (c & E & ->). rewrite E. f_equal. symmetry. rewrite Q1, Q2. reflexivity.
Qed.
Section Same.
Variable same : value -> value -> bool.
Lemma order_numbers h n f o v x y : number (fget h n f) x -> number v y -> exists b, sat same h (POrd o f v) n = Ok b /\ (b = true <-> ord_num o x y).
Proof.
  intros Hx Hy. destruct (cmp_number _ _ _ _ Hx Hy) as (p & q & E1 & E2 & E3). cbn [sat]. unfold py_ord. rewrite E1, E2, E3. eexists. split; [reflexivity|]. apply ord_of_num.
Qed.
Lemma equal_numbers h n f v x y : number (fget h n f) x -> number v y -> exists b, sat same h (PEq f v) n = Ok b /\ (b = true <-> (x == y)%Q) /\ sat same h (PNeq f v) n = Ok (negb b).
Proof.
  intros Hx Hy. destruct (cmp_number _ _ _ _ Hx Hy) as (p & q & E1 & E2 & E3). cbn [sat].
  assert (Ee : py_eq same (fget h n f) v = match (x ?= y)%Q with Eq => true | _ => false end) by (unfold py_eq; rewrite E1, E2, E3; reflexivity).
  exists (match (x ?= y)%Q with Eq => true | _ => false end). split; [rewrite Ee; reflexivity|]. split.
  - destruct (Qcompare_spec x y) as [E|L|L]; split; intros H; try discriminate H; try reflexivity; try exact E; exfalso; lra.
  - unfold py_ne. rewrite <- Ee. destruct (fget h n f), v; try reflexivity. discriminate E1.
Qed.
(** ** strings *)
Lemma str_cmp_eq a : forall b, str_cmp a b = Eq -> a = b.
Proof. induction a as [|x a IH]; intros [|y b]; simpl; try discriminate; [reflexivity|]. destruct (N.compare_spec x y) as [->|L|L]; try discriminate. intros E. f_equal. auto. Qed.
Lemma str_cmp_lt a : forall b, str_cmp a b = Lt -> str_lt a b.
Proof.
  induction a as [|x a IH]; intros [|y b]; simpl; try discriminate.
  - intros _. left. exists y, b. reflexivity.
  - destruct (N.compare_spec x y) as [->|L|L]; try discriminate.
    + intros E. destruct (IH b E) as [(c & r & ->)|(p & u & w & r & r' & -> & -> & Lt)]; [left; exists c, r; reflexivity|right; exists (y :: p), u, w, r, r'; auto].
    + intros _. right. exists [], x, y, a, b. auto.
Qed.
Lemma str_cmp_anti a : forall b, str_cmp b a = CompOpp (str_cmp a b).
Proof. induction a as [|x a IH]; intros [|y b]; simpl; try reflexivity. rewrite N.compare_antisym. destruct (N.compare x y); simpl; auto. Qed.
Lemma str_cmp_refl a : str_cmp a a = Eq.
Proof. induction a as [|x a IH]; simpl; [reflexivity|]. rewrite N.compare_refl. exact IH. Qed.
Lemma str_cmp_pre p a b : str_cmp (p ++ a) (p ++ b) = str_cmp a b.
Proof. induction p as [|x p IH]; simpl; [reflexivity|]. rewrite N.compare_refl. exact IH. Qed.
Lemma str_lt_cmp a b : str_lt a b -> str_cmp a b = Lt.
Proof.
  intros [(c & r & ->)|(p & x & y & r & r' & -> & -> & L)].
  - rewrite <- (app_nil_r a) at 1. rewrite str_cmp_pre. reflexivity.
  - rewrite str_cmp_pre. simpl. apply N.compare_lt_iff in L. rewrite L. reflexivity.
Qed.
Lemma ord_of_str o a b : ord_of o (str_cmp a b) = true <-> ord_str o a b.
Proof.
  assert (LT : str_cmp a b = Lt <-> str_lt a b) by (split; [apply str_cmp_lt|apply str_lt_cmp]).
  assert (GT : str_cmp a b = Gt <-> str_lt b a).
  { assert (X : str_cmp a b = Gt <-> str_cmp b a = Lt) by (rewrite (str_cmp_anti a b); destruct (str_cmp a b); simpl; intuition discriminate).
    rewrite X. split; [apply str_cmp_lt|apply str_lt_cmp]. }
  assert (EQ : str_cmp a b = Eq <-> a = b) by (split; [apply str_cmp_eq|intros ->; apply str_cmp_refl]).
  destruct o; simpl; rewrite <- ?LT, <- ?GT, <- ?EQ; destruct (str_cmp a b); simpl; intuition discriminate.
Qed.
Lemma order_strings h n f o x y : fget h n f = VStr x -> exists b, sat same h (POrd o f (VStr y)) n = Ok b /\ (b = true <-> ord_str o x y).
Proof. intros E. cbn [sat]. rewrite E. cbn [py_ord num_of]. eexists. split; [reflexivity|apply ord_of_str]. Qed.
Lemma equal_strings h n f x y : fget h n f = VStr x -> exists b, sat same h (PEq f (VStr y)) n = Ok b /\ (b = true <-> x = y) /\ sat same h (PNeq f (VStr y)) n = Ok (negb b).
Proof.
  intros E. cbn [sat]. rewrite E. cbn [py_ne py_eq num_of]. exists (str_eqb x y). split; [reflexivity|]. split; [|reflexivity]. destruct (str_eqb_spec x y); intuition congruence.
Qed.
Lemma equal_span h n f tn t a b y : fget h n f = VSpan tn t a b -> exists r, sat same h (PEq f (VStr y)) n = Ok r /\ (r = true <-> span_str (mkSpan t a b) = y).
Proof. intros E. cbn [sat]. rewrite E. cbn [py_eq num_of]. eexists. split; [reflexivity|]. destruct (str_eqb_spec (span_str (mkSpan t a b)) y); intuition congruence. Qed.
Lemma absent_order h n f o v : fget h n f = VNone -> sat same h (POrd o f v) n = Err TypeError.
Proof. intros E. cbn [sat]. rewrite E. unfold py_ord. cbn [num_of]. destruct (num_of v); reflexivity. Qed.

(** ** queries *)
Definition total (h : heap) (p : pred) (ns : list nid) (b : nid -> bool) : Prop := forall n, In n ns -> sat same h p n = Ok (b n).
Lemma select_total h p ns b : total h p ns b -> select same h p (map Some ns) = Ok (map Some (filter b ns)).
Proof.
  induction ns as [|n ns IH]; intros T; [reflexivity|]. cbn [map select sat_slot]. rewrite (T n (or_introl eq_refl)). cbn [rbind].
  rewrite IH by (intros m I; apply T; right; exact I). cbn [rbind filter]. destruct (b n); reflexivity.
Qed.
Lemma select_ok h p ns : forall r, select same h p (map Some ns) = Ok r -> exists b, total h p ns b /\ r = map Some (filter b ns).
Proof.
  intros r E. exists (fun n => match sat same h p n with Ok b => b | Err _ => false end).
  assert (T : total h p ns (fun n => match sat same h p n with Ok b => b | Err _ => false end)).
  { revert r E. induction ns as [|m ns IH]; intros r E n I; [destruct I|]. cbn [map select sat_slot] in E.
    destruct (sat same h p m) as [b|] eqn:Em; cbn [rbind] in E; [|discriminate E]. destruct (select same h p (map Some ns)) as [q|] eqn:Eq; cbn [rbind] in E; [|discriminate E].
    destruct I as [<-|I]; [rewrite Em; reflexivity|]. exact (IH q eq_refl n I). }
  split; [exact T|]. rewrite (select_total h p ns _ T) in E. congruence.
Qed.
Lemma query_found h c p ns b : nodes_of h c ns -> total h p ns b -> found (query same h c p) h (filter b ns).
Proof.
  intros Hn T. unfold query. rewrite Hn. cbn [rbind]. rewrite (select_total h p ns b T). cbn [rbind]. eexists. split; [reflexivity|]. split; [reflexivity|].
  cbn [coll_len]. unfold zlen. rewrite map_length. reflexivity.
Qed.
Lemma map_some_inj (a b : list nid) : map Some a = map Some b -> a = b.
Proof. revert b. induction a as [|x a IH]; intros [|y b] E; try discriminate E; [reflexivity|]. injection E as -> E. f_equal. auto. Qed.
Lemma found_total h c p ns r : nodes_of h c ns -> found (query same h c p) h r -> exists b, total h p ns b /\ r = filter b ns.
Proof.
  intros Hn (q & E & Hr & _). unfold query in E. rewrite Hn in E. cbn [rbind] in E. destruct (select same h p (map Some ns)) as [l|] eqn:Es; cbn [rbind] in E; [|discriminate E].
  injection E as <-. unfold nodes_of in Hr. cbn [coll_iter] in Hr. injection Hr as ->. destruct (select_ok _ _ _ _ Es) as (b & T & X). apply map_some_inj in X. eauto.
Qed.
Lemma mem_iff n l : mem n l = true <-> In n l.
Proof. unfold mem. rewrite existsb_exists. split; [intros (x & I & E); apply Nat.eqb_eq in E; subst; exact I|intros I; exists n; split; [exact I|apply Nat.eqb_refl]]. Qed.
Lemma mem_filter n b ns : In n ns -> mem n (filter b ns) = b n.
Proof.
  intros I. destruct (b n) eqn:E; [apply mem_iff, filter_In; auto|]. destruct (mem n (filter b ns)) eqn:M; [|reflexivity]. apply mem_iff, filter_In in M. destruct M as (_ & M). congruence.
Qed.
Section Two.
Variables (h : heap) (c : coll) (p q : pred) (ns a b : list nid).
Hypothesis Hn : nodes_of h c ns.
Hypothesis Ha : found (query same h c p) h a.
Hypothesis Hb : found (query same h c q) h b.
Lemma query_and : found (query same h c (PAnd p q)) h (filter (fun n => mem n a && mem n b) ns).
Proof.
  destruct (found_total _ _ _ _ _ Hn Ha) as (f & T1 & ->). destruct (found_total _ _ _ _ _ Hn Hb) as (g & T2 & ->). apply query_found; [exact Hn|].
  intros n I. cbn [sat]. rewrite (T1 n I). cbn [rbind]. rewrite !mem_filter by exact I. destruct (f n); [exact (T2 n I)|reflexivity].
Qed.
Lemma query_or : found (query same h c (POr p q)) h (filter (fun n => mem n a || mem n b) ns).
Proof.
  destruct (found_total _ _ _ _ _ Hn Ha) as (f & T1 & ->). destruct (found_total _ _ _ _ _ Hn Hb) as (g & T2 & ->). apply query_found; [exact Hn|].
  intros n I. cbn [sat]. rewrite (T1 n I). cbn [rbind]. rewrite !mem_filter by exact I. destruct (f n); [reflexivity|exact (T2 n I)].
Qed.
Lemma query_not : found (query same h c (PNot p)) h (filter (fun n => negb (mem n a)) ns).
Proof.
  destruct (found_total _ _ _ _ _ Hn Ha) as (f & T1 & ->). apply query_found; [exact Hn|].
  intros n I. cbn [sat]. rewrite (T1 n I). cbn [rbind]. rewrite mem_filter by exact I. reflexivity.
Qed.
End Two.
(** a query on a query is a conjunction, exceptions included *)
Lemma select_and h p q ns b : total h p ns b -> select same h (PAnd p q) (map Some ns) = select same h q (map Some (filter b ns)).
Proof.
  induction ns as [|n ns IH]; intros T; [reflexivity|]. cbn [map select sat_slot filter]. cbn [sat]. rewrite (T n (or_introl eq_refl)). cbn [rbind].
  rewrite (IH (fun m I => T m (or_intror I))). destruct (b n); [reflexivity|]. cbn [rbind]. destruct (select same h q (map Some (filter b ns))); reflexivity.
Qed.
Lemma query_nested h c p q ns qp : nodes_of h c ns -> query same h c p = Ok qp ->
  match query same h qp q, query same h c (PAnd p q) with Ok x, Ok y => coll_iter h x = coll_iter h y | Err e, Err e' => e = e' | _, _ => False end.
Proof.
  intros Hn. unfold query at 1. rewrite Hn. cbn [rbind]. destruct (select same h p (map Some ns)) as [l|] eqn:Es; cbn [rbind]; [|discriminate]. intros E. injection E as <-.
  destruct (select_ok _ _ _ _ Es) as (b & T & ->). unfold query. cbn [coll_iter]. rewrite Hn. cbn [rbind]. rewrite (select_and h p q ns b T).
  destruct (select same h q (map Some (filter b ns))); cbn [rbind]; reflexivity.
Qed.
Lemma query_raises h c p a n z b e : nodes_of h c (a ++ n :: z) -> total h p a b -> sat same h p n = Err e -> query same h c p = Err e.
Proof.
  intros Hn T E. unfold query. rewrite Hn. cbn [rbind]. replace (select same h p (map Some (a ++ n :: z))) with (@Err (list (option nid)) e); [reflexivity|].
  clear Hn. induction a as [|m a IH]; cbn [app map select sat_slot]; [rewrite E; reflexivity|]. rewrite (T m (or_introl eq_refl)). cbn [rbind].
  rewrite <- (IH (fun k I => T k (or_intror I))). reflexivity.
Qed.
Lemma update_ok h h' c p q : query same h c p = Ok q ->
  coll_iter h' q = coll_iter h q /\
  match query same h' c p with Ok q' => query_update same h' q = (q', Ok tt) | Err e => query_update same h' q = (q, Err e) end.
Proof.
  unfold query. intros E. destruct (coll_iter h c) as [l|]; cbn [rbind] in E; [|discriminate E]. destruct (select same h p l) as [r|]; cbn [rbind] in E; [|discriminate E].
  injection E as <-. split; [reflexivity|]. cbn [query_update]. destruct (coll_iter h' c) as [l'|]; cbn [rbind]; [|reflexivity]. destruct (select same h' p l'); reflexivity.
Qed.
End Same.
Lemma field_ok h c f ns : nodes_of h c ns -> field_values h c f = Ok (map (fun n => fget h n f) ns).
Proof.
  intros Hn. unfold field_values. rewrite Hn. cbn [rbind]. clear Hn. induction ns as [|n ns IH]; [reflexivity|]. cbn [map mapM rbind]. rewrite IH. reflexivity.
Qed.
Lemma any_exact same h n f items v : (exists x, v = VStr x) \/ (exists a b c d, v = VSpan a b c d) \/ v = VNone \/ (exists m, v = VNode m) -> fget h n f = v ->
  exists b, sat same h (PAny f items) n = Ok b /\ (b = true <-> In v items).
Proof.
  intros K E. cbn [sat]. rewrite E. unfold py_in. assert (Hh : hashable v = true) by (destruct K as [(x & ->)|[(a & b & c & d & ->)|[->|(m & ->)]]]; reflexivity).
  rewrite Hh. eexists. split; [reflexivity|]. rewrite existsb_exists. assert (Q : forall y, hash_eq same v y = true <-> v = y).
  { intros y. destruct K as [(x & ->)|[(a & b & c & d & ->)|[->|(m & ->)]]]; destruct y; cbn [hash_eq py_eq num_of]; try (split; discriminate).
    - destruct (str_eqb_spec x x0); intuition congruence.
    - destruct (str_eqb_spec a tname), (str_eqb_spec b ttext), (Z.eqb_spec c start), (Z.eqb_spec d stop); simpl; intuition congruence.
    - intuition reflexivity.
    - destruct (Nat.eqb_spec m n0); intuition congruence. }
  split; [intros (y & I & B); apply Q in B; subst; exact I|intros I; exists v; split; [exact I|apply Q; reflexivity]].
Qed.
Lemma any_numbers same h n f items x : number (fget h n f) x -> (forall v, In v items -> exists y, number v y) ->
  exists b, sat same h (PAny f items) n = Ok b /\ (b = true <-> exists v y, In v items /\ number v y /\ (x == y)%Q).
Proof.
  intros Hx Hi. cbn [sat]. unfold py_in.
  assert (Hh : hashable (fget h n f) = true) by (destruct Hx; reflexivity). rewrite Hh. eexists. split; [reflexivity|]. rewrite existsb_exists.
  assert (Q : forall v y, In v items -> number v y -> hash_eq same (fget h n f) v = true <-> (x == y)%Q).
  { intros v y I Hy. destruct (equal_numbers same h n f v x y Hx Hy) as (b & E1 & E2 & _). cbn [sat] in E1. injection E1 as E1. rewrite <- E1 in E2. rewrite <- E2.
    destruct (number_num _ _ Hx) as (m & e & N1 & _). destruct (number_num _ _ Hy) as (m' & e' & N2 & _).
    destruct (fget h n f); try discriminate N1; destruct v; try discriminate N2; cbn [hash_eq]; try reflexivity.
    cbn [num_of] in N1, N2. injection N1 as N1. injection N2 as N2. rewrite N1. reflexivity. }
  split.
  - intros (v & I & B). destruct (Hi v I) as (y & Hy). exists v, y. split; [exact I|]. split; [exact Hy|]. apply (Q v y I Hy). exact B.
  - intros (v & y & I & Hy & E). exists v. split; [exact I|]. apply (Q v y I Hy). exact E.
Qed.
Lemma span_pred_ok same test h c f start stop t : dget (coll_fields h c) f = Some t -> dt_name t = TSpan -> exists p, span_pred test h c f start stop = Ok p /\
  forall h' n, (forall tn x a b, fget h' n f = VSpan tn x a b -> sat same h' p n = Ok (test (mkSpan x a b) start stop)) /\ (fget h' n f = VNone -> sat same h' p n = Err AttributeError).
Proof.
  intros E T. unfold span_pred, dgetE. rewrite E. cbn [rbind]. rewrite T. cbn [tname_eqb]. eexists. split; [reflexivity|]. intros h' n. cbn [sat]. split.
  - intros tn x a b ->. reflexivity.
  - intros ->. reflexivity.
Qed.
Lemma query_layer same h l p b : wf h -> (forall n, In n (content h l) -> sat same h p n = Ok (b n)) -> found (query same h (CLayer l) p) h (filter b (content h l)).
Proof. intros W T. apply query_found; [|exact T]. unfold nodes_of. cbn [coll_iter]. rewrite Proof_Layer4.iter_wf by exact W. reflexivity. Qed.
