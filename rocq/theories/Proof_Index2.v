(** The index: building and searching. *)
From Coq Require Import Sorted Permutation.
From Verif Require Import PyBase PyBaseFacts Model_Text Model_Heap Model_Layer Model_Types Model_Msgpack Model_Document Model_Codec Model_Lazy Model_Collection Model_Index
  Spec_Layer Spec_History Spec_Msgpack Spec_Codec Spec_Lazy Spec_Collection Spec_Index Proof_Codec2 Proof_Codec6 Proof_Lazy2 Proof_Collection Proof_Collection2 Proof_Index.
Local Open Scope Z_scope.

Lemma F2_length {A B} (R : A -> B -> Prop) l l' : Forall2 R l l' -> length l = length l'.
Proof. induction 1; cbn; congruence. Qed.
(** ** the hits *)
Definition index_ok (names : list pystr) (prs : list (dict mobj)) (ix : dict vdict) : Prop :=
  forall p, match dget ix p with
            | None => ~ In p names
            | Some d => In p names /\ forall w i, In i (vget d w) <-> exists ps, nth_error prs i = Some ps /\ has ps p w
            end.
Lemma index_start names : index_ok names [] (fold_left (fun d p => dset d p []) names []).
Proof.
  assert (G : forall l ix, (forall p (d : vdict), dget ix p = Some d -> d = []) ->
    forall p, dget (fold_left (fun d p => dset d p []) l ix) p = if dmem ix p || existsb (str_eqb p) l then Some [] else None).
  { induction l as [|q l IH]; intros ix E p; cbn [fold_left existsb].
    - unfold dmem. destruct (dget ix p) as [d|] eqn:G.
      + pose proof (E p d G). subst d. exact G.
      + exact G.
    - rewrite IH.
      + unfold dmem. rewrite dget_dset. destruct (str_eqb_spec p q) as [->|NE]; cbn; [destruct (dget ix q); reflexivity|]. reflexivity.
      + intros r d. rewrite dget_dset. destruct (str_eqb r q); [congruence|apply E]. }
  intros p. rewrite G by discriminate. cbn [dmem dget orb]. destruct (existsb (str_eqb p) names) eqn:X.
  - apply existsb_exists in X. destruct X as (q & I & Q). apply str_eqb_eq in Q. subst q. split; [exact I|]. intros w i. split; [contradiction|]. intros (ps & C & _). destruct i; discriminate.
  - intros I. enough (existsb (str_eqb p) names = true) by congruence. apply existsb_exists. exists p. split; [exact I|apply str_eqb_refl].
Qed.
Lemma index_step names prs ix ps : index_ok names prs ix -> (forall p v, In p names -> dget ps p = Some v -> hashable v = true) ->
  exists ix', index_doc names ps (length prs) ix = Ok ix' /\ index_ok names (prs ++ [ps]) ix'.
Proof.
  intros OKx Hs. destruct (index_doc_spec names ps (length prs) ix) as (ix' & E & F); [|exact Hs|].
  { intros p I. specialize (OKx p). destruct (dget ix p) as [d|]; [eauto|contradiction]. }
  exists ix'. split; [exact E|]. intros p. specialize (OKx p). specialize (F p). destruct (dget ix p) as [d|]; [|rewrite F; exact OKx].
  destruct OKx as [I G], F as (d' & -> & F). split; [exact I|]. intros w i. rewrite F, G. split.
  - intros [(q & A & B)|(-> & _ & B)].
    + exists q. split; [|exact B]. rewrite nth_error_app1; [exact A|]. apply nth_error_Some. congruence.
    + exists ps. split; [|exact B]. rewrite nth_error_app2, Nat.sub_diag by lia. reflexivity.
  - intros (q & A & B). destruct (Nat.lt_ge_cases i (length prs)) as [L|L].
    + left. rewrite nth_error_app1 in A by exact L. eauto.
    + right. rewrite nth_error_app2 in A by exact L. destruct (i - length prs)%nat as [|m] eqn:X; [|destruct m; discriminate]. cbn in A. injection A as ->. split; [lia|auto].
Qed.
Definition hit (names : list pystr) (prs : list (dict mobj)) (conds : dict mobj) (i : nat) : Prop :=
  conds <> [] /\ exists ps, nth_error prs i = Some ps /\ forall k v, In (k, v) conds -> In k names /\ has ps k v.
Lemma cond_hits_spec names prs ix k v : index_ok names prs (fi_props ix) -> hashable v = true ->
  exists l, cond_hits ix (k, v) = Ok l /\ NoDup l /\ forall i, In i l <-> In k names /\ exists ps, nth_error prs i = Some ps /\ has ps k v.
Proof.
  intros OKx Hv. unfold cond_hits. cbn [fst snd]. rewrite Hv. eexists. split; [reflexivity|]. split; [apply NoDup_nodup|]. intros i. rewrite nodup_In.
  specialize (OKx k). destruct (dget (fi_props ix) k) as [d|].
  - destruct OKx as [I G]. rewrite G. tauto.
  - cbn. tauto.
Qed.
Lemma intersect_spec a b : (NoDup a -> NoDup (intersect a b)) /\ forall i, In i (intersect a b) <-> In i a /\ In i b.
Proof.
  split; [intros N; apply NoDup_filter, N|]. intros i. unfold intersect. rewrite filter_In, existsb_exists. split.
  - intros [A (j & B & E)]. apply Nat.eqb_eq in E. subst j. auto.
  - intros [A B]. split; [exact A|]. exists i. split; [exact B|apply Nat.eqb_refl].
Qed.
Lemma intersect_all hs : forall h, NoDup h -> NoDup (fold_left intersect hs h) /\ forall i, In i (fold_left intersect hs h) <-> In i h /\ Forall (In i) hs.
Proof.
  induction hs as [|x hs IH]; intros h N; cbn [fold_left].
  - split; [exact N|]. intros i. split; [auto|tauto].
  - destruct (intersect_spec h x) as [A B]. destruct (IH (intersect h x) (A N)) as [C D]. split; [exact C|]. intros i. rewrite D, B, Forall_cons_iff. tauto.
Qed.
Lemma sorted_unique l : forall l', StronglySorted lt l -> StronglySorted lt l' -> (forall x : nat, In x l <-> In x l') -> l = l'.
Proof.
  induction l as [|a l IH]; intros l' S S' E.
  - destruct l' as [|b l']; [reflexivity|]. exfalso. apply (E b). left. reflexivity.
  - destruct l' as [|b l']; [exfalso; apply (E a); left; reflexivity|]. inversion S as [|? ? S1 F1]; subst. inversion S' as [|? ? S2 F2]; subst.
    pose proof (proj1 (Forall_forall _ _) F1) as G1. pose proof (proj1 (Forall_forall _ _) F2) as G2.
    assert (a = b).
    { destruct (proj1 (E a) (or_introl eq_refl)) as [->|I]; [reflexivity|]. destruct (proj2 (E b) (or_introl eq_refl)) as [->|J]; [reflexivity|].
      specialize (G1 _ J). specialize (G2 _ I). lia. }
    subst b. f_equal. apply IH; auto. intros x. split; intros I.
    + destruct (proj1 (E x) (or_intror I)) as [->|J]; [specialize (G1 _ I); lia|exact J].
    + destruct (proj2 (E x) (or_intror I)) as [->|J]; [specialize (G2 _ I); lia|exact J].
Qed.
Lemma sorted_ids_spec l : NoDup l -> StronglySorted lt (sorted_ids l) /\ forall i, In i (sorted_ids l) <-> In i l.
Proof.
  intros N. pose proof (ssort_perm (fun i : nat => i) Nat.leb l) as P.
  assert (M : forall i, In i (sorted_ids l) <-> In i l) by (intros i; split; apply Permutation_in; [symmetry|]; exact P).
  split; [|exact M]. assert (N' : NoDup (sorted_ids l)) by exact (Permutation_NoDup P N).
  assert (S : StronglySorted (fun a b => Nat.leb a b = true) (sorted_ids l)).
  { apply ssort_sorted.
    - intros a b. destruct (Nat.leb_spec a b); [left; reflexivity|right; apply Nat.leb_le; lia].
    - intros a b c A B. apply Nat.leb_le in A, B. apply Nat.leb_le. lia. }
  clear -N' S. induction S as [|a l0 S IH F]; constructor; inversion N'; subst; auto.
  apply Forall_forall. intros x I. pose proof (proj1 (Forall_forall _ _) F x I) as L. apply Nat.leb_le in L. destruct (Nat.eq_dec a x) as [->|]; [contradiction|lia].
Qed.
Lemma seq_sorted (sel : nat -> bool) n : forall a, StronglySorted lt (filter sel (seq a n)).
Proof.
  induction n as [|n IH]; intros a; [constructor|]. cbn [seq filter]. destruct (sel a); [|apply IH]. constructor; [apply IH|].
  apply Forall_forall. intros x I. apply filter_In in I. destruct I as [I _]. apply in_seq in I. lia.
Qed.
Lemma found_spec names prs ix conds (sel : nat -> bool) : index_ok names prs (fi_props ix) -> (forall k v, In (k, v) conds -> hashable v = true) ->
  (forall i, (i < length prs)%nat -> sel i = true <-> hit names prs conds i) -> found ix conds = Ok (filter sel (seq 0 (length prs))).
Proof.
  intros OKx Hs Se. unfold found. destruct conds as [|[k v] cs].
  - f_equal. symmetry. apply sorted_unique; [apply seq_sorted|constructor|]. intros i. rewrite filter_In, in_seq. split; [|contradiction]. intros [L E].
    apply Se in E; [|lia]. destruct E as [E _]. congruence.
  - destruct (cond_hits_spec names prs ix k v OKx) as (h & Eh & Nh & Ih); [apply (Hs k v); left; reflexivity|]. rewrite Eh. cbn [rbind].
    assert (T : exists hs, mapM (cond_hits ix) cs = Ok hs /\ forall i, Forall (In i) hs <-> forall k' v', In (k', v') cs -> In k' names /\ exists ps, nth_error prs i = Some ps /\ has ps k' v').
    { clear -OKx Hs. induction cs as [|[k' v'] cs IH]; [exists []; split; [reflexivity|]; intros i; split; [contradiction|constructor]|].
      destruct IH as (hs & E & F); [intros a b [I|I]; [apply (Hs a b); left; exact I|apply (Hs a b); right; right; exact I]|].
      destruct (cond_hits_spec names prs ix k' v' OKx) as (h' & Eh & _ & Ih); [apply (Hs k' v'); right; left; reflexivity|].
      exists (h' :: hs). cbn [mapM]. rewrite Eh. cbn [rbind]. rewrite E. split; [reflexivity|]. intros i. rewrite Forall_cons_iff, F, Ih. split.
      - intros [A B] a b [I|I]; [injection I as <- <-; exact A|exact (B a b I)].
      - intros G. split; [apply G; left; reflexivity|]. intros a b I. apply G. right. exact I. }
    destruct T as (hs & E & F). rewrite E. cbn [rbind]. f_equal. destruct (intersect_all hs h Nh) as [N M]. destruct (sorted_ids_spec _ N) as [S P].
    apply sorted_unique; [exact S|apply seq_sorted|]. intros i. rewrite P, M, F, Ih, filter_In, in_seq. split.
    + intros [[A (ps & B & C)] D]. assert (L : (i < length prs)%nat) by (apply nth_error_Some; congruence). split; [lia|]. apply Se; [exact L|]. split; [discriminate|].
      exists ps. split; [exact B|]. intros a b [I|I]; [injection I as <- <-; auto|]. destruct (D a b I) as [D1 (q & D2 & D3)]. assert (q = ps) by congruence. subst q. auto.
    + intros [L X]. apply Se in X; [|lia]. destruct X as [_ (ps & B & C)]. split.
      * destruct (C k v (or_introl eq_refl)). split; eauto.
      * intros a b I. destruct (C a b (or_intror I)). split; eauto.
Qed.

(** ** reading *)
Section Reading.
Context (hdr : list N) (comp : list N -> list N) (decomp : list N -> res (list N)) (bs : list (list (list N))).
Hypothesis (ST : storable comp bs) (INV : forall x, decomp (comp x) = Ok x).
Local Notation docs := (stored hdr comp bs).
Local Notation base := (base hdr comp decomp bs []).
Local Notation holds := (holds hdr comp bs).
Local Notation B := (block_at hdr comp bs).
Let TAIL : unpack1 [] = Err StopIteration := eq_refl.
(** the generator is at document k *)
Inductive gen_at (r : reader) (cur : option block) (k : nat) : Prop :=
| ga_none i : base r i -> cur = None -> k = first_of bs i -> gen_at r cur k
| ga_some i ds j b : base r (S i) -> cur = Some b -> holds b i ds j -> k = (first_of bs i + j)%nat -> gen_at r cur k.
Lemma block_next_end b i ds : holds b i ds (length ds) -> exists b1, block_next b = (b1, Ok None).
Proof. intros H. unfold block_next. rewrite (block_raw_none hdr comp bs b i ds H). eauto. Qed.
Lemma gen_none f r i : base r i -> (i < length bs)%nat ->
  exists r1 cur1 x, nth_error docs (first_of bs i) = Some x /\ gen_next (S (S f)) r None = (r1, cur1, Ok (Some (fresh x))) /\ gen_at r1 cur1 (S (first_of bs i)).
Proof.
  intros H L. destruct (nth_error bs i) as [ds|] eqn:J; [|apply nth_error_None in J; lia].
  destruct (proj1 (Forall_forall _ _) ST ds (nth_error_In _ _ J)) as (NE & _). destruct ds as [|d ds]; [congruence|].
  pose proof (nth_stored hdr comp bs i (d :: ds) 0 d J eq_refl) as ND. rewrite Nat.add_0_r in ND.
  destruct (readblock_some hdr comp decomp bs [] (storable_acceptable _ _ ST) INV r i (d :: ds) H J) as (r1 & E1 & B1 & K1 & L1).
  destruct (block_next_at hdr comp bs (storable_acceptable _ _ ST) _ i (d :: ds) 0 d (holds_open hdr comp bs i _ J) eq_refl) as (b1 & E2 & H2).
  cbn [gen_next]. rewrite E1. cbn iota beta. rewrite E2. eexists _, _, _. split; [exact ND|]. split; [reflexivity|].
  apply ga_some with (i := i) (ds := d :: ds) (j := 1%nat) (b := b1); auto. lia.
Qed.
Lemma gen_end f r : base r (length bs) -> exists r1, gen_next (S f) r None = (r1, None, Ok None).
Proof. intros H. destruct (readblock_none hdr comp decomp bs [] eq_refl r H) as (r1 & E & _). cbn [gen_next]. rewrite E. eauto. Qed.
Lemma base_fuel r i : base r i -> (i < length bs)%nat -> (1 <= length (u_rest (r_unp r)))%nat.
Proof.
  intros [_ _ _ H _] L. rewrite H. destruct (nth_error bs i) as [ds|] eqn:J; [|apply nth_error_None in J; lia].
  rewrite (skipn_nth _ _ _ J), blocks_bytes_cons, !app_length. destruct (stored_block comp bs (storable_acceptable _ _ ST) i ds J) as (S & _). apply image_len in S. lia.
Qed.
Lemma gen_at_next r cur k : gen_at r cur k ->
  let f := S (S (length (u_rest (r_unp r)) + length (u_rest (r_unp r)))) in
  match nth_error docs k with
  | Some x => exists r1 cur1, gen_next f r cur = (r1, cur1, Ok (Some (fresh x))) /\ gen_at r1 cur1 (S k)
  | None => exists r1 cur1, gen_next f r cur = (r1, cur1, Ok None)
  end.
Proof.
  intros [i H -> ->|i ds j b H -> Ho ->]; cbv zeta.
  - destruct (Nat.eq_dec i (length bs)) as [->|NE].
    + rewrite nth_end. destruct (gen_end (S (length (u_rest (r_unp r)) + length (u_rest (r_unp r)))) r H) as (r1 & E). rewrite E. eauto.
    + pose proof (bs_next _ _ _ _ _ _ _ H). destruct (gen_none (length (u_rest (r_unp r)) + length (u_rest (r_unp r))) r i H) as (r1 & c1 & x & -> & E & G); [lia|]. rewrite E. eauto.
  - pose proof (ho_block _ _ _ _ _ _ _ Ho) as J. destruct (nth_error ds j) as [d|] eqn:Ej.
    + rewrite (nth_stored hdr comp bs i ds j d J Ej). destruct (block_next_at hdr comp bs (storable_acceptable _ _ ST) b i ds j d Ho Ej) as (b1 & E2 & H2). cbn [gen_next]. rewrite E2.
      eexists _, _. split; [reflexivity|]. apply ga_some with (i := i) (ds := ds) (j := S j) (b := b1); auto.
    + apply nth_error_None in Ej. pose proof (ho_doc _ _ _ _ _ _ _ Ho) as Hj. assert (j = length ds) by lia. subst j. rewrite <- (first_of_S bs i ds J).
      destruct (block_next_end b i ds Ho) as (b1 & E1).
      assert (ST1 : forall f, gen_next (S f) r (Some b) = gen_next f r None) by (intros f; cbn [gen_next]; rewrite E1; reflexivity). rewrite ST1.
      destruct (Nat.eq_dec (S i) (length bs)) as [E|NE].
      * rewrite E, nth_end. rewrite E in H. destruct (gen_end (length (u_rest (r_unp r)) + length (u_rest (r_unp r))) r H) as (r1 & E2). rewrite E2. eauto.
      * pose proof (bs_next _ _ _ _ _ _ _ H). pose proof (base_fuel r (S i) H ltac:(lia)) as Fu. destruct (length (u_rest (r_unp r))) as [|n]; [lia|].
        destruct (gen_none (n + S n) r (S i) H) as (r1 & c1 & x & -> & E & G); [lia|]. cbn [Nat.add]. rewrite E. eauto.
Qed.
(** building *)
Lemma build_at names (prs : list (dict mobj)) : Forall2 (fun x (ps : dict mobj) => snd (md_properties (fresh x) []) = Ok (MMap ps)) docs prs ->
  (forall ps p v, In ps prs -> In p names -> dget ps p = Some v -> hashable v = true) ->
  forall n k r cur f ix, (length docs - k = n)%nat -> (k <= length docs)%nat -> gen_at r cur k -> (n < f)%nat ->
  index_ok names (firstn k prs) (fi_props ix) -> fi_refs ix = map fst (firstn k docs) ->
  exists ix', build_loop f names r cur ix = Ok ix' /\ index_ok names prs (fi_props ix') /\ fi_refs ix' = map fst docs.
Proof.
  intros F2 Hs. pose proof (F2_length _ _ _ F2) as LE.
  induction n as [|n IH]; intros k r cur f ix Ek Lk G Lf OKx Rx; (destruct f as [|f]; [lia|]); cbn [build_loop]; pose proof (gen_at_next r cur k G) as NX; cbv zeta in NX.
  - assert (k = length docs) by lia. subst k. rewrite (proj2 (nth_error_None docs (length docs)) (le_n _)) in NX. destruct NX as (r1 & c1 & E). rewrite E.
    exists ix. split; [reflexivity|]. rewrite LE, firstn_all in OKx. rewrite firstn_all in Rx. auto.
  - destruct (nth_error docs k) as [x|] eqn:X; [|apply nth_error_None in X; lia]. destruct NX as (r1 & c1 & E & G1). rewrite E. cbn [fresh md_ref rbind].
    destruct (nth_error prs k) as [ps|] eqn:P; [|apply nth_error_None in P; lia].
    assert (Q : snd (md_properties (fresh x) []) = Ok (MMap ps)).
    { clear -F2 X P. revert k X P. induction F2; intros [|k] X P; try discriminate; cbn in X, P; [congruence|]. eauto. }
    fold (fresh x). rewrite Q. cbn [rbind index_props].
    destruct (index_step names (firstn k prs) (fi_props ix) ps OKx) as (ix' & E1 & OK1). { intros p v. apply Hs. exact (nth_error_In _ _ P). }
    rewrite Rx, map_length, firstn_length_le by lia. rewrite firstn_length_le in E1 by lia. rewrite E1. cbn [rbind].
    apply (IH (S k)); cbn [fi_props fi_refs]; auto; try lia.
    + rewrite (firstn_nth _ _ _ P). exact OK1.
    + rewrite (firstn_nth _ _ _ X), map_app. reflexivity.
Qed.
Lemma build_bad names (prs : list (dict mobj)) : Forall2 (fun x (ps : dict mobj) => snd (md_properties (fresh x) []) = Ok (MMap ps)) docs prs ->
  (exists ps p v, In ps prs /\ In p names /\ dget ps p = Some v /\ hashable v = false) ->
  forall n k r cur f ix, (length docs - k = n)%nat -> (k <= length docs)%nat -> gen_at r cur k -> (n < f)%nat ->
  index_ok names (firstn k prs) (fi_props ix) -> fi_refs ix = map fst (firstn k docs) -> (forall ps p v, In ps (firstn k prs) -> In p names -> dget ps p = Some v -> hashable v = true) ->
  build_loop f names r cur ix = Err TypeError.
Proof.
  intros F2 (bad & bp & bv & B1 & B2 & B3 & B4). pose proof (F2_length _ _ _ F2) as LE.
  induction n as [|n IH]; intros k r cur f ix Ek Lk G Lf OKx Rx Hs; (destruct f as [|f]; [lia|]); cbn [build_loop]; pose proof (gen_at_next r cur k G) as NX; cbv zeta in NX.
  - exfalso. rewrite firstn_all2 in Hs by lia. rewrite (Hs bad bp bv B1 B2 B3) in B4. discriminate.
  - destruct (nth_error docs k) as [x|] eqn:X; [|apply nth_error_None in X; lia]. destruct NX as (r1 & c1 & E & G1). rewrite E. cbn [fresh md_ref rbind].
    destruct (nth_error prs k) as [ps|] eqn:P; [|apply nth_error_None in P; lia].
    assert (Q : snd (md_properties (fresh x) []) = Ok (MMap ps)).
    { clear -F2 X P. revert k X P. induction F2; intros [|k] X P; try discriminate; cbn in X, P; [congruence|]. eauto. }
    fold (fresh x). rewrite Q. cbn [rbind index_props]. rewrite Rx, map_length, firstn_length_le by lia.
    destruct (existsb (fun p => match dget ps p with Some v => negb (hashable v) | None => false end) names) eqn:U.
    + apply existsb_exists in U. destruct U as (p & Ip & U). destruct (dget ps p) as [v|] eqn:V; [|discriminate]. apply negb_true_iff in U.
      rewrite (index_doc_bad names ps k p v); auto. intros q Iq. specialize (OKx q). destruct (dget (fi_props ix) q); [eauto|contradiction].
    + assert (Hp : forall p v, In p names -> dget ps p = Some v -> hashable v = true).
      { intros p v Ip V. destruct (hashable v) eqn:Hv; [reflexivity|]. enough (existsb (fun p => match dget ps p with Some v => negb (hashable v) | None => false end) names = true) by congruence.
        apply existsb_exists. exists p. split; [exact Ip|]. rewrite V, Hv. reflexivity. }
      destruct (index_step names (firstn k prs) (fi_props ix) ps OKx Hp) as (ix' & E1 & OK1).
      rewrite firstn_length_le in E1 by lia. rewrite E1. cbn [rbind]. apply (IH (S k)); cbn [fi_props fi_refs]; auto; try lia.
      * rewrite (firstn_nth _ _ _ P). exact OK1.
      * rewrite (firstn_nth _ _ _ X), map_app. reflexivity.
      * rewrite (firstn_nth _ _ _ P). intros q p v Iq. apply in_app_iff in Iq. destruct Iq as [Iq|[<-|[]]]; [exact (Hs q p v Iq)|apply Hp].
Qed.
(** fetching: [act] is what take does with a document *)
Section Fetch.
Context {A : Type} (take : heap -> block -> block * hres A) (act : heap -> (Z * Z) * list N -> hres A).
Hypothesis TAKE : forall h b i ds j d, holds b i ds j -> nth_error ds j = Some d ->
  exists b1, take h b = (b1, act h ((B i, doc_at ds j), d)) /\ holds b1 i ds (S j).
Fixpoint acts (h : heap) (xs : list ((Z * Z) * list N)) : heap * list A * res unit :=
  match xs with
  | [] => (h, [], Ok tt)
  | x :: r => match act h x with
              | (h1, Err e) => (h1, [], Err IOError)
              | (h1, Ok y) => let '(h2, l, e) := acts h1 r in (h2, y :: l, e)
              end
  end.
Definition last_ok (last : option block) (n : nat) (r : reader) : Prop :=
  base r n /\ match last with None => True | Some b => exists i ds j, holds b i ds j end.
Lemma fetch_at h r last n m x : last_ok last n r -> nth_error docs m = Some x ->
  exists r1 last1 n1, fetch take h r last (fst x) = (r1, last1, match act h x with (h1, Ok y) => (h1, Ok y) | (h1, Err _) => (h1, Err IOError) end) /\ last_ok last1 n1 r1.
Proof.
  intros [Bn La] M. assert (Lm : (m < length (List.concat bs))%nat) by (rewrite <- (docs_length hdr comp bs); apply nth_error_Some; rewrite M; discriminate).
  destruct (locate bs m Lm) as (i & ds & j & I & J & ->). fold (first_of bs i) in M |- *.
  destruct (nth_error ds j) as [d|] eqn:D; [|apply nth_error_None in D; lia].
  rewrite (nth_stored hdr comp bs i ds j d I D) in M. assert (X : x = ((B i, doc_at ds j), d)) by congruence. subst x. clear M. cbn [fst].
  assert (Li : (i < length bs)%nat) by (apply nth_error_Some; rewrite I; discriminate).
  assert (USE : forall r1 n1 b0 j0, base r1 n1 -> holds b0 i ds j0 ->
    exists last1, match block_seek b0 (doc_at ds j) with
      | (b1, Err e) => (r1, Some b1, (h, Err IOError))
      | (b1, Ok _) => match take h b1 with
                      | (b2, (h1, Ok y)) => (r1, Some b2, (h1, Ok y))
                      | (b2, (h1, Err _)) => (r1, Some b2, (h1, Err IOError))
                      end
      end = (r1, last1, match act h ((B i, doc_at ds j), d) with (h1, Ok y) => (h1, Ok y) | (h1, Err _) => (h1, Err IOError) end) /\ last_ok last1 n1 r1).
  { intros r1 n1 b0 j0 B1 H0. destruct (block_seek_at hdr comp bs b0 i ds j0 j H0) as (b1 & E1 & H1); [lia|]. rewrite E1.
    destruct (TAKE h b1 i ds j d H1 D) as (b2 & E2 & H2). rewrite E2. exists (Some b2). destruct (act h ((B i, doc_at ds j), d)) as [h1 [y|e]]; (split; [reflexivity|split; [exact B1|eauto]]). }
  assert (AGAIN : exists r1 last1 n1, match reader_seek r (B i) with
    | (r1, Err e) => (r1, last, (h, Err IOError))
    | (r1, Ok _) => match readblock r1 with
                    | (r2, Err e) => (r2, last, (h, Err IOError))
                    | (r2, Ok None) => (r2, None, (h, Err IOError))
                    | (r2, Ok (Some b)) => match block_seek b (doc_at ds j) with
      | (b1, Err e) => (r2, Some b1, (h, Err IOError))
      | (b1, Ok _) => match take h b1 with
                      | (b2, (h1, Ok y)) => (r2, Some b2, (h1, Ok y))
                      | (b2, (h1, Err _)) => (r2, Some b2, (h1, Err IOError))
                      end
      end
                    end
    end = (r1, last1, match act h ((B i, doc_at ds j), d) with (h1, Ok y) => (h1, Ok y) | (h1, Err _) => (h1, Err IOError) end) /\ last_ok last1 n1 r1).
  { destruct (seek_base hdr comp decomp bs [] r n i Bn ltac:(lia)) as (r1 & E1 & B1 & _). rewrite E1.
    destruct (readblock_some hdr comp decomp bs [] (storable_acceptable _ _ ST) INV r1 i ds B1 I) as (r2 & E2 & B2 & _). rewrite E2.
    destruct (USE r2 (S i) _ _ B2 (holds_open hdr comp bs i ds I)) as (l1 & E3 & L3). rewrite E3. eauto. }
  unfold fetch. cbn [fst snd]. destruct last as [b|]; [|exact AGAIN]. destruct La as (i0 & ds0 & j0 & H0). destruct (Z.eqb_spec (b_pos b) (B i)) as [E|E]; [|exact AGAIN].
  rewrite (ho_pos _ _ _ _ _ _ _ H0) in E. pose proof (ho_block _ _ _ _ _ _ _ H0) as N0.
  assert (i0 = i). { apply (block_at_inj hdr comp bs (storable_acceptable _ _ ST)); auto; [|lia]. apply Nat.lt_le_incl, nth_error_Some. congruence. }
  subst i0. assert (ds0 = ds) by congruence. subst ds0. destruct (USE r n b j0 Bn H0) as (l1 & E3 & L3). rewrite E3. eauto.
Qed.
Lemma fetch_all_at ix ids : fi_refs ix = map fst docs -> Forall (fun i => (i < length docs)%nat) ids -> forall h r last n xs, last_ok last n r -> map (nth_error docs) ids = map Some xs ->
  fetch_all take ix h r last ids = acts h xs.
Proof.
  intros Rx. induction ids as [|i ids IH]; intros F h r last n xs L E; (destruct xs as [|x xs]; [try discriminate; try reflexivity|try discriminate]).
  apply Forall_cons_iff in F. destruct F as [Li F]. cbn [map] in E. assert (E1 : nth_error docs i = Some x) by congruence. assert (E2 : map (nth_error docs) ids = map Some xs) by congruence.
  cbn [fetch_all acts]. rewrite Rx, (map_nth_error fst _ _ E1). destruct (fetch_at h r last n i x L E1) as (r1 & l1 & n1 & Q & L1). rewrite Q.
  destruct (act h x) as [h1 [y|e]]; [|reflexivity]. rewrite (IH F h1 r1 l1 n1 xs L1 E2). reflexivity.
Qed.
End Fetch.
Lemma take_lazy_ok h b i ds j d : holds b i ds j -> nth_error ds j = Some d ->
  exists b1, take_lazy h b = (b1, (h, Ok (fresh ((B i, doc_at ds j), d)))) /\ holds b1 i ds (S j).
Proof. intros H J. destruct (block_next_at hdr comp bs (storable_acceptable _ _ ST) b i ds j d H J) as (b1 & E & H1). unfold take_lazy. rewrite E. eauto. Qed.
Lemma take_doc_ok h b i ds j d : holds b i ds j -> nth_error ds j = Some d ->
  exists b1, take_doc h b = (b1, msgpack_decode h d) /\ holds b1 i ds (S j).
Proof.
  intros H J. destruct (block_raw_some hdr comp bs (storable_acceptable _ _ ST) b i ds j d H J) as (b1 & E & H1). unfold take_doc. unfold block_raw, u_next in E.
  destruct (u_next1 (b_unp b)) as [u [o|e]].
  - destruct o; try discriminate; injection E as <- ->; cbn [rbind as_bytes]; eauto.
  - destruct e; discriminate.
Qed.
End Reading.

(** ** files of documents *)
Lemma select_exists names conds : exists sel, forall d, sel d = true <-> matches names conds d.
Proof.
  set (one := fun (props : dict mobj) (kv : pystr * mobj) => existsb (str_eqb (fst kv)) names && existsb (fun kw => str_eqb (fst kv) (fst kw) && key_eqb (snd kv) (snd kw)) props).
  exists (fun d => match d_props d with MMap props => match conds with [] => false | _ => forallb (one props) conds end | _ => false end).
  intros d. assert (ONE : forall props k v, one props (k, v) = true <-> In k names /\ exists w, In (k, w) props /\ py_equal v w).
  { intros props k v. unfold one. cbn [fst snd]. rewrite andb_true_iff, !existsb_exists. split.
    - intros [(q & I & E) ((k' & w) & J & F)]. apply str_eqb_eq in E. subst q. split; [exact I|]. apply andb_true_iff in F. destruct F as [F G]. cbn [fst snd] in *. apply str_eqb_eq in F. subst k'.
      exists w. split; [exact J|]. apply key_eqb_spec, G.
    - intros [I (w & J & E)]. split; [exists k; split; [exact I|apply str_eqb_refl]|]. exists (k, w). split; [exact J|]. cbn [fst snd]. rewrite str_eqb_refl. apply key_eqb_spec, E. }
  unfold matches. destruct (d_props d) as [| | | | | | |props] eqn:P; try (split; [discriminate|]; intros [NE H]; exfalso; destruct conds as [|[k v] cs]; [congruence|];
    destruct (H k v (or_introl eq_refl)) as [_ (ps & w & C & _)]; discriminate).
  destruct conds as [|c0 cs]; [split; [discriminate|tauto]|]. rewrite forallb_forall. split.
  - intros H. split; [discriminate|]. intros k v I. apply H, ONE in I. destruct I as [I (w & J & E)]. split; [exact I|]. exists props, w. auto.
  - intros [_ H] [k v] I. apply ONE. destruct (H k v I) as [A (ps & w & E & J & Q)]. assert (ps = props) by congruence. subst ps. eauto.
Qed.
Lemma picked_ids {A} (sel : doc -> bool) (ds : list doc) (l : list A) : length ds = length l -> forall s : nat -> bool,
  (forall i d, nth_error ds i = Some d -> s i = sel d) -> map (nth_error l) (filter s (seq 0 (length l))) = map Some (picked sel ds l).
Proof.
  intros L s Hs. unfold picked.
  assert (G : forall ds' l' pre, length ds' = length l' -> l = pre ++ l' -> (forall i d, nth_error ds' i = Some d -> s (length pre + i)%nat = sel d) ->
    map (nth_error l) (filter s (seq (length pre) (length l'))) = map Some (map snd (filter (fun p => sel (fst p)) (combine ds' l')))).
  { induction ds' as [|d ds' IH]; intros [|x l'] pre Ll E H; try discriminate; [reflexivity|]. cbn [combine seq length filter fst].
    rewrite <- (H 0%nat d eq_refl), Nat.add_0_r.
    specialize (IH l' (pre ++ [x])). rewrite app_length in IH. cbn [length] in IH. rewrite Nat.add_1_r in IH.
    assert (IH' : map (nth_error l) (filter s (seq (S (length pre)) (length l'))) = map Some (map snd (filter (fun p => sel (fst p)) (combine ds' l')))).
    { apply IH; [cbn in Ll; lia|rewrite <- app_assoc; exact E|]. intros i d' N. replace (S (length pre) + i)%nat with (length pre + S i)%nat by lia. apply H. exact N. }
    destruct (s (length pre)); cbn [map snd]; rewrite IH'; [|reflexivity]. rewrite E, nth_error_app2, Nat.sub_diag by lia. reflexivity. }
  apply (G ds l []); auto.
Qed.
Section Files.
Context (c : codec) (per : Z) (h : heap) (ops : list wop) (f : list N) (g : registry).
Hypothesis (If : is_file c per h ops f) (U : undoes g c) (W : wf h) (O : only_documents ops) (D : forall d, In d (docs_of ops) -> readable h d).
Local Notation ds := (docs_of ops).
Lemma ops_proper : all_proper ops.
Proof. intros x Ix. destruct (O x Ix) as (d & ex & tv & ->). exact I. Qed.
Lemma file_docs : exists bs r dec, List.concat bs = written_data h ops /\ storable (c_comp c) bs /\ (forall x, dec (c_comp c x) = Ok x) /\ reader_open g f = Ok r /\
  base (header (c_name c) per) (c_comp c) dec bs [] r 0 /\ Forall2 (written_from h) (written h ops) ds /\ length (stored (header (c_name c) per) (c_comp c) bs) = length ds.
Proof.
  assert (A : all_encoded h ops) by (destruct If as (w & h1 & w1 & _ & R & _); exact (run_encoded _ _ _ _ _ R)).
  pose proof (written_docs h ops h O (fun d Id => proj1 (D d Id)) (looks_same_refl h) W eq_refl A) as WD.
  destruct (file_reader c per h ops f g If ops_proper U) as (bs & r & dec & J & S & Dc & _ & Or & B & _).
  exists bs, r, dec. repeat (split; [assumption|]). rewrite docs_length, J. unfold written_data. rewrite map_length. exact (F2_length _ _ _ WD).
Qed.
Lemma doc_props hdr comp bs : List.concat bs = written_data h ops -> Forall2 (written_from h) (written h ops) ds ->
  exists prs : list (dict mobj), Forall2 (fun x (ps : dict mobj) => snd (md_properties (fresh x) []) = Ok (MMap ps)) (stored hdr comp bs) prs /\ Forall2 (fun d (ps : dict mobj) => d_props d = MMap ps /\ NoDup (dkeys ps)) ds prs.
Proof.
  intros J WD. assert (E : map snd (stored hdr comp bs) = map snd (written h ops)) by (unfold stored; rewrite refs_data; exact J).
  revert E. generalize (stored hdr comp bs). assert (Dr : forall d, In d ds -> exists props, d_props d = MMap props) by (intros d Id; exact (proj2 (D d Id))).
  revert WD Dr. generalize (docs_of ops). intros ds0 WD. induction WD as [|[[hi x] b] d ws ds0 F1 F2 IH]; intros Dr l E; (destruct l as [|[ref y] l]; try discriminate).
  - exists []. split; constructor.
  - cbn [map snd] in E. assert (y = b) by congruence. assert (E' : map snd l = map snd ws) by congruence. subst y.
    destruct (IH (fun d Id => Dr d (or_intror Id)) l E') as (prs & A & B). destruct (Dr d (or_introl eq_refl)) as (props & Pr).
    destruct F1 as (ex & tv & h1 & -> & Eb & D1 & S1 & W1).
    assert (Op : md_open (b ++ []) (Some ref) = Ok (fresh (ref, b))) by (rewrite app_nil_r; unfold md_open; rewrite (encode_magic _ _ _ _ _ _ Eb); reflexivity).
    destruct (lazy_properties hi d ex tv h1 b [] props D1 Pr Eb (fresh (ref, b)) (Some ref) [] Op) as (ps & Q1 & Q2 & Q3 & Q4).
    exists (ps :: prs). split; constructor; auto. rewrite (Q4 eq_refl) in *. auto.
Qed.
Lemma F2_nth {A B} (R : A -> B -> Prop) l l' : Forall2 R l l' -> forall i x y, nth_error l i = Some x -> nth_error l' i = Some y -> R x y.
Proof. induction 1; intros [|i] a b X Y; try discriminate; cbn in *; [congruence|eauto]. Qed.
Lemma F2_in {A B} (R : A -> B -> Prop) l l' y : Forall2 R l l' -> In y l' -> exists x, In x l /\ R x y.
Proof. induction 1; intros []; [subst; eexists; split; [left; reflexivity|assumption]|]. destruct IHForall2 as (z & Z1 & Z2); auto. eexists; split; [right|]; eauto. Qed.
Lemma F2_in_l {A B} (R : A -> B -> Prop) l l' x : Forall2 R l l' -> In x l -> exists y, In y l' /\ R x y.
Proof. induction 1; intros []; [subst; eexists; split; [left; reflexivity|assumption]|]. destruct IHForall2 as (z & Z1 & Z2); auto. eexists; split; [right|]; eauto. Qed.

Lemma build_search names fuel : (forall d, In d ds -> indexable names d) -> (length ds < fuel)%nat ->
  exists ix bs, index_build fuel g f names = Ok ix /\ List.concat bs = written_data h ops /\
  forall conds, (forall k v, In (k, v) conds -> ~ container v) ->
  exists sel, (forall d, sel d = true <-> matches names conds d) /\
  (forall h0, index_search take_lazy g h0 f ix conds = (h0, map fresh (picked sel ds (stored (header (c_name c) per) (c_comp c) bs)), Ok tt)) /\
  (forall h0, wf h0 -> exists h1 l, index_search take_doc g h0 f ix conds = (h1, l, Ok tt) /\ Forall2 (fun d d' => same_doc h d h1 d') (filter sel ds) l /\ wf h1 /\ untouched h0 h1).
Proof.
  intros Ix Lf. destruct file_docs as (bs & r & dec & J & S & Dc & Or & Bs & WD & Ld).
  destruct (doc_props (header (c_name c) per) (c_comp c) bs J WD) as (prs & F1 & F2).
  assert (L1 : length (stored (header (c_name c) per) (c_comp c) bs) = @length (dict mobj) prs) by exact (F2_length _ _ _ F1).
  assert (L2 : length ds = @length (dict mobj) prs) by exact (F2_length _ _ _ F2).
  assert (Hs : forall ps p v, In ps prs -> In p names -> dget ps p = Some v -> hashable v = true).
  { intros ps p v I N E. destruct (F2_in _ _ _ _ F2 I) as (d & Id & Pd & _). apply hashable_container. exact (Ix d Id p v ps Pd N (dget_In _ _ E)). }
  destruct (build_at _ _ dec bs S Dc names prs F1 Hs (length (stored (header (c_name c) per) (c_comp c) bs)) 0 r None fuel
    (mkFI (fold_left (fun d p => dset d p []) names []) [])) as (ix & E & OKx & Rx); try lia; auto.
  { apply ga_none with (i := 0%nat); auto. }
  { cbn [firstn fi_props]. apply index_start. }
  exists ix, bs. split; [unfold index_build; rewrite Or; cbn [rbind]; exact E|]. split; [exact J|]. intros conds Hc.
  destruct (select_exists names conds) as (sel & Se). exists sel. split; [exact Se|].
  set (s := fun i => match nth_error ds i with Some d => sel d | None => false end).
  assert (Fo : found ix conds = Ok (filter s (seq 0 (length prs)))).
  { apply (found_spec names prs ix conds s OKx).
    - intros k v I. apply hashable_container, (Hc k v I).
    - intros i Li. unfold s. destruct (nth_error ds i) as [d|] eqn:Nd; [|exfalso; apply nth_error_None in Nd; revert Li; apply Nat.le_ngt; (exact Nd || (rewrite <- L2; exact Nd))]. rewrite Se.
      destruct (nth_error prs i) as [ps|] eqn:Np; [|exfalso; apply nth_error_None in Np; revert Li; apply Nat.le_ngt; (exact Np || (rewrite <- L2; exact Np))]. destruct (F2_nth _ _ _ F2 i d ps Nd Np) as [Pd ND].
      unfold matches, hit. split; intros [NE H]; (split; [exact NE|]).
      + exists ps. split; [exact Np|]. intros k v I. destruct (H k v I) as [A (ps' & w & Q1 & Q2 & Q3)]. split; [exact A|]. assert (ps' = ps) by congruence. subst ps'.
        exists w. split; [exact (dget_nodup _ _ _ ND Q2)|apply key_eqb_spec, Q3].
      + destruct H as (ps' & Np' & H). assert (ps' = ps) by congruence. subst ps'. intros k v I. destruct (H k v I) as [A (w & Q1 & Q2)]. split; [exact A|]. exists ps, w.
        split; [exact Pd|]. split; [exact (dget_In _ _ Q1)|]. apply key_eqb_spec, Q2. }
  assert (Pk : map (nth_error (stored (header (c_name c) per) (c_comp c) bs)) (filter s (seq 0 (length prs))) = map Some (picked sel ds (stored (header (c_name c) per) (c_comp c) bs))).
  { rewrite <- L1. apply picked_ids; [lia|]. intros i d Nd. unfold s. rewrite Nd. reflexivity. }
  assert (Fi : Forall (fun i => (i < length (stored (header (c_name c) per) (c_comp c) bs))%nat) (filter s (seq 0 (length prs)))).
  { apply Forall_forall. intros i I. apply filter_In in I. destruct I as [I _]. apply in_seq in I. lia. }
  assert (SEARCH : forall A (take : heap -> block -> block * hres A) act, (forall h b i ds j d, holds (header (c_name c) per) (c_comp c) bs b i ds j -> nth_error ds j = Some d ->
      exists b1, take h b = (b1, act h ((block_at (header (c_name c) per) (c_comp c) bs i, doc_at ds j), d)) /\ holds (header (c_name c) per) (c_comp c) bs b1 i ds (Datatypes.S j)) ->
    forall h0, index_search take g h0 f ix conds = acts act h0 (picked sel ds (stored (header (c_name c) per) (c_comp c) bs))).
  { intros A take act T h0. unfold index_search. rewrite Fo, Or.
    pose proof (fetch_all_at _ _ dec bs S Dc take act T ix _ Rx Fi h0 r None 0 _ (conj Bs Logic.I) Pk) as Q. destruct (filter s (seq 0 (length prs))); [|exact Q].
    rewrite <- Q. reflexivity. }
  split.
  - intros h0. rewrite (SEARCH mdoc take_lazy (fun h x => (h, Ok (fresh x))) (fun h b i ds j d => take_lazy_ok _ _ bs S h b i ds j d)).
    generalize (picked sel ds (stored (header (c_name c) per) (c_comp c) bs)). intros l. induction l as [|x l IH]; [reflexivity|]. cbn [acts map]. rewrite IH. reflexivity.
  - intros h0 W0. rewrite (SEARCH doc take_doc (fun h x => msgpack_decode h (snd x)) (fun h b i ds j d => take_doc_ok _ _ bs S h b i ds j d)).
    assert (E2 : map snd (stored (header (c_name c) per) (c_comp c) bs) = map snd (written h ops)) by (unfold stored; rewrite refs_data; exact J).
    unfold picked. clear - E2 WD W W0. revert WD E2 h0 W0. generalize (stored (header (c_name c) per) (c_comp c) bs) as l. generalize (docs_of ops) as ds0. generalize (written h ops) as ws.
    intros ws ds0 l WD. revert l. induction WD as [|[[hi x] b] d ws ds0 H1 H2 IH]; intros [|[ref y] l] E2 h0 W0; try discriminate.
    + exists h0, []. split; [reflexivity|]. split; [constructor|]. split; [exact W0|apply untouched_refl].
    + cbn [map snd] in E2. assert (y = b) by congruence. assert (E' : map snd l = map snd ws) by congruence. subst y. cbn [combine filter fst snd].
      destruct (sel d); [|exact (IH l E' h0 W0)]. cbn [map acts snd].
      destruct H1 as (ex & tv & h1 & -> & Eb & D1 & S1 & W1).
      destruct (msgpack_round hi d ex tv h1 b [] h0 D1 Eb W0) as (h2 & d' & A & B & C & U & K & _). rewrite app_nil_r in A. rewrite A.
      destruct (IH l E' h2 C) as (h3 & l3 & Q1 & Q2 & Q3 & Q4). rewrite Q1. exists h3, (d' :: l3). split; [reflexivity|]. split; [|split; [exact Q3|exact (untouched_trans _ _ _ U Q4)]].
      constructor; [|exact Q2]. apply (same_doc_later h d h2 d' h3 C K Q4). exact (same_doc_from h hi d h2 d' W W1 S1 B).
Qed.
Lemma build_refuses names fuel : (length ds < fuel)%nat -> (exists d, In d ds /\ ~ indexable names d) -> index_build fuel g f names = Err TypeError.
Proof.
  intros Lf (d & Id & Nd). destruct file_docs as (bs & r & dec & J & S & Dc & Or & Bs & WD & Ld).
  destruct (doc_props (header (c_name c) per) (c_comp c) bs J WD) as (prs & F1 & F2).
  assert (L1 : length (stored (header (c_name c) per) (c_comp c) bs) = @length (dict mobj) prs) by exact (F2_length _ _ _ F1).
  assert (L2 : length ds = @length (dict mobj) prs) by exact (F2_length _ _ _ F2).
  unfold index_build. rewrite Or. cbn [rbind].
  apply (build_bad _ _ dec bs S Dc names prs F1) with (n := length (stored (header (c_name c) per) (c_comp c) bs)) (k := 0%nat); try lia; auto.
  - destruct (F2_in_l _ _ _ _ F2 Id) as (ps & Ip & Pd & ND).
    destruct (existsb (fun p => match dget ps p with Some v => negb (hashable v) | None => false end) names) eqn:X.
    + apply existsb_exists in X. destruct X as (p & I1 & X). destruct (dget ps p) as [v|] eqn:V; [|discriminate]. apply negb_true_iff in X. exists ps, p, v. auto.
    + exfalso. apply Nd. intros k v props Pp N I Cv. assert (props = ps) by congruence. subst props. pose proof (dget_nodup _ _ _ ND I) as G.
      enough (existsb (fun p => match dget ps p with Some v => negb (hashable v) | None => false end) names = true) by congruence. apply existsb_exists. exists k. split; [exact N|]. rewrite G.
      destruct (hashable v) eqn:Hv; [|reflexivity]. apply hashable_container in Hv. contradiction.
  - apply ga_none with (i := 0%nat); auto.
  - cbn [firstn fi_props]. apply index_start.
Qed.
End Files.
Lemma search_unhashable {A} (take : heap -> block -> block * hres A) g h f ix conds k v : In (k, v) conds -> container v -> index_search take g h f ix conds = (h, [], Err TypeError).
Proof.
  intros I C. assert (Hv : hashable v = false) by (destruct C; reflexivity). unfold index_search, found. destruct conds as [|c cs]; [contradiction|].
  assert (B : cond_hits ix (k, v) = Err TypeError) by (unfold cond_hits; cbn [snd]; rewrite Hv; reflexivity).
  assert (T : forall x, (exists l, cond_hits ix x = Ok l) \/ cond_hits ix x = Err TypeError) by (intros x; unfold cond_hits; destruct (hashable (snd x)); eauto).
  destruct I as [->|I]; [rewrite B; reflexivity|].
  assert (M : mapM (cond_hits ix) cs = Err TypeError).
  { induction cs as [|x cs IH]; [contradiction|]. cbn [mapM]. destruct I as [->|I]; [rewrite B; reflexivity|]. destruct (T x) as [(l & ->)| ->]; [|reflexivity]. cbn [rbind]. rewrite (IH I). reflexivity. }
  destruct (T c) as [(l & ->)| ->]; [|reflexivity]. cbn [rbind]. rewrite M. reflexivity.
Qed.
Lemma search_files g conds fs ls h : Forall2 (fun p l => index_search take_lazy g h (fst p) (snd p) conds = (h, l, Ok tt)) fs ls ->
  search_all take_lazy g h fs conds = (h, List.concat ls, Ok tt).
Proof. induction 1 as [|[f ix] l fs ls E F IH]; [reflexivity|]. cbn [search_all fst snd] in *. rewrite E, IH. reflexivity. Qed.
