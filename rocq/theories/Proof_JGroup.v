(** Proofs about GroupBySpan of the Java port: its sweep is Python's, with the sets iterated over in some order. *)
From Verif Require Import PyBase PyBaseFacts Model_Heap Model_Layer Model_Text Model_Types Model_Document Model_Query Model_Algorithm Model_JGroup
  Spec_Algorithm Spec_JGroup Proof_Algorithm3 Proof_Algorithm4 Proof_Algorithm5 Proof_Query.
From Coq Require Import Sorting.Sorted Sorting.Permutation.
Local Open Scope Z_scope.

Lemma Ok_inj' {A} (a b : A) : Ok a = Ok b -> a = b.
Proof. congruence. Qed.
(** two sorts agree if they agree on elements in their order in the list *)
Lemma ssort_same {A K1 K2} (k1 : A -> K1) (l1 : K1 -> K1 -> bool) (k2 : A -> K2) l2 (xs : list A) :
  ForallOrdPairs (fun a b => l1 (k1 a) (k1 b) = l2 (k2 a) (k2 b)) xs -> ssort k1 l1 xs = ssort k2 l2 xs.
Proof.
  induction 1 as [|x xs F H IH]; [reflexivity|]. simpl. rewrite IH. clear IH H.
  assert (G : Forall (fun b => l1 (k1 x) (k1 b) = l2 (k2 x) (k2 b)) (ssort k2 l2 xs)).
  { eapply Permutation_Forall; [apply ssort_perm|exact F]. }
  induction G as [|y ys E G IH]; [reflexivity|]. simpl. rewrite E. destruct (l2 _ _); [reflexivity|]. rewrite IH. reflexivity.
Qed.
Lemma sinsert_map' {A B K} (ka : A -> K) (kb : B -> K) leb (f : A -> B) (H : forall a, kb (f a) = ka a) x l :
  sinsert kb leb (f x) (map f l) = map f (sinsert ka leb x l).
Proof. induction l as [|y l IH]; [reflexivity|]. simpl. rewrite !H. destruct (leb _ _); [reflexivity|]. simpl. rewrite IH. reflexivity. Qed.
Lemma ssort_map' {A B K} (ka : A -> K) (kb : B -> K) leb (f : A -> B) (H : forall a, kb (f a) = ka a) l :
  ssort kb leb (map f l) = map f (ssort ka leb l).
Proof. induction l as [|y l IH]; [reflexivity|]. simpl. rewrite IH. apply sinsert_map'. exact H. Qed.
Lemma fop_app {A} (R : A -> A -> Prop) l m : ForallOrdPairs R l -> ForallOrdPairs R m -> (forall a b, In a l -> In b m -> R a b) -> ForallOrdPairs R (l ++ m).
Proof.
  induction 1 as [|x l F H IH]; intros Hm Hc; [exact Hm|]. simpl. constructor.
  - apply Forall_app. split; [exact F|]. apply Forall_forall. intros b I. apply Hc; [left; reflexivity|exact I].
  - apply IH; [exact Hm|]. intros a b I J. apply Hc; [right; exact I|exact J].
Qed.
Lemma fop_all {A} (R : A -> A -> Prop) l : (forall a b, In a l -> In b l -> R a b) -> ForallOrdPairs R l.
Proof.
  induction l as [|x l IH]; intros H; constructor.
  - apply Forall_forall. intros b I. apply H; [left; reflexivity|right; exact I].
  - apply IH. intros a b I J. apply H; right; assumption.
Qed.

(** Java's types of points as Python's *)
Definition pytype (t : Z) : Z := if t =? 4 then 3 else if (t =? 5) || (t =? 6) then 4 else t.
Definition conv (e : gpoint) : gb_event := ((fst (fst e), pytype (snd (fst e))), snd e).
Definition group_type (t : Z) : Prop := t = 0 \/ t = -2 \/ t = 3 \/ t = 5.
Definition layer_type (t : Z) : Prop := t = 1 \/ t = -1 \/ t = 4 \/ t = 6.
Definition good_type (e : gpoint) : Prop := match fst (snd e) with None => group_type (snd (fst e)) | Some _ => layer_type (snd (fst e)) end.

Lemma jspan_ok h n f p : span_at h n f p -> jspan h n f = Ok p.
Proof. intros (tn & tt & E). unfold jspan. rewrite E. destruct p; reflexivity. Qed.
Lemma jpoints_conv h f st sp est esp st' sp' layer ns : (forall n, In n ns -> span_or_absent h f n) ->
  pytype st = st' -> pytype sp = sp' -> pytype est = 3 -> pytype esp = 4 ->
  exists pts, jpoints h f st sp est esp layer ns = Ok pts /\ nodes_events h f st' sp' layer ns = Ok (map conv pts) /\
    forall e, In e pts -> fst (snd e) = layer /\ In (snd (snd e)) ns /\ (exists p, span_at h (snd (snd e)) f p) /\
      (snd (fst e) = st \/ snd (fst e) = sp \/ snd (fst e) = est \/ snd (fst e) = esp).
Proof.
  intros H E1 E2 E3 E4. induction ns as [|n ns IH]; [exists []; split; [reflexivity|split; [reflexivity|intros e []]]|].
  destruct IH as (pts & P1 & P2 & P3); [intros; apply H; right; assumption|].
  cbn [jpoints nodes_events]. destruct (dmem (n_fieldsof h n) f) eqn:D.
  - destruct (H n (or_introl eq_refl)) as [A|(p & Sp & _)]; [unfold dmem in D; rewrite A in D; discriminate D|].
    rewrite (jspan_ok h n f p Sp), (proj1 (the_span_ok _ _ _ _ Sp)). cbn [rbind]. rewrite P1, P2. cbn [rbind].
    eexists. split; [reflexivity|]. split.
    + f_equal. rewrite map_app. f_equal. unfold span_events. destruct (fst p =? snd p); cbn [negb map]; unfold conv; cbn [fst snd]; rewrite ?E1, ?E2, ?E3, ?E4; reflexivity.
    + intros e I. apply in_app_or in I. destruct I as [I|I].
      * destruct (negb _); destruct I as [<-|[<-|[]]]; cbn [fst snd]; (split; [reflexivity|split; [left; reflexivity|split; [exists p; exact Sp|tauto]]]).
      * destruct (P3 e I) as (G1 & G2 & G3). split; [exact G1|]. split; [right; exact G2|exact G3].
  - exists pts. split; [exact P1|]. split; [exact P2|]. intros e I. destruct (P3 e I) as (G1 & G2 & G3). split; [exact G1|]. split; [right; exact G2|exact G3].
Qed.

(** the part of a set of pairs that belongs to a layer *)
Definition proj (k : pystr) (l : list (pystr * nid)) : list nid := map snd (filter (fun x => str_eqb k (fst x)) l).
Lemma proj_app k a b : proj k (a ++ b) = proj k a ++ proj k b.
Proof. unfold proj. rewrite filter_app, map_app. reflexivity. Qed.
Lemma proj_same k l : proj k (map (fun n => (k, n)) l) = l.
Proof. unfold proj. induction l as [|n l IH]; [reflexivity|]. simpl. rewrite str_eqb_refl. simpl. rewrite IH. reflexivity. Qed.
Lemma proj_other k k' l : k <> k' -> proj k (map (fun n => (k', n)) l) = [].
Proof. intros N. unfold proj. induction l as [|n l IH]; [reflexivity|]. simpl. rewrite str_eqb_neq by exact N. exact IH. Qed.
Lemma in_proj k l n : In n (proj k l) <-> In (k, n) l.
Proof.
  unfold proj. rewrite in_map_iff. split.
  - intros ([k' m] & E & I). apply filter_In in I. destruct I as (I & Q). simpl in E, Q. apply str_eqb_eq in Q. subst. exact I.
  - intros I. exists (k, n). split; [reflexivity|]. apply filter_In. split; [exact I|apply str_eqb_refl].
Qed.
Lemma dset_self {V} (d : dict V) k v : dget d k = Some v -> dset d k v = d.
Proof.
  induction d as [|[k' v'] d IH]; simpl; [discriminate|]. destruct (str_eqb_spec k k') as [->|N]; [intros E; injection E as ->; reflexivity|].
  intros E. rewrite (IH E). reflexivity.
Qed.
Lemma dget_map {V W} (f : pystr -> V -> W) (d : dict V) k : dget (map (fun kv => (fst kv, f (fst kv) (snd kv))) d) k = option_map (f k) (dget d k).
Proof. induction d as [|[k' v] d IH]; [reflexivity|]. simpl. destruct (str_eqb_spec k k') as [->|_]; [reflexivity|exact IH]. Qed.
Lemma dset_map {V W} (f g : pystr -> V -> W) (d : dict V) k v w : dget d k = Some v -> w = g k v -> (forall k' x, k' <> k -> f k' x = g k' x) -> NoDup (dkeys d) ->
  dset (map (fun kv => (fst kv, f (fst kv) (snd kv))) d) k w = map (fun kv => (fst kv, g (fst kv) (snd kv))) d.
Proof.
  intros E -> H. induction d as [|[k' v'] d IH]; simpl in *; [discriminate E|]. intros N. inversion N as [|? ? Ni N']; subst.
  destruct (str_eqb_spec k k') as [->|Ne].
  - injection E as ->. f_equal. apply map_ext_in. intros [k2 x] I. simpl. rewrite H; [reflexivity|]. intros ->. apply Ni. change k' with (fst (k', x)). apply in_map. exact I.
  - rewrite H by congruence. f_equal. apply IH; assumption.
Qed.
Lemma fill_ok xs : forall o, NoDup (dkeys o) -> (forall x, In x xs -> In (fst x) (dkeys o)) ->
  fill o xs = Ok (map (fun kv => (fst kv, snd kv ++ proj (fst kv) xs)) o).
Proof.
  induction xs as [|[k n] xs IH]; intros o N H.
  - simpl. f_equal. rewrite map_ext with (g := fun kv => kv); [rewrite map_id; reflexivity|]. intros [a l]. simpl. rewrite app_nil_r. reflexivity.
  - cbn [fill]. unfold obj_append, dgetE. destruct (dget o k) as [l|] eqn:E.
    + cbn [rbind]. assert (K : dkeys (dset o k (l ++ [n])) = dkeys o). { rewrite dkeys_dset. unfold dmem. rewrite E. reflexivity. }
      rewrite IH; [|rewrite K; exact N|intros x I; rewrite K; apply H; right; exact I]. f_equal.
      assert (Ds : dset o k (l ++ [n]) = map (fun kv => (fst kv, if str_eqb (fst kv) k then snd kv ++ [n] else snd kv)) o).
      { clear - E N. revert E N. induction o as [|[k' v'] o IH]; simpl; [discriminate|]. intros E N. inversion N as [|? ? Ni N']; subst. destruct (str_eqb_spec k k') as [->|Ne].
        - injection E as ->. rewrite str_eqb_refl. f_equal. symmetry. rewrite map_ext_in with (g := fun kv => kv); [apply map_id|].
          intros [k2 x] I. simpl. destruct (str_eqb_spec k2 k') as [->|_]; [|reflexivity]. exfalso. apply Ni. change k' with (fst (k', x)). apply in_map. exact I.
        - rewrite str_eqb_neq by congruence. f_equal. apply IH; assumption. }
      rewrite Ds, map_map. apply map_ext. intros [k' v]. simpl. unfold proj. simpl. destruct (str_eqb_spec k' k) as [->|Ne]; [|reflexivity].
      simpl. rewrite <- app_assoc. reflexivity.
    + exfalso. specialize (H (k, n) (or_introl eq_refl)). simpl in H. apply dget_None in E. contradiction.
Qed.

Section Sim.
Variables (og : nat -> list nid -> list nid) (ol : nat -> pystr -> list nid -> list nid).
Hypothesis og_any : any_order og.
Hypothesis ol_any : any_layer_order ol.
Variables (h : heap) (b : gbuilder).
Notation gs := (bg_groups b).
Notation layers := (bg_layers b).
Notation f := (bg_field b).
Notation lsf := (Some (bg_fields b)).
Hypothesis input : group_input h gs layers f lsf.
Hypothesis apart : told_apart h b.
Definition key_lt (x y : pystr) : Prop := str_cmp x y = Lt.

(** Python's iteration order: layer by layer *)
Definition on_ (k : nat) (l : list (pystr * nid)) : list (pystr * nid) :=
  flat_map (fun x => map (fun n => (x, n)) (ol k x (proj x l))) (dkeys layers) ++ filter (fun p => negb (existsb (str_eqb (fst p)) (dkeys layers))) l.
Lemma split_keys (l : list (pystr * nid)) : forall ks, NoDup ks ->
  Permutation (flat_map (fun x => map (fun n => (x, n)) (proj x l)) ks ++ filter (fun p => negb (existsb (str_eqb (fst p)) ks)) l) l.
Proof.
  induction ks as [|k ks IH]; intros N.
  - clear. cbn [flat_map app]. induction l as [|x l IH]; [constructor|]. simpl. constructor. exact IH.
  - inversion N as [|? ? Ni N']; subst. simpl. eapply perm_trans; [|apply IH; exact N'].
    rewrite <- app_assoc. rewrite Permutation_app_comm. rewrite <- app_assoc. apply Permutation_app_head.
    clear IH. induction l as [|[x n] l IH]; [constructor|]. unfold proj. cbn [filter fst]. fold (proj k l).
    destruct (str_eqb_spec k x) as [->|Ne].
    + rewrite str_eqb_refl. cbn [orb negb map]. fold (proj x l). simpl (negb (true || _)). cbv iota.
      assert (E : existsb (str_eqb x) ks = false).
      { apply not_true_iff_false. intros E. apply existsb_exists in E. destruct E as (y & I & Q). apply str_eqb_eq in Q. subst. contradiction. }
      cbn [fst]. rewrite E. simpl. rewrite <- Permutation_middle. constructor. exact IH.
    + assert (Ne' : x <> k) by congruence. rewrite (str_eqb_neq Ne'). cbn [orb]. destruct (existsb (str_eqb x) ks); simpl; [exact IH|]. constructor. exact IH.
Qed.
Lemma keys_nodup : NoDup (dkeys layers).
Proof. apply input. Qed.
Lemma on_any : any_order on_.
Proof.
  intros k l. unfold on_. eapply perm_trans; [|apply (split_keys l (dkeys layers) keys_nodup)]. apply Permutation_app_tail.
  induction (dkeys layers) as [|x r IH]; [constructor|]. simpl. apply Permutation_app; [|exact IH]. apply Permutation_map, ol_any.
Qed.
Lemma proj_on k l x : In x (dkeys layers) -> proj x (on_ k l) = ol k x (proj x l).
Proof.
  intros I. unfold on_. rewrite proj_app.
  assert (E : proj x (filter (fun p => negb (existsb (str_eqb (fst p)) (dkeys layers))) l) = []).
  { destruct (proj x _) as [|n r] eqn:E; [reflexivity|]. exfalso. assert (J : In n (proj x (filter (fun p => negb (existsb (str_eqb (fst p)) (dkeys layers))) l))) by (rewrite E; left; reflexivity).
    apply in_proj, filter_In in J. destruct J as (_ & J). cbn [fst] in J. apply negb_true_iff, not_true_iff_false in J. apply J. apply existsb_exists. exists x. split; [exact I|apply str_eqb_refl]. }
  rewrite E, app_nil_r. clear E. pose proof keys_nodup as N. revert I N. generalize (dkeys layers) as ks. induction ks as [|y ks IH]; intros I N; [destruct I|].
  inversion N as [|? ? Ni N']; subst. simpl. rewrite proj_app. destruct (str_eqb_spec x y) as [->|Ne].
  - rewrite proj_same. replace (proj y (flat_map _ ks)) with (@nil nid); [apply app_nil_r|]. symmetry. clear - Ni.
    induction ks as [|z ks IH]; [reflexivity|]. simpl. rewrite proj_app, proj_other, IH; [reflexivity| |]; intros X; apply Ni; [right; exact X|left; congruence].
  - rewrite proj_other by exact Ne. simpl. apply IH; [destruct I as [->|I]; [congruence|exact I]|exact N'].
Qed.

(** node equality *)
Lemma same_node_eqb n m : takes_part b n -> takes_part b m -> same_node h n m = Nat.eqb n m.
Proof.
  intros Hn Hm. destruct apart as (A1 & A2). unfold same_node. destruct (Nat.eqb_spec n m) as [->|N].
  - rewrite Z.eqb_refl. destruct (n_collof h m) eqn:E; [rewrite Nat.eqb_refl; reflexivity|]. exfalso. exact (A1 m Hm E).
  - destruct (Z.eqb_spec (n_idof h n) (n_idof h m)) as [Ei|]; [|reflexivity]. simpl.
    destruct (n_collof h n) as [x|] eqn:E1, (n_collof h m) as [y|] eqn:E2; try reflexivity.
    destruct (Nat.eqb_spec x y) as [->|]; [|reflexivity]. exfalso. apply N. apply A2; congruence.
Qed.
Lemma hashed_ok n : takes_part b n -> hashed h n = Ok tt.
Proof. intros H. destruct apart as (A1 & _). unfold hashed. destruct (n_collof h n) eqn:E; [reflexivity|]. exfalso. exact (A1 n H E). Qed.
Definition group_node (n : nid) : Prop := In n gs /\ exists p, span_at h n f p.
Definition layer_node (k : pystr) (n : nid) : Prop :=
  exists ns lf, In (k, ns) layers /\ In n ns /\ dget (bg_fields b) k = Some lf /\ exists p, span_at h n lf p.
Lemma group_part n : group_node n -> takes_part b n.
Proof. intros (I & _). left. exact I. Qed.
Lemma layer_part k n : layer_node k n -> takes_part b n.
Proof. intros (ns & lf & I & J & _). right. exists k, ns. auto. Qed.
Lemma layer_key k n : layer_node k n -> In k (dkeys layers).
Proof. intros (ns & lf & I & _). change k with (fst (k, ns)). apply in_map. exact I. Qed.
Lemma existsb_ext' {X} (p q : X -> bool) l : (forall x, In x l -> p x = q x) -> existsb p l = existsb q l.
Proof. induction l as [|x l IH]; intros H; [reflexivity|]. simpl. rewrite H by (left; reflexivity). rewrite IH; [reflexivity|]. intros; apply H; right; assumption. Qed.

Notation pykept g o := (if bg_cover b then cov_obj h f lsf g o else o).
Definition event_ok (e : gpoint) : Prop := good_type e /\ match fst (snd e) with None => group_node (snd (snd e)) | Some k => layer_node k (snd (snd e)) end.
Record Sim (st : gb_state) (js : jstate) : Prop := {
  s_opens : js_opens js = gb_opens st;
  s_nodes : js_nodes js = map (fun kv => (fst kv, proj (fst kv) (gb_nodes st))) layers;
  s_groups : forall g, group_node g -> node_get h (js_groups js) g = gb_groups st g;
  s_list : js_list js = gb_list st;
  s_objs : forall g i, In (g, i) (gb_list st) -> js_objs js i = pykept g (gb_objs st i) /\ dkeys (gb_objs st i) = dkeys layers;
  s_og : forall g, In g (gb_opens st) -> group_node g;
  s_on : forall k n, In (k, n) (gb_nodes st) -> layer_node k n;
  s_key : forall g i, gb_groups st g = Some i -> In (g, i) (gb_list st);
  s_seq : map snd (gb_list st) = seq 0 (length (gb_list st)) }.

Lemma list_inj st js g g' i : Sim st js -> In (g, i) (gb_list st) -> In (g', i) (gb_list st) -> g = g'.
Proof.
  intros S I J. pose proof (s_seq _ _ S) as E. assert (N : NoDup (map snd (gb_list st))) by (rewrite E; apply seq_NoDup).
  clear - I J N. induction (gb_list st) as [|[x k] l IH]; [destruct I|]. simpl in N. inversion N as [|? ? Ni N']; subst.
  destruct I as [I|I], J as [J|J].
  - congruence.
  - injection I as -> ->. exfalso. apply Ni. change i with (snd (g', i)). apply in_map. exact J.
  - injection J as -> ->. exfalso. apply Ni. change i with (snd (g, i)). apply in_map. exact I.
  - auto.
Qed.
Lemma list_fresh st js g : Sim st js -> ~ In (g, length (gb_list st)) (gb_list st).
Proof.
  intros S I. apply (in_map snd) in I. rewrite (s_seq _ _ S) in I. apply in_seq in I. simpl in I. lia.
Qed.
Lemma lname_field k lf : dget (bg_fields b) k = Some lf -> lname lsf k = lf.
Proof. intros E. apply (lname_ok lsf k lf). exact E. Qed.
Lemma cov_covers g k n p q lf : span_at h g f p -> dget (bg_fields b) k = Some lf -> span_at h n lf q -> covers p q = cov h f lsf g k n.
Proof.
  intros Hp E Hq. unfold cov, covers, is_covered_by. cbn [sp_start sp_stop]. rewrite (lname_field k lf E).
  rewrite (proj2 (the_span_ok _ _ _ _ Hq)). unfold gsp. rewrite (proj2 (the_span_ok _ _ _ _ Hp)). reflexivity.
Qed.
Lemma pick_ok g p k lf ns : span_at h g f p -> dget (bg_fields b) k = Some lf -> (forall n, In n ns -> exists q, span_at h n lf q) ->
  pick h p lf ns = Ok (filter (cov h f lsf g k) ns).
Proof.
  intros Hp E. induction ns as [|n ns IH]; intros H; [reflexivity|]. cbn [pick filter]. destruct (H n (or_introl eq_refl)) as (q & Hq).
  rewrite (jspan_ok h n lf q Hq). cbn [rbind]. rewrite IH by (intros; apply H; right; assumption). cbn [rbind].
  rewrite (cov_covers g k n p q lf Hp E Hq). reflexivity.
Qed.
Lemma cov_dset g o k l : cov_obj h f lsf g (dset o k l) = dset (cov_obj h f lsf g o) k (filter (cov h f lsf g k) l).
Proof.
  induction o as [|[k' v] o IH]; [reflexivity|]. simpl. destruct (str_eqb_spec k k') as [->|N]; [reflexivity|]. simpl. rewrite IH. reflexivity.
Qed.

Lemma to_groups_ok st js layer n : Sim st js -> layer_node layer n ->
  forall xs pobjs jobjs pobjs', (forall g, In g xs -> group_node g) ->
  (forall g i, In (g, i) (gb_list st) -> jobjs i = pykept g (pobjs i) /\ dkeys (pobjs i) = dkeys layers) ->
  append_all (gb_groups st) layer n xs pobjs = Ok pobjs' ->
  exists jobjs', to_groups h b (js_groups js) layer n xs jobjs = Ok jobjs' /\
    (forall g i, In (g, i) (gb_list st) -> jobjs' i = pykept g (pobjs' i) /\ dkeys (pobjs' i) = dkeys layers).
Proof.
  intros S Hn. pose proof Hn as (ns & lf & _ & _ & Ef & q & Hq).
  induction xs as [|g xs IH]; intros pobjs jobjs pobjs' Hg Hr E.
  - injection E as <-. exists jobjs. split; [reflexivity|exact Hr].
  - cbn [append_all to_groups] in *. destruct (gb_groups st g) as [i|] eqn:Eg; [|discriminate E].
    unfold obj_append, dgetE in E. destruct (dget (pobjs i) layer) as [l|] eqn:El; [|discriminate E]. cbn [rbind] in E.
    pose proof (s_key _ _ S g i Eg) as Il. destruct (Hr g i Il) as (R1 & R2). destruct (Hg g (or_introl eq_refl)) as (Ig & p & Hp).
    rewrite (s_groups _ _ S g) by (split; [exact Ig|exists p; exact Hp]). rewrite Eg.
    assert (Kd : forall v, dkeys (dset (pobjs i) layer v) = dkeys layers).
    { intros v. rewrite dkeys_dset. unfold dmem. rewrite El. exact R2. }
    assert (Oth : forall g' i' x, In (g', i') (gb_list st) -> i' <> i -> upd pobjs i x i' = pobjs i').
    { intros g' i' x _ N. unfold upd. destruct (Nat.eqb_spec i' i); [contradiction|reflexivity]. }
    assert (Fin : forall jo, jo = pykept g (dset (pobjs i) layer (l ++ [n])) ->
      forall g' i', In (g', i') (gb_list st) -> upd jobjs i jo i' = pykept g' (upd pobjs i (dset (pobjs i) layer (l ++ [n])) i') /\
        dkeys (upd pobjs i (dset (pobjs i) layer (l ++ [n])) i') = dkeys layers).
    { intros jo Ej g' i' I'. unfold upd. destruct (Nat.eqb_spec i' i) as [->|N]; [|exact (Hr g' i' I')].
      assert (g' = g) by (eapply list_inj; eassumption). subst g'. split; [exact Ej|apply Kd]. }
    destruct (bg_cover b) eqn:Ec.
    + rewrite (jspan_ok h g f p Hp). cbn [rbind]. unfold dgetE. rewrite Ef. cbn [rbind]. rewrite (jspan_ok h n lf q Hq). cbn [rbind].
      rewrite (cov_covers g layer n p q lf Hp Ef Hq). destruct (cov h f lsf g layer n) eqn:Ecv.
      * rewrite R1, dget_cov, El. cbn [option_map rbind].
        eapply IH; [intros; apply Hg; right; assumption| |exact E]. apply Fin.
        rewrite cov_dset, filter_app. simpl. rewrite Ecv. reflexivity.
      * eapply IH; [intros; apply Hg; right; assumption| |exact E]. intros g' i' I'.
        destruct (Fin (cov_obj h f lsf g (dset (pobjs i) layer (l ++ [n]))) eq_refl g' i' I') as (F1 & F2). split; [|exact F2].
        rewrite <- F1. unfold upd. destruct (Nat.eqb_spec i' i) as [->|N]; [|reflexivity].
        rewrite cov_dset, filter_app. simpl. rewrite Ecv, app_nil_r, dset_self; [exact R1|]. rewrite dget_cov, El. reflexivity.
    + cbn [rbind]. unfold dgetE. rewrite R1, El. cbn [rbind].
      eapply IH; [intros; apply Hg; right; assumption| |exact E]. apply Fin. reflexivity.
Qed.

Lemma new_content_ok k g nodes : group_node g -> (forall x n, In (x, n) nodes -> layer_node x n) ->
  new_content ol h b k g (map (fun kv => (fst kv, proj (fst kv) nodes)) layers) =
  Ok (pykept g (map (fun kv => (fst kv, ol k (fst kv) (proj (fst kv) nodes))) layers)).
Proof.
  intros (_ & p & Hp) H. assert (V : forall kv, In kv layers -> exists lf, dget (bg_fields b) (fst kv) = Some lf).
  { intros [x ns] I. destruct input as (_ & _ & _ & W). destruct (W x ns I) as (_ & lf & F & _). exists lf. exact F. }
  revert V. clear input. induction layers as [|[x ns] r IH]; intros V; [simpl; destruct (bg_cover b); reflexivity|].
  cbn [map new_content fst]. rewrite IH by (intros; apply V; right; assumption).
  destruct (bg_cover b) eqn:Ec; [|reflexivity].
  rewrite (jspan_ok h g f p Hp). cbn [rbind]. destruct (V (x, ns) (or_introl eq_refl)) as (lf & El). cbn [fst] in El. unfold dgetE. rewrite El. cbn [rbind].
  rewrite (pick_ok g p x lf); [reflexivity|exact Hp|exact El|]. intros n I.
  apply (Permutation_in _ (ol_any k x (proj x nodes))) in I. apply in_proj in I. destruct (H x n I) as (ns' & lf' & _ & _ & El' & Hq).
  assert (lf' = lf) by congruence. subst. exact Hq.
Qed.
Lemma dget_nodes nodes k : In k (dkeys layers) -> dget (map (fun kv => (fst kv, proj (fst kv) nodes)) layers) k = Some (proj k nodes).
Proof.
  intros I. rewrite (dget_map (fun k _ => proj k nodes) layers k). destruct (dget layers k) eqn:E; [reflexivity|]. apply dget_None in E. contradiction.
Qed.
Lemma dset_nodes nodes nodes' k : In k (dkeys layers) -> (forall k', k' <> k -> proj k' nodes = proj k' nodes') ->
  dset (map (fun kv => (fst kv, proj (fst kv) nodes)) layers) k (proj k nodes') = map (fun kv => (fst kv, proj (fst kv) nodes')) layers.
Proof.
  intros I H. destruct (dget layers k) as [v|] eqn:E; [|apply dget_None in E; contradiction].
  apply (dset_map (fun k _ => proj k nodes) (fun k _ => proj k nodes') layers k v); [exact E|reflexivity|intros; apply H; assumption|exact keys_nodup].
Qed.
Lemma proj_add k n l : (forall x m, In (x, m) l -> layer_node x m) -> layer_node k n ->
  set_add (same_node h) n (proj k l) = proj k (set_add pair_eqb (k, n) l) /\ forall k', k' <> k -> proj k' l = proj k' (set_add pair_eqb (k, n) l).
Proof.
  intros H Hn. unfold set_add.
  assert (E : existsb (same_node h n) (proj k l) = existsb (pair_eqb (k, n)) l).
  { clear - H Hn apart. induction l as [|[x m] l IH]; [reflexivity|]. unfold proj. cbn [filter fst existsb]. unfold pair_eqb at 1. cbn [fst snd].
    assert (Hm := H x m (or_introl eq_refl)). fold (proj k l).
    destruct (str_eqb_spec k x) as [->|N]; [|simpl; apply IH; intros; apply H; right; assumption].
    cbn [map existsb snd andb]. rewrite (same_node_eqb n m) by (eapply layer_part; eassumption). f_equal. apply IH. intros; apply H; right; assumption. }
  rewrite E. destruct (existsb _ l); [split; auto|]. split.
  - rewrite proj_app. f_equal. unfold proj. simpl. rewrite str_eqb_refl. reflexivity.
  - intros k' N. rewrite proj_app. unfold proj at 3. simpl. rewrite str_eqb_neq by exact N. simpl. rewrite app_nil_r. reflexivity.
Qed.
Lemma proj_del k n l l' : (forall x m, In (x, m) l -> layer_node x m) -> layer_node k n -> set_remove pair_eqb (k, n) l = Ok l' ->
  filter (fun y => negb (same_node h n y)) (proj k l) = proj k l' /\ (forall k', k' <> k -> proj k' l = proj k' l') /\ (forall x m, In (x, m) l' -> In (x, m) l).
Proof.
  intros H Hn. unfold set_remove. destruct (existsb _ l); [|discriminate]. intros E. apply Ok_inj' in E. subst l'. split; [|split].
  - clear - H Hn apart. induction l as [|[x m] l IH]; [reflexivity|]. unfold proj. cbn [filter fst]. unfold pair_eqb at 1. cbn [fst snd].
    assert (Hm := H x m (or_introl eq_refl)). fold (proj k l). assert (IH' := IH (fun x m I => H x m (or_intror I))).
    destruct (str_eqb_spec k x) as [->|N].
    + cbn [map filter snd andb]. rewrite (same_node_eqb n m) by (eapply layer_part; eassumption). destruct (Nat.eqb n m); cbn [negb].
      * exact IH'.
      * cbn [filter fst]. rewrite str_eqb_refl. cbn [map snd]. f_equal. exact IH'.
    + cbn [andb negb filter fst]. rewrite str_eqb_neq by exact N. exact IH'.
  - intros k' N. unfold proj. f_equal. clear - N. induction l as [|[x m] l IH]; [reflexivity|]. cbn [filter fst]. unfold pair_eqb at 1. cbn [fst snd].
    destruct (str_eqb_spec k x) as [->|Nx]; [|cbn [andb negb filter fst]; rewrite IH; reflexivity].
    rewrite str_eqb_neq by exact N. destruct (Nat.eqb n m); cbn [andb negb filter fst]; [exact IH|]. rewrite str_eqb_neq by exact N. exact IH.
  - intros x m I. apply filter_In in I. tauto.
Qed.

Lemma step_sim k st js e st' : Sim st js -> event_ok e -> gb_step og on_ layers k st (conv e) = Ok st' ->
  exists js', js_step og ol h b k js e = Ok js' /\ Sim st' js'.
Proof.
  intros S (Ht & He) E. destruct e as [[off t] [layer n]]. unfold good_type in Ht. cbn [fst snd] in Ht, He.
  unfold conv in E. cbn [fst snd] in E. unfold gb_step in E. unfold js_step.
  destruct layer as [name|].
  - (* a node of a layer *)
    rewrite hashed_ok by (eapply layer_part; exact He). cbn [rbind]. pose proof (layer_key name n He) as Ik.
    assert (Start : forall st', (let* objs := append_all (gb_groups st) name n (og k (gb_opens st)) (gb_objs st) in
        Ok (mkGB (set_add pair_eqb (name, n) (gb_nodes st)) (gb_opens st) (gb_groups st) objs (gb_list st))) = Ok st' ->
      exists js', (let* l := dgetE (js_nodes js) name in
        let* objs := to_groups h b (js_groups js) name n (og k (js_opens js)) (js_objs js) in
        Ok (mkJS (dset (js_nodes js) name (set_add (same_node h) n l)) (js_opens js) (js_groups js) objs (js_list js))) = Ok js' /\ Sim st' js').
    { clear E st'. intros st' E. destruct (append_all _ _ _ _ _) as [pobjs'|] eqn:Ea; [|discriminate E]. cbn [rbind] in E. apply Ok_inj' in E. subst st'.
      rewrite (s_nodes _ _ S). unfold dgetE. rewrite dget_nodes by exact Ik. cbn [rbind]. rewrite (s_opens _ _ S).
      destruct (to_groups_ok st js name n S He (og k (gb_opens st)) (gb_objs st) (js_objs js) pobjs') as (jobjs' & E1 & E2).
      - intros g I. apply (s_og _ _ S). eapply Permutation_in; [apply og_any|exact I].
      - exact (s_objs _ _ S).
      - exact Ea.
      - rewrite E1. cbn [rbind]. eexists. split; [reflexivity|].
        destruct (proj_add name n (gb_nodes st) (s_on _ _ S) He) as (A1 & A2). rewrite A1.
        constructor; cbn [js_nodes js_opens js_groups js_objs js_list gb_nodes gb_opens gb_groups gb_objs gb_list].
        + reflexivity.
        + apply dset_nodes; assumption.
        + exact (s_groups _ _ S).
        + exact (s_list _ _ S).
        + exact E2.
        + exact (s_og _ _ S).
        + intros x m I. unfold set_add in I. destruct (existsb _ _); [exact (s_on _ _ S x m I)|]. apply in_app_or in I. destruct I as [I|[I|[]]]; [exact (s_on _ _ S x m I)|].
          injection I as <- <-. exact He.
        + exact (s_key _ _ S).
        + exact (s_seq _ _ S). }
    assert (Stop : forall st', (let* r := set_remove pair_eqb (name, n) (gb_nodes st) in Ok (mkGB r (gb_opens st) (gb_groups st) (gb_objs st) (gb_list st))) = Ok st' ->
      exists js', (let* l := dgetE (js_nodes js) name in
        Ok (mkJS (dset (js_nodes js) name (filter (fun y => negb (same_node h n y)) l)) (js_opens js) (js_groups js) (js_objs js) (js_list js))) = Ok js' /\ Sim st' js').
    { clear E st' Start. intros st' E. destruct (set_remove _ _ _) as [r|] eqn:Er; [|discriminate E]. cbn [rbind] in E. apply Ok_inj' in E. subst st'.
      rewrite (s_nodes _ _ S). unfold dgetE. rewrite dget_nodes by exact Ik. cbn [rbind]. eexists. split; [reflexivity|].
      destruct (proj_del name n (gb_nodes st) r (s_on _ _ S) He Er) as (D1 & D2 & D3). rewrite D1.
      constructor; cbn [js_nodes js_opens js_groups js_objs js_list gb_nodes gb_opens gb_groups gb_objs gb_list].
      - exact (s_opens _ _ S).
      - apply dset_nodes; assumption.
      - exact (s_groups _ _ S).
      - exact (s_list _ _ S).
      - exact (s_objs _ _ S).
      - exact (s_og _ _ S).
      - intros x m I. apply (s_on _ _ S), D3, I.
      - exact (s_key _ _ S).
      - exact (s_seq _ _ S). }
    destruct Ht as [-> |[-> |[-> | ->]]].
    + exact (Start st' E).
    + exact (Stop st' E).
    + exact (Start st' E).
    + exact (Stop st' E).
  - (* a group *)
    rewrite hashed_ok by (apply group_part; exact He). cbn [rbind].
    assert (Start : forall st', (let* o := fill (map (fun kv => (fst kv, [])) layers) (on_ k (gb_nodes st)) in
        Ok (mkGB (gb_nodes st) (set_add Nat.eqb n (gb_opens st)) (upd (gb_groups st) n (Some (length (gb_list st)))) (upd (gb_objs st) (length (gb_list st)) o) (gb_list st ++ [(n, length (gb_list st))]))) = Ok st' ->
      exists js', (let* o := new_content ol h b k n (js_nodes js) in
        Ok (mkJS (js_nodes js) (set_add (same_node h) n (js_opens js)) ((n, length (js_list js)) :: js_groups js) (upd (js_objs js) (length (js_list js)) o) (js_list js ++ [(n, length (js_list js))]))) = Ok js' /\ Sim st' js').
    { clear E st'. intros st' E. rewrite fill_ok in E.
      2:{ unfold dkeys. rewrite map_map. exact keys_nodup. }
      2:{ intros [x m] I. unfold dkeys. rewrite map_map. simpl. apply (Permutation_in _ (on_any k (gb_nodes st))) in I. eapply layer_key. exact (s_on _ _ S x m I). }
      cbn [rbind] in E. apply Ok_inj' in E. subst st'. rewrite (s_nodes _ _ S), new_content_ok; [|exact He|exact (s_on _ _ S)]. cbn [rbind].
      eexists. split; [reflexivity|]. rewrite (s_list _ _ S).
      assert (Eo : map (fun kv : pystr * list nid => (fst kv, snd kv ++ proj (fst kv) (on_ k (gb_nodes st)))) (map (fun kv : pystr * list nid => (fst kv, [])) layers) =
                   map (fun kv => (fst kv, ol k (fst kv) (proj (fst kv) (gb_nodes st)))) layers).
      { rewrite map_map. apply map_ext_in. intros [x ns] I. cbn [fst snd]. simpl. rewrite proj_on; [reflexivity|]. change x with (fst (x, ns)). apply in_map. exact I. }
      rewrite Eo. constructor; cbn [js_nodes js_opens js_groups js_objs js_list gb_nodes gb_opens gb_groups gb_objs gb_list].
      - rewrite (s_opens _ _ S). unfold set_add. rewrite (existsb_ext' (same_node h n) (Nat.eqb n)); [reflexivity|].
        intros y I. apply same_node_eqb; apply group_part; [exact He|exact (s_og _ _ S y I)].
      - reflexivity.
      - intros g Hg. cbn [node_get]. rewrite same_node_eqb by (apply group_part; assumption). unfold upd. destruct (Nat.eqb g n); [reflexivity|]. apply (s_groups _ _ S g Hg).
      - reflexivity.
      - intros g i I. unfold upd. apply in_app_or in I. destruct I as [I|[I|[]]].
        + destruct (Nat.eqb_spec i (length (gb_list st))) as [->|_]; [exfalso; eapply list_fresh; eassumption|]. exact (s_objs _ _ S g i I).
        + injection I as <- <-. rewrite Nat.eqb_refl. split; [reflexivity|]. unfold dkeys. rewrite map_map. reflexivity.
      - intros g I. unfold set_add in I. destruct (existsb _ _); [exact (s_og _ _ S g I)|]. apply in_app_or in I. destruct I as [I|[<-|[]]]; [exact (s_og _ _ S g I)|exact He].
      - exact (s_on _ _ S).
      - intros g i I. unfold upd in I. apply in_or_app. destruct (Nat.eqb_spec g n) as [->|_]; [injection I as <-; right; left; reflexivity|]. left. exact (s_key _ _ S g i I).
      - rewrite map_app, app_length, Nat.add_1_r, seq_S, (s_seq _ _ S). reflexivity. }
    assert (Stop : forall st', (let* r := set_remove Nat.eqb n (gb_opens st) in Ok (mkGB (gb_nodes st) r (gb_groups st) (gb_objs st) (gb_list st))) = Ok st' ->
      exists js', Ok (mkJS (js_nodes js) (filter (fun y => negb (same_node h n y)) (js_opens js)) (js_groups js) (js_objs js) (js_list js)) = Ok js' /\ Sim st' js').
    { clear E st' Start. intros st' E. unfold set_remove in E. destruct (existsb _ _); [|discriminate E]. cbn [rbind] in E. apply Ok_inj' in E. subst st'.
      eexists. split; [reflexivity|]. constructor; cbn [js_nodes js_opens js_groups js_objs js_list gb_nodes gb_opens gb_groups gb_objs gb_list].
      - rewrite (s_opens _ _ S). apply filter_ext_in. intros y I. f_equal. apply same_node_eqb; apply group_part; [exact He|exact (s_og _ _ S y I)].
      - exact (s_nodes _ _ S).
      - exact (s_groups _ _ S).
      - exact (s_list _ _ S).
      - exact (s_objs _ _ S).
      - intros g I. apply filter_In in I. apply (s_og _ _ S). tauto.
      - exact (s_on _ _ S).
      - exact (s_key _ _ S).
      - exact (s_seq _ _ S). }
    destruct Ht as [-> |[-> |[-> | ->]]].
    + exact (Start st' E).
    + exact (Stop st' E).
    + exact (Start st' E).
    + exact (Stop st' E).
Qed.
Lemma loop_sim es : forall k st js st', Sim st js -> (forall e, In e es -> event_ok e) -> gb_loop og on_ layers k st (map conv es) = Ok st' ->
  exists js', js_loop og ol h b k js es = Ok js' /\ Sim st' js'.
Proof.
  induction es as [|e es IH]; intros k st js st' S He E.
  - injection E as <-. exists js. split; [reflexivity|exact S].
  - cbn [map gb_loop js_loop] in *. destruct (gb_step _ _ _ _ _ _) as [st1|] eqn:E1; [|discriminate E]. cbn [rbind] in E.
    destruct (step_sim k st js e st1 S (He e (or_introl eq_refl)) E1) as (js1 & J1 & S1). rewrite J1. cbn [rbind].
    eapply IH; [exact S1|intros; apply He; right; assumption|exact E].
Qed.
End Sim.
