(** Proofs about group_by_span. *)
From Verif Require Import PyBase PyBaseFacts Model_Heap Model_Layer Model_Text Model_Types Model_Document Model_Algorithm Spec_Algorithm Proof_Algorithm3.
From Coq Require Import Sorting.Sorted Sorting.Permutation.
Local Open Scope Z_scope.

Definition zle (a b : Z * Z) : Prop := fst a < fst b \/ (fst a = fst b /\ snd a <= snd b).
Definition zlt (a b : Z * Z) : Prop := fst a < fst b \/ (fst a = fst b /\ snd a < snd b).
Lemma sorted_parts {X} (raw : list ((Z * Z) * X)) done e todo : NoDup raw -> ssort fst lex_leb raw = done ++ e :: todo ->
  (forall x, In x done -> zle (fst x) (fst e)) /\ (forall x, In x todo -> zle (fst e) (fst x)) /\ ~ In e done /\ ~ In e todo.
Proof.
  intros N EL. assert (H : StronglySorted (fun a b : (Z * Z) * X => lex_leb (fst a) (fst b) = true) (ssort fst lex_leb raw)) by (apply ssort_sorted; [exact lex_total|exact lex_trans]).
  assert (N' : NoDup (ssort fst lex_leb raw)) by (eapply Permutation_NoDup; [apply ssort_perm|exact N]). rewrite EL in H, N'.
  assert (Kk : forall a b : (Z * Z) * X, lex_leb (fst a) (fst b) = true -> zle (fst a) (fst b)) by (intros a b Y; apply lex_leb_iff in Y; exact Y).
  apply NoDup_remove in N'. destruct N' as (_ & N'). rewrite in_app_iff in N'.
  split; [|split; [|tauto]]; clear EL N N'.
  - intros x I. induction done as [|y done IH]; [destruct I|]. simpl in H. inversion H as [|? ? Hs F]; subst. destruct I as [->|I]; [|auto].
    rewrite Forall_forall in F. apply Kk, F, in_or_app. right. left. reflexivity.
  - intros x I. induction done as [|y done IH]; simpl in H; inversion H as [|? ? Hs F]; subst; [|auto]. rewrite Forall_forall in F. apply Kk, F, I.
Qed.
Lemma split_where {X} (l : list X) done e todo x : l = done ++ e :: todo -> In x l -> In x done \/ x = e \/ In x todo.
Proof. intros -> I. apply in_app_or in I. destruct I as [I|[I|I]]; auto. Qed.

(** sets *)
Lemma existsb_eqb {X} (eqb : X -> X -> bool) (sp : forall a b, reflect (a = b) (eqb a b)) x l : existsb (eqb x) l = true <-> In x l.
Proof.
  rewrite existsb_exists. split.
  - intros (y & I & E). destruct (sp x y); [congruence|discriminate].
  - intros I. exists x. split; [exact I|]. destruct (sp x x); congruence.
Qed.
Lemma set_add_in {X} (eqb : X -> X -> bool) (sp : forall a b, reflect (a = b) (eqb a b)) x l : NoDup l ->
  NoDup (set_add eqb x l) /\ forall y, In y (set_add eqb x l) <-> y = x \/ In y l.
Proof.
  intros N. unfold set_add. destruct (existsb (eqb x) l) eqn:E.
  - apply (existsb_eqb eqb sp) in E. split; [exact N|]. intros y. split; [auto|]. intros [->|I]; auto.
  - assert (Ni : ~ In x l) by (rewrite <- (existsb_eqb eqb sp); congruence). split; [apply NoDup_snoc; assumption|].
    intros y. rewrite in_app_iff. simpl. split; [intros [I|[I|[]]]; auto|intros [->|I]; auto].
Qed.
Lemma set_remove_in {X} (eqb : X -> X -> bool) (sp : forall a b, reflect (a = b) (eqb a b)) x l : NoDup l -> In x l ->
  exists l', set_remove eqb x l = Ok l' /\ NoDup l' /\ forall y, In y l' <-> y <> x /\ In y l.
Proof.
  intros N I. unfold set_remove. rewrite (proj2 (existsb_eqb eqb sp x l) I). eexists. split; [reflexivity|]. split; [apply NoDup_filter; exact N|].
  intros y. rewrite filter_In. destruct (sp x y) as [->|Ne]; simpl; intuition congruence.
Qed.
Lemma pair_eqb_spec a b : reflect (a = b) (pair_eqb a b).
Proof.
  destruct a as [x n], b as [y m]. unfold pair_eqb. cbn [fst snd]. destruct (str_eqb_spec x y) as [->|N]; [|constructor; congruence].
  destruct (Nat.eqb_spec n m) as [->|N]; constructor; congruence.
Qed.

(** appending to the objects *)
Lemma append_all_ok groups k n gs : forall objs, NoDup gs ->
  (forall g, In g gs -> exists i l, groups g = Some i /\ dget (objs i) k = Some l) ->
  (forall g g', In g gs -> In g' gs -> groups g = groups g' -> g = g') ->
  exists objs', append_all groups k n gs objs = Ok objs' /\
    (forall g i l, In g gs -> groups g = Some i -> dget (objs i) k = Some l -> objs' i = dset (objs i) k (l ++ [n])) /\
    (forall i, (forall g, In g gs -> groups g <> Some i) -> objs' i = objs i).
Proof.
  induction gs as [|g gs IH]; intros objs N H Inj.
  - exists objs. split; [reflexivity|]. split; [intros g i l []|auto].
  - inversion N as [|? ? Ni N']; subst. destruct (H g (or_introl eq_refl)) as (i & l & Eg & El). cbn [append_all]. rewrite Eg. unfold obj_append, dgetE. rewrite El. cbn [rbind].
    assert (Oth : forall g', In g' gs -> groups g' <> Some i).
    { intros g' I E. apply Ni. rewrite (Inj g g'); [exact I|left; reflexivity|right; exact I|congruence]. }
    destruct (IH (upd objs i (dset (objs i) k (l ++ [n]))) N') as (objs' & E & P1 & P2).
    + intros g' I. destruct (H g' (or_intror I)) as (j & l' & Ej & El'). exists j, l'. split; [exact Ej|]. unfold upd.
      destruct (Nat.eqb_spec j i) as [->|_]; [exfalso; exact (Oth g' I Ej)|exact El'].
    + intros g1 g2 I1 I2. apply Inj; right; assumption.
    + exists objs'. split; [exact E|]. split.
      * intros g' j l' [<-|I] Ej El'.
        -- assert (j = i) by congruence. subst j. assert (l' = l) by congruence. subst l'. rewrite P2 by exact Oth. unfold upd. rewrite Nat.eqb_refl. reflexivity.
        -- assert (j <> i) by (intros ->; exact (Oth g' I Ej)).
           rewrite (P1 g' j l' I Ej); unfold upd; destruct (Nat.eqb_spec j i); congruence.
      * intros j Hj. rewrite P2 by (intros g' I; apply Hj; right; exact I). unfold upd. destruct (Nat.eqb_spec j i) as [->|_]; [|reflexivity].
        exfalso. exact (Hj g (or_introl eq_refl) Eg).
Qed.
Lemma dkeys_dset_same {A} (d : dict A) k v : dmem d k = true -> dkeys (dset d k v) = dkeys d.
Proof. intros H. rewrite dkeys_dset, H. reflexivity. Qed.
Lemma fill_ok xs : forall o, (forall k n, In (k, n) xs -> dmem o k = true) -> exists o', fill o xs = Ok o' /\ dkeys o' = dkeys o /\
  forall k l, dget o k = Some l -> dget o' k = Some (l ++ map snd (filter (fun x => str_eqb (fst x) k) xs)).
Proof.
  induction xs as [|[k n] xs IH]; intros o H.
  - exists o. split; [reflexivity|]. split; [reflexivity|]. intros k l E. simpl. rewrite app_nil_r. exact E.
  - pose proof (H k n (or_introl eq_refl)) as M. unfold dmem in M. destruct (dget o k) as [l|] eqn:El; [|discriminate M].
    cbn [fill]. unfold obj_append, dgetE. rewrite El. cbn [rbind].
    assert (Dk : dkeys (dset o k (l ++ [n])) = dkeys o) by (apply dkeys_dset_same; unfold dmem; rewrite El; reflexivity).
    destruct (IH (dset o k (l ++ [n]))) as (o' & E & K1 & K2).
    + intros k' n' I. rewrite dmem_In, Dk, <- dmem_In. exact (H k' n' (or_intror I)).
    + exists o'. split; [exact E|]. split; [rewrite K1; exact Dk|]. intros k' l' E'. cbn [filter fst].
      destruct (str_eqb_spec k k') as [<-|Ne].
      * assert (l' = l) by congruence. subst l'. rewrite (K2 k (l ++ [n])) by apply dget_dset_same. rewrite <- app_assoc. reflexivity.
      * apply K2. rewrite dget_dset_other by congruence. exact E'.
Qed.

Section Sweep.
Variables (og : nat -> list nid -> list nid) (on_ : nat -> list (pystr * nid) -> list (pystr * nid)).
Hypothesis og_any : any_order og.
Hypothesis on_any : any_order on_.
Variables (layers : dict (list nid)) (G : list nid) (gsp : nid -> Z * Z) (N : list (pystr * nid)) (nsp : pystr * nid -> Z * Z).
Hypothesis G_nodup : NoDup G.
Hypothesis N_nodup : NoDup N.
Hypothesis G_ok : forall g, In g G -> fst (gsp g) <= snd (gsp g).
Hypothesis N_ok : forall x, In x N -> fst (nsp x) <= snd (nsp x).
Hypothesis N_keys : forall x, In x N -> In (fst x) (dkeys layers).
Definition empty (p : Z * Z) : bool := fst p =? snd p.
Definition gst (g : nid) : gb_event := ((fst (gsp g), if empty (gsp g) then 3 else 0), (None, g)).
Definition gen (g : nid) : gb_event := ((snd (gsp g), if empty (gsp g) then 4 else -2), (None, g)).
Definition nst (x : pystr * nid) : gb_event := ((fst (nsp x), if empty (nsp x) then 3 else 1), (Some (fst x), snd x)).
Definition nen (x : pystr * nid) : gb_event := ((snd (nsp x), if empty (nsp x) then 4 else -1), (Some (fst x), snd x)).
Definition R : list gb_event := flat_map (fun g => [gst g; gen g]) G ++ flat_map (fun x => [nst x; nen x]) N.
Definition Ls : list gb_event := ssort fst lex_leb R.
Lemma mark_ge : forall g, 0 <= snd (fst (gst g)) < 4 /\ (snd (fst (gen g)) < 0 \/ snd (fst (gen g)) = 4).
Proof. intros g. unfold gst, gen. cbn [fst snd]. destruct (empty (gsp g)); lia. Qed.
Lemma mark_ne : forall x, 0 <= snd (fst (nst x)) < 4 /\ (snd (fst (nen x)) < 0 \/ snd (fst (nen x)) = 4).
Proof. intros x. unfold nst, nen. cbn [fst snd]. destruct (empty (nsp x)); lia. Qed.
Lemma gst_gen g : In g G -> zlt (fst (gst g)) (fst (gen g)).
Proof. intros I. apply G_ok in I. unfold zlt, gst, gen, empty. cbn [fst snd]. destruct (Z.eqb_spec (fst (gsp g)) (snd (gsp g))); lia. Qed.
Lemma nst_nen x : In x N -> zlt (fst (nst x)) (fst (nen x)).
Proof. intros I. apply N_ok in I. unfold zlt, nst, nen, empty. cbn [fst snd]. destruct (Z.eqb_spec (fst (nsp x)) (snd (nsp x))); lia. Qed.
Lemma nst_inj x y : nst x = nst y -> x = y.
Proof. destruct x, y. unfold nst. cbn [fst snd]. intros E. injection E. congruence. Qed.
Lemma nen_inj x y : nen x = nen y -> x = y.
Proof. destruct x, y. unfold nen. cbn [fst snd]. intros E. injection E. congruence. Qed.
Lemma gst_inj x y : gst x = gst y -> x = y.
Proof. unfold gst. intros E. injection E. congruence. Qed.
Lemma gen_inj x y : gen x = gen y -> x = y.
Proof. unfold gen. intros E. injection E. congruence. Qed.
Lemma gst_ne_gen x y : gst x <> gen y.
Proof. intros E. pose proof (mark_ge x). pose proof (mark_ge y). rewrite E in H. lia. Qed.
Lemma nst_ne_nen x y : nst x <> nen y.
Proof. intros E. pose proof (mark_ne x). pose proof (mark_ne y). rewrite E in H. lia. Qed.
Lemma R_nodup : NoDup R.
Proof.
  apply nodup_app; [apply flat_two_nodup; [exact G_nodup|exact gst_inj|exact gen_inj|exact gst_ne_gen]|
    apply flat_two_nodup; [exact N_nodup|exact nst_inj|exact nen_inj|exact nst_ne_nen]|].
  intros e I J. apply in_flat_map in I, J. destruct I as (g & _ & [<-|[<-|[]]]), J as (x & _ & [J|[J|[]]]); discriminate J.
Qed.
Lemma Ls_in e : In e Ls <-> (exists g, In g G /\ (e = gst g \/ e = gen g)) \/ (exists x, In x N /\ (e = nst x \/ e = nen x)).
Proof.
  assert (X : In e Ls <-> In e R) by (split; apply Permutation_in; [symmetry|]; apply (@ssort_perm gb_event (Z * Z) fst lex_leb)). rewrite X.
  unfold R. rewrite in_app_iff, !in_flat_map. split; intros [(x & I & H)|(x & I & H)].
  - left. exists x. split; [exact I|]. destruct H as [H|[H|[]]]; auto.
  - right. exists x. split; [exact I|]. destruct H as [H|[H|[]]]; auto.
  - left. exists x. split; [exact I|]. simpl. destruct H; auto.
  - right. exists x. split; [exact I|]. simpl. destruct H; auto.
Qed.
(** group and node are open at the same time *)
Definition ov (g : nid) (x : pystr * nid) : Prop := zlt (fst (nst x)) (fst (gen g)) /\ zlt (fst (gst g)) (fst (nen x)).
Lemma ov_shares g x : In g G -> In x N -> ov g x <-> shares (gsp g) (nsp x).
Proof.
  intros Ig Ix. apply G_ok in Ig. apply N_ok in Ix. unfold ov, zlt, nst, nen, gst, gen, shares, on, empty. cbn [fst snd].
  destruct (gsp g) as [a b], (nsp x) as [c d]. cbn [fst snd] in *.
  destruct (Z.eqb_spec a b) as [->|Nab], (Z.eqb_spec c d) as [->|Ncd].
  - split; [intros H; exists b; lia|intros (q & Q); lia].
  - split; [intros H; exists b; lia|intros (q & Q); lia].
  - split; [intros H; exists d; lia|intros (q & Q); lia].
  - split; [intros H; exists (Z.max a c); lia|intros (q & Q); lia].
Qed.

Definition is_gstart (e : gb_event) : bool := match fst (snd e) with None => (0 <=? snd (fst e)) && (snd (fst e) <? 4) | Some _ => false end.
Definition started (done : list gb_event) : list nid := map (fun e => snd (snd e)) (filter is_gstart done).
Definition obj_ok (done : list gb_event) (g : nid) (o : dict (list nid)) : Prop :=
  dkeys o = dkeys layers /\ forall k, In k (dkeys layers) -> exists l, dget o k = Some l /\ NoDup l /\
    forall n, In n l <-> In (k, n) N /\ In (nst (k, n)) done /\ ov g (k, n).
Record inv (done : list gb_event) (st : gb_state) : Prop := {
  i_nodes : NoDup (gb_nodes st) /\ forall x, In x (gb_nodes st) <-> In x N /\ In (nst x) done /\ ~ In (nen x) done;
  i_opens : NoDup (gb_opens st) /\ forall g, In g (gb_opens st) <-> In g G /\ In (gst g) done /\ ~ In (gen g) done;
  i_order : map fst (gb_list st) = started done;
  i_nums : map snd (gb_list st) = seq 0 (length (gb_list st));
  i_groups : forall g i, In (g, i) (gb_list st) -> gb_groups st g = Some i;
  i_objs : forall g i, In (g, i) (gb_list st) -> obj_ok done g (gb_objs st i) }.

Lemma gb_step_start e k st : 0 <= snd (fst e) < 4 -> gb_step og on_ layers k st e = match fst (snd e) with
  | Some name => let* objs := append_all (gb_groups st) name (snd (snd e)) (og k (gb_opens st)) (gb_objs st) in
      Ok (mkGB (set_add pair_eqb (name, snd (snd e)) (gb_nodes st)) (gb_opens st) (gb_groups st) objs (gb_list st))
  | None => let i := length (gb_list st) in let n := snd (snd e) in
      let* o := fill (map (fun kv => (fst kv, [])) layers) (on_ k (gb_nodes st)) in
      Ok (mkGB (gb_nodes st) (set_add Nat.eqb n (gb_opens st)) (upd (gb_groups st) n (Some i)) (upd (gb_objs st) i o) (gb_list st ++ [(n, i)]))
  end.
Proof.
  destruct e as [[p m] [l n]]. cbn [fst snd]. intros H. unfold gb_step. destruct (Z.leb_spec 0 m); [|lia]. destruct (Z.ltb_spec m 4); [|lia]. reflexivity.
Qed.
Lemma gb_step_stop e k st : snd (fst e) < 0 \/ snd (fst e) = 4 -> gb_step og on_ layers k st e = match fst (snd e) with
  | Some name => let* r := set_remove pair_eqb (name, snd (snd e)) (gb_nodes st) in Ok (mkGB r (gb_opens st) (gb_groups st) (gb_objs st) (gb_list st))
  | None => let* r := set_remove Nat.eqb (snd (snd e)) (gb_opens st) in Ok (mkGB (gb_nodes st) r (gb_groups st) (gb_objs st) (gb_list st))
  end.
Proof.
  destruct e as [[p m] [l n]]. cbn [fst snd]. intros H. unfold gb_step. destruct (Z.leb_spec 0 m); destruct (Z.ltb_spec m 4); try lia; reflexivity.
Qed.
Lemma is_gstart_gst g : is_gstart (gst g) = true.
Proof. unfold is_gstart. cbn [fst snd gst]. pose proof (mark_ge g) as (M & _). unfold gst in M. cbn [fst snd] in M.
  destruct (Z.leb_spec 0 (if empty (gsp g) then 3 else 0)); [|lia]. destruct (Z.ltb_spec (if empty (gsp g) then 3 else 0) 4); [reflexivity|lia]. Qed.
Lemma is_gstart_gen g : is_gstart (gen g) = false.
Proof. unfold is_gstart. cbn [fst snd gen]. destruct (empty (gsp g)); reflexivity. Qed.
Lemma started_snoc done e : started (done ++ [e]) = started done ++ (if is_gstart e then [snd (snd e)] else []).
Proof. unfold started. rewrite filter_app, map_app. cbn [filter]. destruct (is_gstart e); reflexivity. Qed.
Lemma list_num l (st : gb_state) : map snd l = seq 0 (length l) -> forall (g : nid) i, In (g, i) l -> (i < length l)%nat.
Proof. intros E g i I. assert (J : In i (map snd l)) by (change i with (snd (g, i)); apply in_map; exact I). rewrite E in J. apply in_seq in J. lia. Qed.

Lemma step_inv done e todo k st : Ls = done ++ e :: todo -> inv done st -> exists st', gb_step og on_ layers k st e = Ok st' /\ inv (done ++ [e]) st'.
Proof.
  intros EL V. destruct (sorted_parts R done e todo R_nodup EL) as (Bef & Aft & Ndo & Nto). destruct V as [[An1 An2] [Ag1 Ag2] Co Cn Cg Cb].
  assert (Ie : In e Ls) by (rewrite EL; apply in_or_app; right; left; reflexivity).
  assert (Inc : forall x, In x done -> In x (done ++ [e])) by (intros; apply in_or_app; auto).
  assert (Ise : In e (done ++ [e])) by (apply in_or_app; right; left; reflexivity).
  assert (Dec : forall x, In x (done ++ [e]) -> x = e \/ In x done) by (intros x I; apply in_app_or in I; destruct I as [I|[I|[]]]; auto).
  assert (Dn : forall x, In x Ls -> ~ In x done -> x <> e -> In x todo).
  { intros x I Nd Ne. destruct (split_where _ _ _ _ _ EL I) as [J|[J|J]]; tauto. }
  assert (Lgst : forall g, In g G -> In (gst g) Ls) by (intros g I; apply Ls_in; left; exists g; auto).
  assert (Lgen : forall g, In g G -> In (gen g) Ls) by (intros g I; apply Ls_in; left; exists g; auto).
  assert (Lnst : forall x, In x N -> In (nst x) Ls) by (intros x I; apply Ls_in; right; exists x; auto).
  assert (Lnen : forall x, In x N -> In (nen x) Ls) by (intros x I; apply Ls_in; right; exists x; auto).
  (* the started groups are those in the list *)
  assert (Stt : forall g, In g (started done) -> In g G /\ In (gst g) done).
  { intros g I. unfold started in I. apply in_map_iff in I. destruct I as (e' & <- & I). apply filter_In in I. destruct I as (I & B).
    assert (I' : In e' Ls) by (rewrite EL; apply in_or_app; auto). apply Ls_in in I'.
    destruct I' as [(g & Ig & [-> | ->])|(x & Ix & [-> | ->])]; [cbn [snd gst]; auto|rewrite is_gstart_gen in B; discriminate B|discriminate B|discriminate B]. }
  assert (Lst : forall g i, In (g, i) (gb_list st) -> In g G /\ In (gst g) done).
  { intros g i I. apply Stt. rewrite <- Co. change g with (fst (g, i)). apply in_map. exact I. }
  assert (Lst' : forall g, In (gst g) done -> exists i, In (g, i) (gb_list st)).
  { intros g I. assert (J : In g (map fst (gb_list st))).
    { rewrite Co. unfold started. apply in_map_iff. exists (gst g). split; [reflexivity|]. apply filter_In. split; [exact I|apply is_gstart_gst]. }
    apply in_map_iff in J. destruct J as ([g' i] & <- & J). exists i. exact J. }
  apply Ls_in in Ie. destruct Ie as [(g & Ig & [-> | ->])|(x & Ix & [-> | ->])].
  - (* a group starts *)
    rewrite gb_step_start by apply mark_ge. cbn [fst snd gst]. cbv zeta.
    destruct (fill_ok (on_ k (gb_nodes st)) (map (fun kv => (fst kv, [])) layers)) as (o & Eo & Ko & Do).
    { intros k0 n I. apply dmem_In. unfold dkeys. rewrite map_map. cbn [fst]. apply (Permutation_in _ (on_any k (gb_nodes st))) in I.
      apply An2 in I. destruct I as (I & _). exact (N_keys _ I). }
    rewrite Eo. cbn [rbind]. eexists. split; [reflexivity|].
    destruct (set_add_in Nat.eqb Nat.eqb_spec g (gb_opens st) Ag1) as (S1 & S2).
    assert (Ngst : forall y, gst y <> gst g -> In (gst y) (done ++ [gst g]) <-> In (gst y) done).
    { intros y Ne. split; [|auto]. intros I. destruct (Dec _ I); congruence. }
    constructor; cbn [gb_nodes gb_opens gb_groups gb_objs gb_list].
    + split; [exact An1|]. intros y. rewrite An2. split; intros (Y1 & Y2 & Y3); split; auto; split; auto.
      * intros I. destruct (Dec _ I) as [J|J]; [discriminate J|auto].
      * destruct (Dec _ Y2) as [J|J]; [discriminate J|exact J].
    + split; [exact S1|]. intros y. rewrite S2, Ag2. split.
      * intros [->|(Y1 & Y2 & Y3)].
        -- split; [exact Ig|]. split; [exact Ise|]. intros I. destruct (Dec _ I) as [J|J]; [symmetry in J; exact (gst_ne_gen _ _ J)|].
           apply Bef in J. pose proof (gst_gen g Ig) as T. unfold zle, zlt in *. lia.
        -- split; [exact Y1|]. split; [auto|]. intros I. destruct (Dec _ I) as [J|J]; [symmetry in J; exact (gst_ne_gen _ _ J)|auto].
      * intros (Y1 & Y2 & Y3). destruct (Nat.eq_dec y g) as [->|Ny]; [auto|]. right. split; [exact Y1|]. split; [|auto].
        destruct (Dec _ Y2) as [J|J]; [apply gst_inj in J; congruence|exact J].
    + rewrite map_app, Co, started_snoc, is_gstart_gst. reflexivity.
    + rewrite map_app, Cn, app_length. cbn [map snd length]. rewrite Nat.add_1_r, seq_S. reflexivity.
    + intros g' i I. apply in_app_or in I. unfold upd. destruct I as [I|[I|[]]].
      * destruct (Nat.eqb_spec g' g) as [->|_]; [exfalso; apply Ndo; apply (Lst g i I)|exact (Cg g' i I)].
      * injection I as <- <-. rewrite Nat.eqb_refl. reflexivity.
    + intros g' i I. apply in_app_or in I. unfold upd. destruct I as [I|[I|[]]].
      * pose proof (list_num _ st Cn g' i I) as Li. destruct (Nat.eqb_spec i (length (gb_list st))) as [E|_]; [lia|].
        destruct (Cb g' i I) as (O1 & O2). split; [exact O1|]. intros k0 I0. destruct (O2 k0 I0) as (l & L1 & L2 & L3). exists l. split; [exact L1|]. split; [exact L2|].
        intros n. rewrite L3. split; intros (X1 & X2 & X3); split; auto; split; auto. destruct (Dec _ X2) as [J|J]; [discriminate J|exact J].
      * injection I as <- <-. rewrite Nat.eqb_refl. split; [rewrite Ko; unfold dkeys; rewrite map_map; reflexivity|].
        intros k0 I0. exists (map snd (filter (fun x => str_eqb (fst x) k0) (on_ k (gb_nodes st)))).
        assert (El : dget (map (fun kv : pystr * list nid => (fst kv, @nil nid)) layers) k0 = Some []).
        { clear - I0. induction layers as [|[k1 v] r IH]; [destruct I0|]. cbn [map dget fst]. destruct (str_eqb_spec k0 k1) as [->|Ne]; [reflexivity|].
          apply IH. destruct I0 as [E|I0]; [exfalso; apply Ne; symmetry; exact E|exact I0]. }
        split; [rewrite (Do k0 [] El); reflexivity|]. split.
        -- apply nodup_map_in.
           ++ intros [a1 n1] [a2 n2] J1 J2 En. apply filter_In in J1, J2. cbn [fst snd] in *. destruct J1 as (_ & J1), J2 as (_ & J2).
              apply str_eqb_eq in J1, J2. congruence.
           ++ apply NoDup_filter. eapply Permutation_NoDup; [symmetry; apply on_any|exact An1].
        -- intros n.
           assert (Mem : In n (map snd (filter (fun x => str_eqb (fst x) k0) (on_ k (gb_nodes st)))) <-> In (k0, n) (gb_nodes st)).
           { rewrite in_map_iff. split.
             - intros ([a1 n1] & <- & J). apply filter_In in J. destruct J as (J & E). cbn [fst snd] in *. apply str_eqb_eq in E. subst a1.
               eapply Permutation_in; [apply on_any|exact J].
             - intros J. exists (k0, n). split; [reflexivity|]. apply filter_In. split; [eapply Permutation_in; [symmetry; apply on_any|exact J]|]. cbn [fst]. apply str_eqb_refl. }
           rewrite Mem, An2. split.
           ++ intros (X1 & X2 & X3). split; [exact X1|]. split; [auto|].
              assert (T : In (nen (k0, n)) todo) by (apply Dn; [apply Lnen; exact X1|exact X3|discriminate]).
              apply Aft in T. apply Bef in X2. pose proof (gst_gen g Ig) as T1. pose proof (mark_ge g) as (M1 & _). pose proof (mark_ne (k0, n)) as (_ & M2).
              unfold ov, zle, zlt in *. lia.
           ++ intros (X1 & X2 & X3). destruct (Dec _ X2) as [J|J]; [discriminate J|]. split; [exact X1|]. split; [exact J|]. intros B. apply Bef in B.
              destruct X3 as (_ & X3). unfold zle, zlt in *. lia.
  - (* a group stops *)
    rewrite gb_step_stop by apply mark_ge. cbn [fst snd gen].
    assert (Io : In g (gb_opens st)).
    { apply Ag2. split; [exact Ig|]. split; [|exact Ndo]. destruct (split_where _ _ _ _ _ EL (Lgst g Ig)) as [J|[J|J]]; [exact J|exfalso; exact (gst_ne_gen _ _ J)|].
      apply Aft in J. pose proof (gst_gen g Ig) as T. unfold zle, zlt in *. lia. }
    destruct (set_remove_in Nat.eqb Nat.eqb_spec g (gb_opens st) Ag1 Io) as (l & El & N1 & N2). rewrite El. cbn [rbind]. eexists. split; [reflexivity|].
    constructor; cbn [gb_nodes gb_opens gb_groups gb_objs gb_list].
    + split; [exact An1|]. intros y. rewrite An2. split; intros (Y1 & Y2 & Y3); split; auto; split; auto.
      * intros I. destruct (Dec _ I) as [J|J]; [discriminate J|auto].
      * destruct (Dec _ Y2) as [J|J]; [discriminate J|exact J].
    + split; [exact N1|]. intros y. rewrite N2, Ag2. split.
      * intros (Ny & Y1 & Y2 & Y3). split; [exact Y1|]. split; [auto|]. intros I. destruct (Dec _ I) as [J|J]; [apply gen_inj in J; congruence|auto].
      * intros (Y1 & Y2 & Y3). split; [intros ->; auto|]. split; [exact Y1|]. split; [|auto]. destruct (Dec _ Y2) as [J|J]; [exfalso; exact (gst_ne_gen _ _ J)|exact J].
    + rewrite Co, started_snoc, is_gstart_gen, app_nil_r. reflexivity.
    + exact Cn.
    + exact Cg.
    + intros g' i I. destruct (Cb g' i I) as (O1 & O2). split; [exact O1|]. intros k0 I0. destruct (O2 k0 I0) as (l0 & L1 & L2 & L3). exists l0. split; [exact L1|]. split; [exact L2|].
      intros n. rewrite L3. split; intros (X1 & X2 & X3); split; auto; split; auto. destruct (Dec _ X2) as [J|J]; [discriminate J|exact J].
  - (* a node starts *)
    rewrite gb_step_start by apply mark_ne. cbn [fst snd nst]. destruct x as [k0 n0]. cbn [fst snd].
    assert (Pm : Permutation (og k (gb_opens st)) (gb_opens st)) by apply og_any.
    destruct (append_all_ok (gb_groups st) k0 n0 (og k (gb_opens st)) (gb_objs st)) as (objs & Eo & P1 & P2).
    { eapply Permutation_NoDup; [symmetry; exact Pm|exact Ag1]. }
    { intros g I. apply (Permutation_in _ Pm) in I. apply Ag2 in I. destruct I as (_ & I & _). destruct (Lst' g I) as (i & J).
      destruct (Cb g i J) as (_ & O2). destruct (O2 k0) as (l & L1 & _); [apply (N_keys _ Ix)|]. exists i, l. split; [exact (Cg g i J)|exact L1]. }
    { intros g g' I I'. apply (Permutation_in _ Pm) in I, I'. apply Ag2 in I, I'. destruct I as (_ & I & _), I' as (_ & I' & _).
      destruct (Lst' g I) as (i & J). destruct (Lst' g' I') as (i' & J'). rewrite (Cg _ _ J), (Cg _ _ J'). intros E. injection E as <-.
      assert (Nd : NoDup (map snd (gb_list st))) by (rewrite Cn; apply seq_NoDup).
      assert (X : (g, i) = (g', i)) by (apply (nodup_map_inj snd (gb_list st)); auto). congruence. }
    rewrite Eo. cbn [rbind]. eexists. split; [reflexivity|].
    destruct (set_add_in pair_eqb pair_eqb_spec (k0, n0) (gb_nodes st) An1) as (S1 & S2).
    constructor; cbn [gb_nodes gb_opens gb_groups gb_objs gb_list].
    + split; [exact S1|]. intros y. rewrite S2, An2. split.
      * intros [->|(Y1 & Y2 & Y3)].
        -- split; [exact Ix|]. split; [exact Ise|]. intros I. destruct (Dec _ I) as [J|J]; [symmetry in J; exact (nst_ne_nen _ _ J)|].
           apply Bef in J. pose proof (nst_nen _ Ix) as T. unfold zle, zlt in *. lia.
        -- split; [exact Y1|]. split; [auto|]. intros I. destruct (Dec _ I) as [J|J]; [symmetry in J; exact (nst_ne_nen _ _ J)|auto].
      * intros (Y1 & Y2 & Y3). destruct (Dec _ Y2) as [J|J]; [apply nst_inj in J; auto|]. right. split; [exact Y1|]. split; [exact J|auto].
    + split; [exact Ag1|]. intros y. rewrite Ag2. split; intros (Y1 & Y2 & Y3); split; auto; split; auto.
      * intros I. destruct (Dec _ I) as [J|J]; [discriminate J|auto].
      * destruct (Dec _ Y2) as [J|J]; [discriminate J|exact J].
    + rewrite Co, started_snoc. unfold is_gstart. cbn [nst fst snd]. rewrite app_nil_r. reflexivity.
    + exact Cn.
    + exact Cg.
    + intros g i I. destruct (Cb g i I) as (O1 & O2). destruct (Lst g i I) as (Gg & Gd).
      assert (Kin : In k0 (dkeys layers)) by apply (N_keys _ Ix).
      destruct (in_dec Nat.eq_dec g (gb_opens st)) as [Op|Op].
      * (* g is open: n0 appended *)
        destruct (O2 k0 Kin) as (l & L1 & L2 & L3).
        rewrite (P1 g i l (Permutation_in _ (Permutation_sym Pm) Op) (Cg g i I) L1).
        assert (Ov : ov g (k0, n0)).
        { apply Ag2 in Op. destruct Op as (_ & _ & Og). assert (T : In (gen g) todo) by (apply Dn; [apply Lgen; exact Gg|exact Og|discriminate]).
          apply Aft in T. apply Bef in Gd. pose proof (nst_nen _ Ix) as T1. pose proof (mark_ge g) as (_ & M1). pose proof (mark_ne (k0, n0)) as (M2 & _).
          unfold ov, zle, zlt in *. lia. }
        split; [rewrite dkeys_dset_same; [exact O1|unfold dmem; rewrite L1; reflexivity]|].
        intros k1 I1. destruct (str_eqb_spec k1 k0) as [->|Nk].
        -- exists (l ++ [n0]). split; [apply dget_dset_same|]. split.
           ++ apply NoDup_snoc; [exact L2|]. rewrite L3. intros (_ & X & _). exact (Ndo X).
           ++ intros n. rewrite in_app_iff. cbn [In]. rewrite L3. split.
              ** intros [(X1 & X2 & X3)|[<-|[]]]; [auto|]. split; [exact Ix|]. split; [exact Ise|exact Ov].
              ** intros (X1 & X2 & X3). destruct (Dec _ X2) as [J|J]; [apply nst_inj in J; right; left; congruence|left; auto].
        -- destruct (O2 k1 I1) as (l1 & M1 & M2 & M3). exists l1. split; [rewrite dget_dset_other by exact Nk; exact M1|]. split; [exact M2|].
           intros n. rewrite M3. split; intros (X1 & X2 & X3); split; auto; split; auto. destruct (Dec _ X2) as [J|J]; [apply nst_inj in J; congruence|exact J].
      * (* g has stopped *)
        rewrite P2.
        2: { intros g' I' E. apply (Permutation_in _ Pm) in I'. pose proof I' as I2. apply Ag2 in I2. destruct I2 as (_ & I2 & _). destruct (Lst' g' I2) as (i' & J').
             rewrite (Cg _ _ J') in E. injection E as ->. assert (Nd : NoDup (map snd (gb_list st))) by (rewrite Cn; apply seq_NoDup).
             assert (X : (g, i) = (g', i)) by (apply (nodup_map_inj snd (gb_list st)); auto). injection X as Y. apply Op. rewrite Y. exact I'. }
        assert (Gen : In (gen g) done).
        { destruct (split_where _ _ _ _ _ EL (Lgen g Gg)) as [J|[J|J]]; [exact J|discriminate J|]. exfalso. apply Op, Ag2. split; [exact Gg|]. split; [exact Gd|].
          intros J'. apply Bef in J'. apply Aft in J. pose proof (mark_ge g) as (_ & M1). pose proof (mark_ne (k0, n0)) as (M2 & _). unfold zle in *. lia. }
        split; [exact O1|]. intros k1 I1. destruct (O2 k1 I1) as (l1 & M1 & M2 & M3). exists l1. split; [exact M1|]. split; [exact M2|].
        intros n. rewrite M3. split; intros (X1 & X2 & X3); split; auto; split; auto. destruct (Dec _ X2) as [J|J]; [|exact J]. exfalso.
        apply nst_inj in J. rewrite J in X3. apply Bef in Gen. destruct X3 as (X3 & _). unfold zle, zlt in *. lia.
  - (* a node stops *)
    rewrite gb_step_stop by apply mark_ne. cbn [fst snd nen]. destruct x as [k0 n0]. cbn [fst snd].
    assert (Io : In (k0, n0) (gb_nodes st)).
    { apply An2. split; [exact Ix|]. split; [|exact Ndo]. destruct (split_where _ _ _ _ _ EL (Lnst _ Ix)) as [J|[J|J]]; [exact J|exfalso; exact (nst_ne_nen _ _ J)|].
      apply Aft in J. pose proof (nst_nen _ Ix) as T. unfold zle, zlt in *. lia. }
    destruct (set_remove_in pair_eqb pair_eqb_spec (k0, n0) (gb_nodes st) An1 Io) as (l & El & N1 & N2). rewrite El. cbn [rbind]. eexists. split; [reflexivity|].
    constructor; cbn [gb_nodes gb_opens gb_groups gb_objs gb_list].
    + split; [exact N1|]. intros y. rewrite N2, An2. split.
      * intros (Ny & Y1 & Y2 & Y3). split; [exact Y1|]. split; [auto|]. intros I. destruct (Dec _ I) as [J|J]; [apply nen_inj in J; congruence|auto].
      * intros (Y1 & Y2 & Y3). split; [intros ->; auto|]. split; [exact Y1|]. split; [|auto]. destruct (Dec _ Y2) as [J|J]; [exfalso; exact (nst_ne_nen _ _ J)|exact J].
    + split; [exact Ag1|]. intros y. rewrite Ag2. split; intros (Y1 & Y2 & Y3); split; auto; split; auto.
      * intros I. destruct (Dec _ I) as [J|J]; [discriminate J|auto].
      * destruct (Dec _ Y2) as [J|J]; [discriminate J|exact J].
    + rewrite Co, started_snoc. unfold is_gstart. cbn [nen fst snd]. rewrite app_nil_r. reflexivity.
    + exact Cn.
    + exact Cg.
    + intros g' i I. destruct (Cb g' i I) as (O1 & O2). split; [exact O1|]. intros k1 I1. destruct (O2 k1 I1) as (l0 & L1 & L2 & L3). exists l0. split; [exact L1|]. split; [exact L2|].
      intros n. rewrite L3. split; intros (X1 & X2 & X3); split; auto; split; auto. destruct (Dec _ X2) as [J|J]; [exfalso; exact (nst_ne_nen _ _ J)|exact J].
Qed.
Lemma loop_inv todo : forall done k st, Ls = done ++ todo -> inv done st -> exists st', gb_loop og on_ layers k st todo = Ok st' /\ inv Ls st'.
Proof.
  induction todo as [|e todo IH]; intros done k st EL V.
  - rewrite app_nil_r in EL. rewrite EL. exists st. split; [reflexivity|exact V].
  - destruct (step_inv done e todo k st EL V) as (st1 & E1 & V1). cbn [gb_loop]. rewrite E1. cbn [rbind].
    apply (IH (done ++ [e])); [rewrite <- app_assoc; exact EL|exact V1].
Qed.
Lemma sweep_inv : exists st, gb_loop og on_ layers 0 (mkGB [] [] (fun _ => None) (fun _ => []) []) Ls = Ok st /\ inv Ls st.
Proof.
  apply (loop_inv Ls []); [reflexivity|]. constructor; cbn [gb_nodes gb_opens gb_groups gb_objs gb_list]; try (intros g i []); try reflexivity.
  - split; [constructor|]. intros x. split; [intros []|intros (_ & [] & _)].
  - split; [constructor|]. intros x. split; [intros []|intros (_ & [] & _)].
Qed.
End Sweep.
